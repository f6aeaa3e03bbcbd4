(** C83: a call of the gate behaves as if made at one moment. *)
From Verif Require Import PyBase PyStr SDate MTime MDate MOrder MAccount MGate.
Open Scope Z_scope.

(** [stamp_text s t]: HHMMSS.ffffff denotes the time of day [t], in microseconds *)
Definition stamp_text (s : str) (t : Z) : Prop :=
  exists hs h ms m ss sec fs us, s = hs ++ ms ++ ss ++ lit "." ++ fs /\
    field 2 2 hs h /\ field 2 2 ms m /\ field 2 2 ss sec /\ field 6 6 fs us /\ clock h m sec /\
    t = ((h * 60 + m) * 60 + sec) * 1000000 + us.

(** [stamped old new header eol now]: one file has grown, by a line (and a header if it was
    empty) whose stamp, on the day of that file, is [now] *)
Definition stamped (header eol : str) (old new : dict Z str) (now : Z) : Prop :=
  exists D t stamp rest, stamp_text stamp t /\ D * DAY + t = now /\
    text_of D new = text_of D old ++ (match text_of D old with [] => header ++ eol | _ => [] end) ++ stamp ++ COMMA :: rest ++ eol /\
    forall D', D' <> D -> text_of D' new = text_of D' old.

(** the gate [g] on day [d] with these files *)
Definition at_day (d : Z) (r u : dict Z str) (g : gst) : gst :=
  set_env (GEnv d (ge_now (gs_env g)) (ge_write (gs_env g)) (ge_save (gs_env g))) (set_bfiles r u g).
