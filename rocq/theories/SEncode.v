(** C159: texts, and what an encoding makes of them. *)
From Verif Require Import PyBase PyStr MGate.

(** [spelled e t b]: b are the bytes of t, character by character *)
Definition spelled (e : N -> option (list N)) (t : str) (b : list N) : Prop :=
  exists bs, Forall2 (fun c x => e c = Some x) t bs /\ b = concat bs.
Definition can (e : N -> option (list N)) (t : str) : Prop := exists b, spelled e t b.
(** every character takes up room *)
Definition proper (e : N -> option (list N)) : Prop := forall c, e c <> Some [].
(** the characters up to 127 are their own bytes *)
Definition over_ascii (e : N -> option (list N)) : Prop := forall c, (c < 128)%N -> e c = Some [c].
Definition ascii (t : str) : Prop := Forall (fun c => (c < 128)%N) t.
(** the decoder gives back what was encoded *)
Definition reads_back (dec : list N -> option str) (e : N -> option (list N)) : Prop :=
  forall t b, spelled e t b -> dec b = Some t.

(** the same files, one as text, the other as bytes *)
Definition same_files (e : N -> option (list N)) (f : dict Z str) (f' : dict Z str) : Prop :=
  forall d, match dget d f, dget d f' with
            | Some t, Some b => spelled e t b
            | None, None => True
            | _, _ => False
            end.
(** [coded e g b]: the same state, with the order and cancel files as bytes *)
Record coded (e : N -> option (list N)) (g b : gst) : Prop := Coded {
  cx_orders : gs_orders b = gs_orders g;
  cx_uoff : gs_uoff b = gs_uoff g;
  cx_roff : gs_roff b = gs_roff g;
  cx_day : gs_day b = gs_day g;
  cx_rfile : gs_rfile b = gs_rfile g;
  cx_ufile : gs_ufile b = gs_ufile g;
  cx_data : gs_data b = gs_data g;
  cx_env : gs_env b = gs_env g;
  cx_ofile : same_files e (gs_ofile g) (gs_ofile b);
  cx_cfile : same_files e (gs_cfile g) (gs_cfile b)
}.

(** the lines the encoding has the characters for *)
Inductive taken (e : N -> option (list N)) : list str -> list str -> Prop :=
| tk_nil : taken e [] []
| tk_in l ls ts : can e l -> taken e ls ts -> taken e (l :: ls) (l :: ts)
| tk_out l ls ts : ~ can e l -> taken e ls ts -> taken e (l :: ls) ts.
(** a file of these lines *)
Definition file_text (h eol : str) (ls : list str) : str :=
  match ls with [] => [] | _ => h ++ eol ++ concat ls end.
