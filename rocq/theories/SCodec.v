(** C84: texts and their bytes. *)
From Verif Require Import PyBase PyStr MGate.

(** a codec: every character has its bytes; those of '\n' are 10, and no other character's
    bytes contain 10 *)
Record codec (enc : N -> list N) (ok : N -> Prop) : Prop := Codec {
  cd_nl : enc NL = [NL];
  cd_other : forall c, ok c -> c <> NL -> ~ In NL (enc c);
  cd_some : forall c, ok c -> enc c <> []
}.
Definition bytes (enc : N -> list N) (t : str) : list N := flat_map enc t.
(** [reads dec enc ok]: the decoder gives back what was encoded *)
Definition reads (dec : list N -> option str) (enc : N -> list N) (ok : N -> Prop) : Prop :=
  forall t, Forall ok t -> dec (bytes enc t) = Some t.

(** [encoded enc ok g b]: the same state, with the broker's files as bytes and byte positions
    in them *)
Definition encoded (enc : N -> list N) (ok : N -> Prop) (g b : gst) : Prop :=
  let d := ge_date (gs_env g) in
  exists rt ut, dget d (gs_rfile g) = Some rt /\ dget d (gs_ufile g) = Some ut /\ Forall ok rt /\ Forall ok ut /\
    (gs_roff g <= length rt)%nat /\ (gs_uoff g <= length ut)%nat /\
    b = GSt (gs_orders g) (length (bytes enc (firstn (gs_uoff g) ut))) (length (bytes enc (firstn (gs_roff g) rt))) (gs_day g)
          (gs_ofile g) (gs_cfile g) (dset d (bytes enc rt) (gs_rfile g)) (dset d (bytes enc ut) (gs_ufile g)) (gs_data g) (gs_env g).
