(** Specification of C85: the files as they were while a sync ran. *)
From Verif Require Import PyBase PyStr MOrder MAccount MGate SGate.
From Coq Require Import Sorted.

(** a moment: the texts of the result and the update file *)
Definition moment : Type := (str * str)%type.
Definition grown (a b : moment) : Prop := exists x y, fst b = fst a ++ x /\ snd b = snd a ++ y.
(** moments in the order of time *)
Definition timeline (ms : list moment) : Prop := StronglySorted grown ms.

(** complete lines, and at most a short beginning of the next *)
Definition settled (n : nat) (t : str) : Prop := exists ls x, t = concat ls ++ x /\ Forall whole ls /\ pending n x.
(** [off] is where a line of [t] begins *)
Definition line_start (off : nat) (t : str) : Prop := exists ls x, t = concat ls ++ x /\ Forall whole ls /\ off = length (concat ls).

(** the gate with the files of a moment *)
Definition at_moment (d : Z) (r u : str) (g : gst) : gst := set_bfiles (dset d r (gs_rfile g)) (dset d u (gs_ufile g)) g.
