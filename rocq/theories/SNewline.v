(** C135: line breaks. *)
From Verif Require Import PyBase PyStr MGate.

(** a text and its lines (Python's library reference, io: universal newlines mode) *)
Definition breakless (b : str) : Prop := ~ In 10%N b /\ ~ In 13%N b.
Inductive broken : str -> list str -> Prop :=
| br_nil : broken [] []
| br_last b : b <> [] -> breakless b -> broken b [b]
| br_line b k s ls : breakless b -> k = [10%N] \/ k = [13%N; 10%N] \/ (k = [13%N] /\ forall s', s <> 10%N :: s') ->
    broken s ls -> broken (b ++ k ++ s) ((b ++ k) :: ls).
(** a text whose '\r' all belong to a '\r\n' *)
Definition no_lone (t : str) : Prop := forall a b, t = a ++ 13%N :: b -> exists b', b = 10%N :: b'.
(** the bytes of a character in a file with '\r\n' line breaks *)
Definition crlf (c : N) : list N := if (c =? 10)%N then [13%N; 10%N] else [c].
