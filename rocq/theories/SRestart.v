(** Specification of a task over restarts (C87): one process after another, each up from
    its start to the last clock it read. *)
From Coq Require Import Sorted.
From Verif Require Import PyBase MTime.
Open Scope Z_scope.

(** [(a, b)]: a process was up from [a] to [b] (microseconds, local time) *)
Definition in_turn (lives : list (Z * Z)) : Prop := StronglySorted (fun p q => snd p < fst q) lives.
Definition up (lives : list (Z * Z)) (x : Z) : Prop := exists a b, In (a, b) lives /\ a <= x <= b.

(** an entry with the times of day [offs] is due at [x] *)
Definition due (offs : list Z) (x : Z) : Prop := exists d o, In o offs /\ x = d * DAY + o.
