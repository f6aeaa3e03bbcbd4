(** C69, independent of [wait_lock]. *)
From Verif Require Import PyBase MLock.
Open Scope Z_scope.

(** a busy attempt that leaves time *)
Definition in_time (tmo start : Z) (a : attempt) : Prop := exists now, a = AtBusy now /\ now - start < tmo.
(** the submission is still waiting when it makes the attempt after [pre] *)
Definition waits (tmo start : Z) (pre : list attempt) : Prop := Forall (in_time tmo start) pre.
(** from one clock reading to the next it takes between [lo] and [hi]; the first comes
    after at most [hi] and not before the start *)
Fixpoint paced (lo hi prev : Z) (first : bool) (l : list attempt) : Prop :=
  match l with
  | AtBusy now :: l' => (if first then 0 else lo) <= now - prev <= hi /\ paced lo hi now false l'
  | _ => True
  end.
