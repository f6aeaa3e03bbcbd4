(** What C70 means by its words. *)
From Verif Require Import PyBase PyStr MOrder MAccount MGate MPersist MPersist2.
Open Scope list_scope.
Open Scope Z_scope.

(** reachable, with reads failing at any start *)
Inductive q_reach (posix : bool) : pst -> Prop :=
| qr_init d : q_reach posix (p_init d)
| qr_step s l s' : q_reach posix s -> q_step posix l s = Some s' -> q_reach posix s'.

(** the rename that makes a save take effect *)
Definition no_save (s : pst) (l : qlab) : Prop := match ps_pc s, l with PDumped _, QStep LStep => False | _, _ => True end.
(** executions in which no save takes effect *)
Inductive unsaved : pst -> pst -> Prop :=
| un_refl s : unsaved s s
| un_step s l s1 s2 : no_save s l -> q_step true l s = Some s1 -> unsaved s1 s2 -> unsaved s s2.
