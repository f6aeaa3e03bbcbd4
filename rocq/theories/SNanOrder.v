(** Specification of what the second and every further sync with the same reports does. *)
From Verif Require Import PyBase PyStr MOrder MAccount MNanOrder.
Open Scope Z_scope.

(** a report with a nan in it *)
Definition has_nan (i : finfo) : Prop := fi_deal i = Some FNaN \/ fi_avg i = Some FNaN \/ fi_comm i = Some FNaN.
(** a partly filled order with a nan in its report *)
Definition restless (i : finfo) : Prop := has_nan i /\ i_status (fi_base i) = lit "filling".
(** the notices about these, in the order of the reports *)
Inductive repeated : list finfo -> list (notice * forder) -> Prop :=
| rep_nil : repeated [] []
| rep_quiet i l ns : ~ restless i -> repeated l ns -> repeated (i :: l) ns
| rep_loud i l o ns : restless i -> fload i = Ok o -> repeated l ns -> repeated (i :: l) ((NFilling, o) :: ns).
(** a list [n] times over *)
Fixpoint times {A} (n : nat) (l : list A) : list A := match n with O => [] | S n' => l ++ times n' l end.

(** reports that load, one per order *)
Definition sound (l : list finfo) : Prop :=
  NoDup (map (fun i => i_id (fi_base i)) l) /\ Forall (fun i => exists o, fload i = Ok o) l.
