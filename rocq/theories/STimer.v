(** Specification of waiting (C88): clocks that run evenly. *)
From Verif Require Import PyBase.
Open Scope Z_scope.

(** the clock shows real time, up to a constant *)
Definition steady (c : Z -> Z) : Prop := exists o, forall t, c t = t + o.
