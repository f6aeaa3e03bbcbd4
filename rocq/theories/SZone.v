(** Specification of zones and of times that the clock shows. *)
From Verif Require Import PyBase MTime.
Open Scope Z_scope.

Section Zone.
  (** offset (seconds) at each UTC second *)
  Context (off : Z -> Z).

  (** within [x-r, x+r] the offset changes at most once, at [u0] from [A] to [B] *)
  Definition change_at (x r u0 A B : Z) : Prop :=
    forall u, x - r <= u <= x + r -> off u = if u <? u0 then A else B.
  (** offsets of at most a day, which change by at most a day, and at most once in any ten days *)
  Definition zone_ok : Prop :=
    (forall u, - 86400 <= off u <= 86400) /\
    forall x, exists u0 A B, - 86400 <= A <= 86400 /\ - 86400 <= B <= 86400 /\ - 86400 <= A - B <= 86400 /\ change_at x 432000 u0 A B.

  (** the clock shows second [t] at UTC second [u]; shows it at all; for the first time *)
  Definition shows_at (t u : Z) : Prop := u + off u = t.
  Definition shown (t : Z) : Prop := exists u, shows_at t u.
  Definition first_shown (t u : Z) : Prop := shows_at t u /\ forall u', shows_at t u' -> u <= u'.
  (** the clock jumps from [t0] to [t0 + n] at UTC second [u]: the times between are not shown *)
  Definition jump (u t0 n : Z) : Prop := 0 < n /\ (u - 1) + off (u - 1) = t0 - 1 /\ u + off u = t0 + n.
End Zone.
