(** Specification of floats: IEEE 754 doubles as rational numbers. *)
From Verif Require Import PyBase.
From Coq Require Import QArith Qabs.
Open Scope Q_scope.

(** a finite double, the largest exponent left out *)
Definition is_double (y : Q) : Prop := exists m e, (Z.abs m < 2 ^ 53)%Z /\ (-1074 <= e)%Z /\ y == inject_Z m * 2 ^ e.
(** no double is nearer to x *)
Definition nearest (x v : Q) : Prop := is_double v /\ forall y, is_double y -> Qabs (v - x) <= Qabs (y - x).
