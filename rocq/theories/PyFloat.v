(** Python floats: IEEE 754 double precision, round to nearest, ties to even.
    A float is a fraction (n, d) with d a power of two; an operation rounds its exact result.
    Simplifications: no infinities, NaN or signed zeros; results beyond the largest double
    are not represented (none of the values modelled comes near). *)
From Verif Require Import PyBase.
Open Scope Z_scope.

Definition float : Type := (Z * Z)%type.

(** the nearest integer of n/d (d > 0), ties to the even one; also round(x) for a float *)
Definition half_even (n d : Z) : Z :=
  let q := n / d in
  let r := n mod d in
  if 2 * r <? d then q else if d <? 2 * r then q + 1 else if Z.even q then q else q + 1.

(** floor of log2(n/d), n > 0, d > 0 *)
Definition flog (n d : Z) : Z :=
  let k := Z.log2 n - Z.log2 d in
  if d * 2 ^ Z.max k 0 <=? n * 2 ^ Z.max (- k) 0 then k else k - 1.

(** the double nearest to n/d (d > 0): 53 significant bits, exponent at least -1074 *)
Definition fl (n d : Z) : float :=
  if n =? 0 then (0, 1)
  else let e := Z.max (flog (Z.abs n) d - 52) (-1074) in
       if 0 <=? e then (half_even n (d * 2 ^ e) * 2 ^ e, 1)
       else (half_even (n * 2 ^ (- e)) d, 2 ^ (- e)).

Definition f_of_int (z : Z) : float := fl z 1.
Definition f_add (x y : float) : float := fl (fst x * snd y + fst y * snd x) (snd x * snd y).
Definition f_mul (x y : float) : float := fl (fst x * fst y) (snd x * snd y).
(** int / int and float / float, for a positive divisor *)
Definition f_div_int (a b : Z) : float := fl a b.
(** int(x): toward zero; math.modf: the fractional part (exact); round(x) *)
Definition f_int (x : float) : Z := Z.quot (fst x) (snd x).
Definition f_frac (x : float) : float := (fst x - snd x * f_int x, snd x).
Definition f_round (x : float) : Z := half_even (fst x) (snd x).
