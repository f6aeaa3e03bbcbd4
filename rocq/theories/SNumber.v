(** Specification of the texts float() takes (Python's library reference, built-in
    functions): white space, an optional sign, a decimal number or a word; single underscores
    are allowed between digits. *)
From Verif Require Import PyBase PyStr.
From Coq Require Import QArith Qabs Qpower.
From Verif Require Import SFloat.
Open Scope Z_scope.

Definition ascii_digit (c : N) : Prop := (48 <= c <= 57)%N.

(** a text and the same without its underscores *)
Inductive grouped : str -> str -> Prop :=
| g_nil : grouped [] []
| g_char c s t : c <> 95%N -> grouped s t -> grouped (c :: s) (c :: t)
| g_under a b s t : ascii_digit a -> ascii_digit b -> grouped (b :: s) t -> grouped (a :: 95%N :: b :: s) (a :: t).

(** the number a row of digits denotes *)
Inductive denotes : str -> Z -> Prop :=
| d_nil : denotes [] 0
| d_snoc s c z : denotes s z -> ascii_digit c -> denotes (s ++ [c]) (10 * z + (Z.of_N c - 48)).

Inductive sign : str -> Z -> Prop :=
| s_none : sign [] 1
| s_plus : sign [43%N] 1
| s_minus : sign [45%N] (-1).
(** digits, a point, digits: at least one digit; their number and how many are after the point *)
Inductive mantissa : str -> Z -> Z -> Prop :=
| m_whole a z : a <> [] -> denotes a z -> mantissa a z 0
| m_point a b z : a ++ b <> [] -> denotes (a ++ b) z -> mantissa (a ++ 46%N :: b) z (Z.of_nat (length b)).
Inductive exponent : str -> Z -> Prop :=
| e_none : exponent [] 0
| e_some c sg k a z : c = 101%N \/ c = 69%N -> sign sg k -> a <> [] -> denotes a z -> exponent (c :: sg ++ a) (k * z).

(** a text in any case *)
Definition same_letter (a b : N) : Prop := b = a \/ (97 <= a <= 122)%N /\ b = (a - 32)%N.
Definition word (w s : str) : Prop := Forall2 same_letter w s.

Inductive value := VNum (q : Q) | VInf (k : Z) | VNaN.
Inductive float_text : str -> value -> Prop :=
| ft_num sg k m z p x e : sign sg k -> mantissa m z p -> exponent x e ->
    float_text (sg ++ m ++ x) (VNum (inject_Z (k * z) * (10 # 1) ^ (e - p)))
| ft_inf sg k w : sign sg k -> word (lit "inf") w \/ word (lit "infinity") w -> float_text (sg ++ w) (VInf k)
| ft_nan sg k w : sign sg k -> word (lit "nan") w -> float_text (sg ++ w) VNaN.

(** a decimal text as the broker's files have it: a sign, digits and a point with digits *)
Definition decimal_text (neg : bool) (a b : str) : str := (if neg then [45%N] else []) ++ a ++ 46%N :: b.
