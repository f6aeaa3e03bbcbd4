(** Model of [float(s)] for a text and of [round(x, 3)] and [round(x, 4)] as used in
    jqtrade/account/trade_gate.py:325-327, 350-354, 488, 490 (CPython's floatobject.c:
    PyFloat_FromString, float___round___impl; pystrtod.c; dtoa.c: _Py_dg_strtod).
    Simplifications: the sign of zero and of nan is dropped. *)
From Verif Require Import PyBase PyStr PyFloat.
Open Scope Z_scope.

(** the floats with the values PyFloat.v leaves out *)
Inductive fnum := Fin (x : float) | Inf (neg : bool) | NaN.

(** the longest prefix of ASCII digits and the rest *)
Fixpoint span (s : str) : str * str :=
  match s with
  | [] => ([], [])
  | c :: s' => if is_digit c then (c :: fst (span s'), snd (span s')) else ([], s)
  end.
Definition all_digits (s : str) : bool := forallb is_digit s.
Definition dec_val (s : str) : Z := fold_left (fun a c => a * 10 + digit_val c) s 0.

(** an optional sign: whether it is a minus, and the rest *)
Definition signed (s : str) : bool * str :=
  match s with
  | c :: s' => if (c =? 45)%N then (true, s') else if (c =? 43)%N then (false, s') else (false, s)
  | [] => (false, [])
  end.

(** _Py_dg_strtod after the sign, the whole text having to be used up: digits, a point, digits
    (at least one digit in all), and an exponent.  (m, e) stands for m * 10^e. *)
Definition decimal (s : str) : option (Z * Z) :=
  let (a, r) := span s in
  let (b, r') := match r with c :: t => if (c =? 46)%N then span t else ([], r) | [] => ([], r) end in
  let m := dec_val (a ++ b) in
  let e := - Z.of_nat (length b) in
  match a ++ b, r' with
  | [], _ => None
  | _, [] => Some (m, e)
  | _, c :: t =>
      if (c =? 101)%N || (c =? 69)%N then
        let (neg, t') := signed t in
        match t' with
        | [] => None
        | _ => if all_digits t' then Some (m, e + (if neg then - dec_val t' else dec_val t')) else None
        end
      else None
  end.

(** the nearest double of m * 10^e; from 2^1024 on it is an infinity *)
Definition to_num (neg : bool) (m e : Z) : fnum :=
  let m' := if neg then - m else m in
  let x := if 0 <=? e then fl (m' * 10 ^ e) 1 else fl m' (10 ^ (- e)) in
  if 2 ^ 1024 * snd x <=? Z.abs (fst x) then Inf neg else Fin x.

Definition lower (c : N) : N := if ((65 <=? c) && (c <=? 90))%N then (c + 32)%N else c.
(** _PyOS_ascii_strtod: a number, or one of the words, in any case *)
Definition read_num (s : str) : option fnum :=
  let (neg, t) := signed s in
  match decimal t with
  | Some (m, e) => Some (to_num neg m e)
  | None =>
      let w := map lower t in
      if eqb w (lit "inf") || eqb w (lit "infinity") then Some (Inf neg)
      else if eqb w (lit "nan") then Some NaN else None
  end.

(** _Py_string_to_number_with_underscores: they are dropped if each is between digits;
    [prev]: the previous character was a digit *)
Fixpoint ungroup (prev : bool) (s : str) : option str :=
  match s with
  | [] => Some []
  | c :: s' =>
      if (c =? 95)%N then
        match s' with
        | d :: _ => if prev && is_digit d then ungroup false s' else None
        | [] => None
        end
      else option_map (cons c) (ungroup (is_digit c) s')
  end.

Section Num.
  (** [dig]: the value of a decimal digit of any script *)
  Variable dig : N -> option Z.

  (** _PyUnicode_TransformDecimalAndSpaceToASCII for what is left after the white space is
      skipped; '?' makes the text no number *)
  Definition ascii (c : N) : N :=
    if (c <? 128)%N then c else match dig c with Some v => Z.to_N (48 + v) | None => 63%N end.

  (** [float(s)]; [None] = ValueError *)
  Definition py_float (s : str) : option fnum :=
    match ungroup false (map ascii (int_strip s)) with Some t => read_num t | None => None end.
End Num.

(** [round(x, nd)] for nd >= 0 in units of the last digit: the exact value, ties to even; the
    result is the double nearest to that many units *)
Definition units (nd : Z) (x : float) : Z := half_even (fst x * 10 ^ nd) (snd x).
Definition round_nd (nd : Z) (x : float) : float := fl (units nd x) (10 ^ nd).

(** [x - y] *)
Definition f_sub (x y : float) : float := f_add x (- fst y, snd y).

(** the parameters [f3] and [f4] of MGate.v (nan and infinities are not represented there) *)
Definition figure (dig : N -> option Z) (nd : Z) (s : str) : option Z :=
  match py_float dig s with Some (Fin x) => Some (units nd x) | _ => None end.
