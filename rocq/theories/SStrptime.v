(** Specification: the texts that denote a time, with digits of any script (C129). *)
From Verif Require Import PyBase PyStr SDate.
Open Scope Z_scope.

(** what is known of decimal digits: the ASCII ones, their values, and that none is a blank *)
Definition digits_ok (dig : N -> option Z) : Prop :=
  (forall c, (c < 128)%N -> dig c = if is_digit c then Some (Z.of_N c - 48) else None) /\
  (forall c v, dig c = Some v -> 0 <= v <= 9 /\ is_space c = false).

Section Texts.
  Variable dig : N -> option Z.

  (** an ASCII digit; a digit of any script *)
  Definition asc (c : N) (v : Z) : Prop := 0 <= v <= 9 /\ c = Z.to_N (48 + v).
  Definition any (c : N) (v : Z) : Prop := dig c = Some v.

  (** four digits *)
  Definition year_text (s : str) (y : Z) : Prop :=
    exists a b c d x1 x2 x3 x4, s = [a; b; c; d] /\ any a x1 /\ any b x2 /\ any c x3 /\ any d x4 /\
      y = 1000 * x1 + 100 * x2 + 10 * x3 + x4.
  (** a day: one ASCII digit, also after a blank, or two digits of which the second may be of
      any script if the first is 1 or 2 *)
  Inductive day_text : str -> Z -> Prop :=
  | day_one c v : asc c v -> day_text [c] v
  | day_blank c v : asc c v -> day_text [32%N; c] v
  | day_two a c x v : asc a x -> any c v -> x = 1 \/ x = 2 \/ asc c v -> day_text [a; c] (10 * x + v).
  (** hours, minutes and seconds up to [top]: one digit of any script, or two of which the
      second may be of any script unless the first is the first of [top] and 9 would be too much *)
  Inductive unit_text (top : Z) : str -> Z -> Prop :=
  | clock_one c v : any c v -> unit_text top [c] v
  | clock_two a c x v : asc a x -> any c v -> 10 * x + 9 <= top \/ asc c v -> 10 * x + v <= top ->
      unit_text top [a; c] (10 * x + v).

  Definition hms_text (s : str) (sec : Z) : Prop :=
    exists hs h ms m ss x, s = hs ++ lit ":" ++ ms ++ lit ":" ++ ss /\
      unit_text 23 hs h /\ unit_text 59 ms m /\ unit_text 59 ss x /\ sec = (h * 60 + m) * 60 + x.

  (** year, month, day, any white space, time, fraction *)
  Definition any_dt (s : str) (t : Z) : Prop :=
    exists ys y ms m ds d ws cs sec x us n,
      s = ys ++ lit "-" ++ ms ++ lit "-" ++ ds ++ ws ++ cs ++ x /\
      year_text ys y /\ field 1 2 ms m /\ day_text ds d /\
      ws <> [] /\ Forall (fun c => is_space c = true) ws /\
      hms_text cs sec /\ fraction x us /\ date_valid y m d /\ day_no y m d n /\
      t = (n * 86400 + sec) * 1000000 + us.
End Texts.
