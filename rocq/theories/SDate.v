(** The timestamps of reports and save files, as texts: what strptime documents for
    "%Y-%m-%d %H:%M:%S" and "%Y-%m-%d %H:%M:%S.%f".  Independent of MDate.v. *)
From Verif Require Import PyBase PyStr.
Open Scope Z_scope.

(** a decimal number as a string of digits *)
Inductive dec : str -> Z -> Prop :=
| dec_nil : dec [] 0
| dec_snoc s v d : dec s v -> 0 <= d <= 9 -> dec (s ++ [Z.to_N (48 + d)]) (10 * v + d).
(** with [lo] to [hi] digits *)
Definition field (lo hi : nat) (s : str) (v : Z) : Prop := (lo <= length s <= hi)%nat /\ dec s v.

(** the Gregorian calendar *)
Definition leap_year (y : Z) : Prop := (4 | y) /\ (~ (100 | y) \/ (400 | y)).
Definition days_in (y m n : Z) : Prop :=
  (In m [1; 3; 5; 7; 8; 10; 12] /\ n = 31) \/ (In m [4; 6; 9; 11] /\ n = 30) \/
  (m = 2 /\ leap_year y /\ n = 29) \/ (m = 2 /\ ~ leap_year y /\ n = 28).
Definition date_valid (y m d : Z) : Prop := 1 <= y <= 9999 /\ exists n, days_in y m n /\ 1 <= d <= n.
(** [day_no y m d n]: [n] days after 1970-01-01 comes the date.  The first of January of a
    year, then month by month. *)
Definition new_year (y : Z) : Z := 365 * (y - 1) + (y - 1) / 4 - (y - 1) / 100 + (y - 1) / 400.
Inductive day_no (y : Z) : Z -> Z -> Z -> Prop :=
| day_first : day_no y 1 1 (new_year y - new_year 1970)
| day_month m k n : day_no y m 1 n -> days_in y m k -> day_no y (m + 1) 1 (n + k)
| day_later m d n : day_no y m 1 n -> 1 <= d -> day_no y m d (n + d - 1).

Definition clock (h mi s : Z) : Prop := 0 <= h <= 23 /\ 0 <= mi <= 59 /\ 0 <= s <= 59.
(** the fraction of a second: nothing, or a point and 1 to 6 digits *)
Definition fraction (x : str) (us : Z) : Prop :=
  (x = [] /\ us = 0) \/
  (exists f v, x = lit "." ++ f /\ field 1 6 f v /\ us * 10 ^ Z.of_nat (length f) = v * 1000000).

(** [dt_text s t]: [s] denotes the local time [t], in microseconds since 1970-01-01 00:00 *)
Definition dt_text (s : str) (t : Z) : Prop :=
  exists ys y ms m ds d hs h mis mi ss sec x us n,
    s = ys ++ lit "-" ++ ms ++ lit "-" ++ ds ++ lit " " ++ hs ++ lit ":" ++ mis ++ lit ":" ++ ss ++ x /\
    field 4 4 ys y /\ field 1 2 ms m /\ field 1 2 ds d /\ field 1 2 hs h /\ field 1 2 mis mi /\ field 1 2 ss sec /\
    fraction x us /\ date_valid y m d /\ clock h mi sec /\ day_no y m d n /\
    t = (((n * 24 + h) * 60 + mi) * 60 + sec) * 1000000 + us.
