(** Calendar dates and the datetime formats used by jqtrade/common/utils.py:36-45
    ([parse_dt]) and account/order.py:190-191 ([json]).  This is Python's datetime, not
    jqtrade code, except [parse_dt].  The proleptic Gregorian calendar, days counted
    from 1970-01-01. *)
From Verif Require Import PyBase PyStr MTime.
Open Scope Z_scope.

Definition leap (y : Z) : bool := (y mod 4 =? 0) && (negb (y mod 100 =? 0) || (y mod 400 =? 0)).
Definition month_days (y m : Z) : Z :=
  if m =? 2 then (if leap y then 29 else 28)
  else if (m =? 4) || (m =? 6) || (m =? 9) || (m =? 11) then 30 else 31.

(** days before the date (y, m, d); the year starts in March internally *)
Definition days_of_civil (y m d : Z) : Z :=
  let y' := if m <=? 2 then y - 1 else y in
  let yoe := y' mod 400 in
  let doy := (153 * ((m + 9) mod 12) + 2) / 5 + d - 1 in
  y' / 400 * 146097 + (yoe * 365 + yoe / 4 - yoe / 100 + doy) - 719468.

(** year, month, day of the n-th day of a 400-year era, the year relative to it *)
Definition era_date (doe : Z) : Z * Z * Z :=
  let yoe := (doe - doe / 1460 + doe / 36524 - doe / 146096) / 365 in
  let doy := doe - (365 * yoe + yoe / 4 - yoe / 100) in
  let mp := (5 * doy + 2) / 153 in
  let d := doy - (153 * mp + 2) / 5 + 1 in
  let m := if mp <? 10 then mp + 3 else mp - 9 in
  ((if m <=? 2 then yoe + 1 else yoe), m, d).
Definition civil_of_days (n : Z) : Z * Z * Z :=
  let z := n + 719468 in
  let '(y, m, d) := era_date (z mod 146097) in
  (y + z / 146097 * 400, m, d).

(** datetime.date(y, m, d): ValueError for invalid dates *)
Definition mk_date (y m d : Z) : res Z :=
  if (1 <=? y) && (y <=? 9999) && (1 <=? m) && (m <=? 12) && (1 <=? d) && (d <=? month_days y m)
  then Ok (days_of_civil y m d) else Err ValueError.

(** zero-padded decimal of width [k] *)
Fixpoint digits (k : nat) (z : Z) : str :=
  match k with
  | O => []
  | S k' => digits k' (z / 10) ++ [Z.to_N (48 + z mod 10)]
  end.

(** [strftime("%Y-%m-%d %H:%M:%S.%f")], for years 1000..9999 *)
Definition fmt_dt (dt : Z) : str :=
  let '(y, m, d) := civil_of_days (dt_date dt) in
  let t := dt_time dt in
  digits 4 y ++ 45%N :: digits 2 m ++ 45%N :: digits 2 d ++ 32%N ::
  digits 2 (t / US / 3600) ++ 58%N :: digits 2 (t / US / 60 mod 60) ++ 58%N ::
  digits 2 (t / US mod 60) ++ 46%N :: digits 6 (t mod US).

(** a strptime field: [lo] to [hi] decimal digits *)
Definition num_value (s : str) : Z := fold_left (fun acc c => acc * 10 + digit_val c) s 0.
Definition num (lo hi : nat) (s : str) : option Z :=
  if (Nat.leb lo (length s) && Nat.leb (length s) hi && forallb is_digit s)%bool then Some (num_value s) else None.

(** time of day; [%f] is right-padded to microseconds *)
Definition parse_hms (s : str) : res Z :=
  match split_on 58%N s with
  | [h; m; sec] =>
      match num 1 2 h, num 1 2 m, num 1 2 sec with
      | Some h', Some m', Some s' => mk_time h' m' s'
      | _, _, _ => Err ValueError
      end
  | _ => Err ValueError
  end.
Definition parse_frac (s : str) : option Z :=
  match num 1 6 s with
  | Some v => Some (v * 10 ^ (6 - Z.of_nat (length s)))
  | None => None
  end.
Definition parse_date (s : str) : res Z :=
  match split_on 45%N s with
  | [y; m; d] =>
      match num 4 4 y, num 1 2 m, num 1 2 d with
      | Some y', Some m', Some d' => mk_date y' m' d'
      | _, _, _ => Err ValueError
      end
  | _ => Err ValueError
  end.

(** utils.py:39-43, for strings.  Simplifications: non-ASCII digits and runs of white
    space between date and time, and a blank before a one-digit day, which strptime
    accepts, are rejected (MStrptime.v has every text; C129_plain, C129_more). *)
Definition parse_dt (s : str) : res Z :=
  match split_on 32%N s with
  | [ds; ts] =>
      do day <- parse_date ds;
      if has_char 46%N s then
        match split_on 46%N ts with
        | [hms; f] =>
            do t <- parse_hms hms;
            match parse_frac f with
            | Some us => Ok (combine day (t + us))
            | None => Err ValueError
            end
        | _ => Err ValueError
        end
      else do t <- parse_hms ts; Ok (combine day t)
  | _ => Err ValueError
  end.
