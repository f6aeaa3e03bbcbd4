(** Dates: conversion to and from (year, month, day), formatting and parsing. *)
From Verif Require Import PyBase PyStr MTime MDate LStr.
Open Scope Z_scope.

(** ** the calendar: years and days within a 400-year era, then lifted *)
Definition era_ok (doe : Z) : bool :=
  let '(y, m, d) := era_date doe in
  (1 <=? m) && (m <=? 12) && (1 <=? d) && (d <=? month_days y m) && (0 <=? y) && (y <=? 400) &&
  (days_of_civil y m d =? doe - 719468).

Fixpoint all_upto (f : Z -> bool) (n : nat) (z : Z) : bool :=
  match n with O => true | S n' => f z && all_upto f n' (z + 1) end.
Lemma all_upto_ok f n : forall z, all_upto f n z = true -> forall x, z <= x < z + Z.of_nat n -> f x = true.
Proof.
  induction n as [|n IH]; intros z H x Hx; [lia|]. cbn [all_upto] in H. apply andb_prop in H as [H1 H2].
  destruct (Z.eq_dec x z) as [->|Hne]; [exact H1|]. apply (IH (z + 1) H2). lia.
Qed.

(** the first day of a year of the era, and the year of a day *)
Definition yfirst (y : Z) : Z := 365 * y + y / 4 - y / 100 + y / 400.
Definition yoe_of (doe : Z) : Z := (doe - doe / 1460 + doe / 36524 - doe / 146096) / 365.
Lemma yoe_mono a b : a <= b -> yoe_of a <= yoe_of b.
Proof. intros H. unfold yoe_of. apply Z.div_le_mono; [reflexivity|]. Z.to_euclidean_division_equations. lia. Qed.

Definition year_ok (y : Z) : bool :=
  (yoe_of (yfirst y) =? y) && (yoe_of (yfirst (y + 1) - 1) =? y) && (yfirst y <? yfirst (y + 1)) &&
  (yfirst y =? 365 * y + y / 4 - y / 100) &&
  (yfirst (y + 1) - yfirst y =? if leap (y + 1) then 366 else 365).
Lemma years_check : all_upto year_ok 400 0 = true.
Proof. vm_compute. reflexivity. Qed.

Lemma find_year n : forall doe, 0 <= doe < yfirst (Z.of_nat n) -> (n <= 400)%nat ->
  exists y, 0 <= y < 400 /\ yfirst y <= doe < yfirst (y + 1).
Proof.
  induction n as [|n IH]; intros doe H Hn; [cbn in H; lia|].
  destruct (Z.lt_ge_cases doe (yfirst (Z.of_nat n))) as [Hl|Hl]; [apply IH; [split; [apply H|exact Hl]|lia]|].
  exists (Z.of_nat n). split; [lia|]. split; [exact Hl|]. replace (Z.of_nat n + 1) with (Z.of_nat (S n)) by lia. apply H.
Qed.

(** month and day of the n-th day of a year that starts in March *)
Definition mp_of (doy : Z) : Z := (5 * doy + 2) / 153.
Definition day_ok (doy : Z) : bool :=
  let mp := mp_of doy in
  let d := doy - (153 * mp + 2) / 5 + 1 in
  let m := if mp <? 10 then mp + 3 else mp - 9 in
  (1 <=? m) && (m <=? 12) && (1 <=? d) && ((m + 9) mod 12 =? mp) &&
  (d <=? if m =? 2 then (if doy =? 365 then 29 else 28) else month_days 1 m).
Lemma days_check : all_upto day_ok 366 0 = true.
Proof. vm_compute. reflexivity. Qed.

Lemma era_date_ok doe : 0 <= doe < 146097 -> era_ok doe = true.
Proof.
  intros H. destruct (find_year 400 doe) as (y & Hy & Hd); [exact H|lia|].
  pose proof (all_upto_ok _ _ _ years_check y ltac:(lia)) as K. unfold year_ok in K.
  rewrite !andb_true_iff, !Z.eqb_eq, Z.ltb_lt in K. destruct K as ((((K1 & K2) & K3) & K4) & K5).
  assert (Ey : yoe_of doe = y).
  { pose proof (yoe_mono _ _ (proj1 Hd)). pose proof (yoe_mono doe (yfirst (y + 1) - 1) ltac:(lia)). lia. }
  unfold era_ok, era_date. fold (yoe_of doe). rewrite Ey. cbv zeta. rewrite <- K4.
  set (doy := doe - yfirst y) in *. assert (Hdoy : 0 <= doy < if leap (y + 1) then 366 else 365) by (unfold doy; lia).
  assert (Hdoy' : 0 <= doy < 0 + Z.of_nat 366) by (destruct (leap (y + 1)); lia).
  pose proof (all_upto_ok _ _ _ days_check doy Hdoy') as D. unfold day_ok in D. cbv zeta in D. fold (mp_of doy).
  set (mp := mp_of doy) in *. set (d := doy - (153 * mp + 2) / 5 + 1) in *. set (m := if mp <? 10 then mp + 3 else mp - 9) in *.
  rewrite !andb_true_iff, !Z.leb_le, Z.eqb_eq in D. destruct D as ((((D1 & D2) & D3) & D4) & D5).
  rewrite !andb_true_iff, !Z.leb_le, Z.eqb_eq.
  split; [split; [split; [split; [split; [split|]|]|]|]|]; try assumption.
  - unfold month_days in *. destruct (Z.eqb_spec m 2) as [Em|Em].
    + rewrite Em. change (2 <=? 2) with true. cbv iota. destruct (leap (y + 1)), (Z.eqb_spec doy 365); lia.
    + exact D5.
  - destruct (m <=? 2); lia.
  - destruct (m <=? 2); lia.
  - unfold days_of_civil.
    replace (if m <=? 2 then (if m <=? 2 then y + 1 else y) - 1 else if m <=? 2 then y + 1 else y) with y by (destruct (m <=? 2); lia).
    rewrite Z.mod_small, Z.div_small, D4 by lia. rewrite Z.mul_0_l. unfold doy, d in *. lia.
Qed.

Lemma leap_shift y k : leap (y + k * 400) = leap y.
Proof.
  unfold leap. rewrite Z_mod_plus_full.
  replace (y + k * 400) with (y + (k * 100) * 4) by lia. rewrite Z_mod_plus_full.
  replace (y + k * 100 * 4) with (y + (k * 4) * 100) by lia. rewrite Z_mod_plus_full. reflexivity.
Qed.
Lemma month_days_shift y m k : month_days (y + k * 400) m = month_days y m.
Proof. unfold month_days. rewrite leap_shift. reflexivity. Qed.
Lemma days_of_civil_shift y m d k : days_of_civil (y + k * 400) m d = days_of_civil y m d + k * 146097.
Proof.
  unfold days_of_civil. destruct (m <=? 2).
  - replace (y + k * 400 - 1) with (y - 1 + k * 400) by lia. rewrite Z_mod_plus_full, Z_div_plus_full by discriminate. lia.
  - rewrite Z_mod_plus_full, Z_div_plus_full by discriminate. lia.
Qed.

Lemma civil_ok n : let '(y, m, d) := civil_of_days n in
  1 <= m <= 12 /\ 1 <= d <= month_days y m /\ days_of_civil y m d = n.
Proof.
  unfold civil_of_days. set (z := n + 719468).
  pose proof (Z.mod_pos_bound z 146097 ltac:(reflexivity)) as Hb. pose proof (era_date_ok _ Hb) as H.
  unfold era_ok in H. destruct (era_date (z mod 146097)) as [[y m] d].
  rewrite !andb_true_iff, !Z.leb_le, Z.eqb_eq in H. destruct H as ((((((H1 & H2) & H3) & H4) & _) & _) & H5).
  rewrite month_days_shift, days_of_civil_shift, H5. pose proof (Z.div_mod z 146097 ltac:(discriminate)). split; [lia|]. split; [lia|]. unfold z in *. lia.
Qed.

(** years in the representable range correspond to a range of days *)
Definition year_of (n : Z) : Z := fst (fst (civil_of_days n)).
Definition date_ok (n : Z) : Prop := 1000 <= year_of n <= 9999.

(** ** decimal fields *)
Lemma digits_length k : forall z, length (digits k z) = k.
Proof. induction k as [|k IH]; intros z; cbn [digits]; [reflexivity|]. rewrite app_length, IH. cbn. lia. Qed.
Lemma last_digit z : is_digit (Z.to_N (48 + z mod 10)) = true /\ digit_val (Z.to_N (48 + z mod 10)) = z mod 10.
Proof.
  pose proof (Z.mod_pos_bound z 10 ltac:(reflexivity)). unfold is_digit, digit_val. rewrite Z2N.id by lia. split; [|lia].
  apply andb_true_intro. split; apply N.leb_le; lia.
Qed.
Lemma digits_digits k : forall z, forallb is_digit (digits k z) = true.
Proof.
  induction k as [|k IH]; intros z; cbn [digits]; [reflexivity|]. rewrite forallb_app, IH. cbn [forallb]. rewrite (proj1 (last_digit z)). reflexivity.
Qed.
Lemma num_value_digits k : forall z, num_value (digits k z) = z mod 10 ^ Z.of_nat k.
Proof.
  induction k as [|k IH]; intros z; cbn [digits]; [cbn; rewrite Z.mod_1_r; reflexivity|].
  unfold num_value. rewrite fold_left_app. cbn [fold_left]. change (fold_left _ (digits k (z / 10)) 0) with (num_value (digits k (z / 10))).
  rewrite IH, (proj2 (last_digit z)). rewrite Nat2Z.inj_succ, Z.pow_succ_r by lia.
  rewrite Z.rem_mul_r; [lia|discriminate|apply Z.pow_pos_nonneg; lia].
Qed.
Lemma digits_no k c z : is_digit c = false -> has_char c (digits k z) = false.
Proof. intros H. apply digits_no_char; [exact H|]. apply Forall_forall. intros x Hx. exact (proj1 (forallb_forall _ _) (digits_digits k z) x Hx). Qed.
Lemma num_digits lo hi k z : (lo <= k <= hi)%nat -> 0 <= z < 10 ^ Z.of_nat k -> num lo hi (digits k z) = Some z.
Proof.
  intros Hk Hz. unfold num. rewrite digits_length, digits_digits, num_value_digits, Z.mod_small by exact Hz.
  replace (Nat.leb lo k) with true by (symmetry; apply Nat.leb_le; lia). replace (Nat.leb k hi) with true by (symmetry; apply Nat.leb_le; lia). reflexivity.
Qed.

Lemma parse_date_fmt n y m d : civil_of_days n = (y, m, d) -> 1000 <= y <= 9999 ->
  parse_date (digits 4 y ++ 45%N :: digits 2 m ++ 45%N :: digits 2 d) = Ok n.
Proof.
  intros E Hy. pose proof (civil_ok n) as H. rewrite E in H. destruct H as (Hm & Hd & Hn).
  assert (Hd2 : d <= 31) by (unfold month_days in Hd; destruct (m =? 2), (leap y), ((m =? 4) || (m =? 6) || (m =? 9) || (m =? 11)); lia).
  unfold parse_date. rewrite split_on_app by (apply digits_no; reflexivity). rewrite split_on_app by (apply digits_no; reflexivity).
  rewrite split_on_none by (apply digits_no; reflexivity).
  rewrite !num_digits by (lia || (cbn; lia)). unfold mk_date.
  replace ((1 <=? y) && (y <=? 9999) && (1 <=? m) && (m <=? 12) && (1 <=? d) && (d <=? month_days y m)) with true; [congruence|].
  symmetry. rewrite !andb_true_iff, !Z.leb_le. lia.
Qed.

Lemma parse_hms_fmt s : 0 <= s < 86400 ->
  parse_hms (digits 2 (s / 3600) ++ 58%N :: digits 2 (s / 60 mod 60) ++ 58%N :: digits 2 (s mod 60)) = Ok (s * US).
Proof.
  intros Hs. assert (H1 : 0 <= s / 3600 < 24) by (split; [apply Z.div_pos; lia|apply Z.div_lt_upper_bound; lia]).
  pose proof (Z.mod_pos_bound (s / 60) 60 ltac:(reflexivity)). pose proof (Z.mod_pos_bound s 60 ltac:(reflexivity)).
  unfold parse_hms. rewrite split_on_app by (apply digits_no; reflexivity). rewrite split_on_app by (apply digits_no; reflexivity).
  rewrite split_on_none by (apply digits_no; reflexivity). rewrite !num_digits by (lia || (cbn; lia)). unfold mk_time.
  replace ((0 <=? s / 3600) && (s / 3600 <? 24) && (0 <=? s / 60 mod 60) && (s / 60 mod 60 <? 60) && (0 <=? s mod 60) && (s mod 60 <? 60)) with true
    by (symmetry; rewrite !andb_true_iff, !Z.leb_le, !Z.ltb_lt; lia).
  f_equal. f_equal. pose proof (Z.div_mod s 60 ltac:(discriminate)). pose proof (Z.div_mod (s / 60) 60 ltac:(discriminate)).
  assert (s / 60 / 60 = s / 3600) by (rewrite Z.div_div by lia; reflexivity). lia.
Qed.

Lemma parse_frac_fmt f : 0 <= f < US -> parse_frac (digits 6 f) = Some f.
Proof.
  intros Hf. unfold parse_frac. rewrite num_digits by (lia || (cbn; unfold US in Hf; lia)). rewrite digits_length. cbn [Z.of_nat]. f_equal.
  change (6 - Z.of_nat 6) with 0. lia.
Qed.

Lemma parse_fmt_dt dt : date_ok (dt_date dt) -> parse_dt (fmt_dt dt) = Ok dt.
Proof.
  unfold date_ok, year_of, fmt_dt. cbv zeta. destruct (civil_of_days (dt_date dt)) as [[y m] d] eqn:E. cbn [fst]. intros Hy.
  set (t := dt_time dt). assert (Ht : 0 <= t < DAY) by (apply Z.mod_pos_bound; reflexivity).
  pose (D := digits 4 y ++ 45%N :: digits 2 m ++ 45%N :: digits 2 d).
  pose (H := digits 2 (t / US / 3600) ++ 58%N :: digits 2 (t / US / 60 mod 60) ++ 58%N :: digits 2 (t / US mod 60)).
  pose (F := digits 6 (t mod US)).
  assert (Es : digits 4 y ++ 45%N :: digits 2 m ++ 45%N :: digits 2 d ++ 32%N ::
    digits 2 (t / US / 3600) ++ 58%N :: digits 2 (t / US / 60 mod 60) ++ 58%N :: digits 2 (t / US mod 60) ++ 46%N :: digits 6 (t mod US)
    = D ++ 32%N :: H ++ 46%N :: F).
  { unfold D, H, F. repeat (rewrite <- app_assoc || rewrite <- app_comm_cons). reflexivity. }
  rewrite Es. clear Es.
  assert (HD : forall c, is_digit c = false -> c <> 45%N -> has_char c D = false).
  { intros c Hc Hne. unfold D. rewrite !has_char_app. cbn [has_char existsb]. change (existsb (N.eqb c)) with (has_char c).
    rewrite !has_char_app. cbn [has_char existsb]. change (existsb (N.eqb c)) with (has_char c). rewrite !digits_no by exact Hc.
    replace (c =? 45)%N with false by (symmetry; apply N.eqb_neq; exact Hne). reflexivity. }
  assert (HH : forall c, is_digit c = false -> c <> 58%N -> has_char c H = false).
  { intros c Hc Hne. unfold H. rewrite !has_char_app. cbn [has_char existsb]. change (existsb (N.eqb c)) with (has_char c).
    rewrite !has_char_app. cbn [has_char existsb]. change (existsb (N.eqb c)) with (has_char c). rewrite !digits_no by exact Hc.
    replace (c =? 58)%N with false by (symmetry; apply N.eqb_neq; exact Hne). reflexivity. }
  assert (HF : forall c, is_digit c = false -> has_char c F = false) by (intros c Hc; apply digits_no; exact Hc).
  unfold parse_dt. rewrite split_on_app by (apply HD; [reflexivity|discriminate]).
  rewrite split_on_none.
  2:{ rewrite has_char_app. cbn [has_char existsb]. change (existsb (N.eqb 32%N)) with (has_char 32%N).
      rewrite HH, HF by (reflexivity || discriminate). reflexivity. }
  unfold D at 1. rewrite (parse_date_fmt _ _ _ _ E Hy). cbn [rbind].
  replace (has_char 46%N (D ++ 32%N :: H ++ 46%N :: F)) with true.
  2:{ symmetry. apply has_char_In. apply in_or_app. right. right. apply in_or_app. right. left. reflexivity. }
  rewrite split_on_app by (apply HH; [reflexivity|discriminate]). rewrite split_on_none by (apply HF; reflexivity).
  assert (Hs : 0 <= t / US < 86400) by (split; [apply Z.div_pos; unfold US; lia|apply Z.div_lt_upper_bound; unfold US, DAY in *; lia]).
  unfold H. rewrite (parse_hms_fmt _ Hs). cbn [rbind]. unfold F. rewrite parse_frac_fmt by (apply Z.mod_pos_bound; reflexivity).
  f_equal. unfold combine. pose proof (Z.div_mod t US ltac:(discriminate)). pose proof (Z.div_mod dt DAY ltac:(discriminate)). unfold t, dt_date, dt_time in *. lia.
Qed.
