(** C86: the conversions between datetimes and milliseconds in floating point. *)
From Verif Require Import PyBase PyFloat MTime MFloat SFloat LFloat LFloat2.
From Coq Require Import QArith Lqa.
Open Scope Z_scope.

(** The rounding of the model is that of IEEE 754: every result is a double nearest to the
    exact one. *)
Theorem C86_rounding : forall n d, 0 < d -> nearest (inject_Z n / inject_Z d) (qv (fl n d)).
Proof. exact fl_nearest. Qed.
Print Assumptions C86_rounding.

Definition f_zero : float := (0, 1).
Lemma split_us tz dt : tz mod US = 0 -> dt = tz + (dt - tz) / US * US + dt mod US.
Proof.
  unfold US. intro H. apply Z.div_exact in H; [|lia]. set (k := tz / 1000000) in *. clearbody k. subst tz.
  pose proof (Z.div_mod dt 1000000). replace (dt - 1000000 * k) with (dt + (- k) * 1000000) by ring. rewrite Z.div_add by lia. lia.
Qed.

(** C86 wants this for every datetime.  Proved for whole seconds (more than all years that
    datetime has): the scheduled time in milliseconds is exact. *)
Theorem C86_scheduled_partial :
  forall tz dt, tz mod US = 0 -> dt mod US = 0 -> Z.abs (dt - tz) < 9000000000000000000 ->
    f_dt_to_milliseconds tz dt * 1000 + tz = dt.
Proof.
  intros tz dt Ht Hm Hr. pose proof (split_us tz dt Ht) as E. unfold f_dt_to_milliseconds, f_timestamp. rewrite Hm in *.
  set (s := (dt - tz) / US) in *. clearbody s. unfold US in *.
  assert (Hs : Z.abs s < 9000000000000) by lia.
  assert (F0 : forall d, fl 0 d = f_zero) by reflexivity. unfold f_div_int. rewrite !F0.
  assert (Z0 : (qv f_zero == inject_Z 0)%Q) by reflexivity. assert (R0 : rep f_zero) by reflexivity.
  assert (A1 : (qv (f_add (f_of_int s) f_zero) == inject_Z s)%Q).
  { apply f_add_whole; [apply fl_rep|exact R0| |lia]. rewrite Z0, f_of_int_q by lia. change (inject_Z 0) with 0%Q. ring. }
  assert (A2 : (qv (f_mul (f_add (f_of_int s) f_zero) (f_of_int 1000)) == inject_Z (s * 1000))%Q).
  { apply f_mul_whole; [apply fl_rep|apply fl_rep| |lia]. rewrite A1, f_of_int_q, inject_Z_mult by lia. reflexivity. }
  rewrite (f_int_whole _ (s * 1000)); [lia|apply fl_rep|].
  apply f_add_whole; [apply fl_rep|exact R0| |lia]. rewrite A2, Z0. change (inject_Z 0) with 0%Q. ring.
Qed.
Print Assumptions C86_scheduled_partial.

(** C86 wants this for every millisecond.  Proved up to the year 2242: the datetime shown is
    exact to the microsecond. *)
Theorem C86_shown_partial :
  forall tz ms, 0 <= ms < 2 ^ 33 * 1000 -> f_milliseconds_to_dt tz ms = ms * 1000 + tz.
Proof.
  intros tz ms Hms. unfold f_milliseconds_to_dt, f_fromtimestamp, f_div_int.
  assert (Q1 : (0 <= inject_Z ms)%Q) by (change 0%Q with (inject_Z 0); rewrite <- Zle_Qle; lia).
  assert (Q2 : (inject_Z ms <= inject_Z (2 ^ 33 * 1000 - 1))%Q) by (rewrite <- Zle_Qle; lia).
  assert (Ev : (inject_Z ms / inject_Z 1000 == inject_Z ms * (1 # 1000))%Q) by (change (inject_Z 1000) with (1000 # 1)%Q; field).
  pose proof (fl_near ms 1000 33 ltac:(lia) ltac:(lia) ltac:(lia)) as N1.
  pose proof (fl_rep ms 1000) as R1. set (t := fl ms 1000) in *.
  assert (T0 : (0 <= qv t)%Q).
  { unfold t, qv. pose proof (fl_rep ms 1000) as R. unfold rep in R. apply Qle_shift_div_l; [apply inj_pos; exact R|]. rewrite Qmult_0_l.
    change 0%Q with (inject_Z 0). rewrite <- Zle_Qle. unfold fl. destruct (ms =? 0) eqn:E0; [cbn; lia|].
    assert (HE : forall a b, 0 <= a -> 0 < b -> 0 <= half_even a b).
    { intros a b Ha Hb. pose proof (half_even_err a b Hb). set (h := half_even a b) in *. clearbody h. nia. }
    set (e := Z.max _ _). clearbody e. destruct (Z.leb_spec 0 e); cbn [fst].
    - apply Z.mul_nonneg_nonneg; [apply HE; [lia|]|apply Z.pow_nonneg; lia]. assert (0 < 2 ^ e) by (apply Z.pow_pos_nonneg; lia). lia.
    - apply HE; [|lia]. apply Z.mul_nonneg_nonneg; [lia|]. apply Z.pow_nonneg; lia. }
  clearbody t.
  destruct (f_frac_q t R1) as [R2 F]. pose proof (f_frac_range t R1 T0) as FR. set (i := f_int t) in *. clearbody i.
  set (fr := f_frac t) in *. clearbody fr.
  assert (U : (qv (f_of_int US) == 1000000)%Q) by (apply f_of_int_q; reflexivity).
  pose proof (f_mul_near fr (f_of_int US) 20 R2 (fl_rep _ _) ltac:(lia)) as N2. rewrite U in N2.
  change (inject_Z (2 ^ 20)) with (1048576 # 1)%Q in N2.
  assert (G : (- (1048576 # 1) < qv fr * 1000000 < 1048576 # 1)%Q) by lra. specialize (N2 G).
  rewrite (f_round_near _ (ms * 1000 - i * US)); [lia|apply fl_rep|].
  set (v := qv (f_mul fr (f_of_int US))) in *. clearbody v.
  unfold Zminus. rewrite inject_Z_plus, inject_Z_opp, !inject_Z_mult. change (inject_Z 1000) with (1000 # 1)%Q. change (inject_Z US) with (1000000 # 1)%Q.
  assert (E33 : (eps 33 == 1 # 2097152)%Q) by reflexivity. assert (E20 : (eps 20 == 1 # 17179869184)%Q) by reflexivity.
  rewrite E33, Ev in N1. rewrite E20 in N2. rewrite F in *. lra.
Qed.
Print Assumptions C86_shown_partial.

(** So a whole second comes back as it was. *)
Theorem C86_round_trip_partial :
  forall tz dt, tz mod US = 0 -> dt mod US = 0 -> 0 <= dt - tz < 2 ^ 33 * US ->
    f_milliseconds_to_dt tz (f_dt_to_milliseconds tz dt) = dt.
Proof.
  intros tz dt Ht Hm Hr. unfold US in Hr. pose proof (C86_scheduled_partial tz dt Ht Hm ltac:(lia)) as E. rewrite C86_shown_partial by lia. exact E.
Qed.
Print Assumptions C86_round_trip_partial.

(** For other instants (until 2242): the result is at most one millisecond below
    [2 * microsecond / 1000] added to the seconds, which is what the formula gives in exact
    arithmetic. *)
Theorem C86_subsecond_partial :
  forall tz dt, tz mod US = 0 -> 0 <= dt - tz < (2 ^ 33 - 1) * US ->
    let exact := (dt - tz) / US * 1000 + 2 * (dt mod US) / 1000 in
    exact - 1 <= f_dt_to_milliseconds tz dt <= exact.
Proof.
  intros tz dt Ht Hr exact. unfold f_dt_to_milliseconds, f_timestamp.
  assert (Hs : 0 <= (dt - tz) / US <= 2 ^ 33 - 2).
  { unfold US in *. split; [apply Z.div_pos; lia|]. assert ((dt - tz) / 1000000 < 2 ^ 33 - 1) by (apply Z.div_lt_upper_bound; lia). lia. }
  assert (Hu : 0 <= dt mod US < US) by (apply Z.mod_pos_bound; reflexivity).
  subst exact. set (s := (dt - tz) / US) in *. set (u := dt mod US) in *. clearbody s u. clear Hr. unfold US in *.
  assert (S1 : (0 <= inject_Z s)%Q) by (change 0%Q with (inject_Z 0); rewrite <- Zle_Qle; lia).
  assert (S2 : (inject_Z s <= 8589934590)%Q) by (change 8589934590%Q with (inject_Z (2 ^ 33 - 2)); rewrite <- Zle_Qle; lia).
  assert (U1 : (0 <= inject_Z u)%Q) by (change 0%Q with (inject_Z 0); rewrite <- Zle_Qle; lia).
  assert (U2 : (inject_Z u <= 999999)%Q) by (change 999999%Q with (inject_Z 999999); rewrite <- Zle_Qle; lia).
  unfold f_div_int.
  pose proof (fl_near u 1000000 0 ltac:(lia) ltac:(lia) ltac:(lia)) as N1. pose proof (fl_rep u 1000000) as R1. set (x1 := fl u 1000000) in *. clearbody x1.
  pose proof (fl_near u 1000 10 ltac:(lia) ltac:(lia) ltac:(lia)) as N4. pose proof (fl_rep u 1000) as R4. set (x4 := fl u 1000) in *. clearbody x4.
  assert (V0 : (qv (f_of_int s) == inject_Z s)%Q) by (apply f_of_int_q; lia). pose proof (fl_rep s 1) as R0. fold (f_of_int s) in R0.
  set (x0 := f_of_int s) in *. clearbody x0.
  change (inject_Z 1000000) with (1000000 # 1)%Q in N1. change (inject_Z 1000) with (1000 # 1)%Q in N4.
  assert (D1 : (inject_Z u / (1000000 # 1) == inject_Z u * (1 # 1000000))%Q) by field. assert (D4 : (inject_Z u / (1000 # 1) == inject_Z u * (1 # 1000))%Q) by field.
  rewrite D1 in N1. rewrite D4 in N4.
  assert (E0 : (eps 0 == 1 # 18014398509481984)%Q) by reflexivity. assert (E10 : (eps 10 == 1 # 17592186044416)%Q) by reflexivity.
  assert (E33 : (eps 33 == 1 # 2097152)%Q) by reflexivity. assert (E43 : (eps 43 == 1 # 2048)%Q) by reflexivity.
  rewrite E0 in N1. rewrite E10 in N4.
  pose proof (f_add_near x0 x1 33 R0 R1 ltac:(lia)) as N2. change (inject_Z (2 ^ 33)) with 8589934592%Q in N2. rewrite V0, E33 in N2.
  assert (G2 : (- 8589934592 < inject_Z s + qv x1 < 8589934592)%Q) by lra. specialize (N2 G2).
  pose proof (fl_rep (fst x0 * snd x1 + fst x1 * snd x0) (snd x0 * snd x1)) as R2. fold (f_add x0 x1) in R2. set (x2 := f_add x0 x1) in *. clearbody x2.
  assert (V1 : (qv (f_of_int 1000) == 1000)%Q) by (apply f_of_int_q; reflexivity).
  pose proof (f_mul_near x2 (f_of_int 1000) 43 R2 (fl_rep _ _) ltac:(lia)) as N3. change (inject_Z (2 ^ 43)) with 8796093022208%Q in N3. rewrite V1, E43 in N3.
  assert (G3 : (- 8796093022208 < qv x2 * 1000 < 8796093022208)%Q) by lra. specialize (N3 G3).
  pose proof (fl_rep (fst x2 * fst (f_of_int 1000)) (snd x2 * snd (f_of_int 1000))) as R3. fold (f_mul x2 (f_of_int 1000)) in R3. set (x3 := f_mul x2 (f_of_int 1000)) in *. clearbody x3.
  pose proof (f_add_near x3 x4 43 R3 R4 ltac:(lia)) as N5. change (inject_Z (2 ^ 43)) with 8796093022208%Q in N5. rewrite E43 in N5.
  assert (G5 : (- 8796093022208 < qv x3 + qv x4 < 8796093022208)%Q) by lra. specialize (N5 G5).
  pose proof (fl_rep (fst x3 * snd x4 + fst x4 * snd x3) (snd x3 * snd x4)) as R5. fold (f_add x3 x4) in R5. set (x5 := f_add x3 x4) in *. clearbody x5.
  (* within 1.5 thousandths of the exact value *)
  assert (B : (inject_Z s * 1000 + inject_Z u * (2 # 1000) - (3 # 2000) < qv x5 < inject_Z s * 1000 + inject_Z u * (2 # 1000) + (3 # 2000))%Q) by lra.
  clear - B R5 S1 S2 U1 U2 Hs Hu.
  (* the integer part, via the numerator *)
  unfold rep in R5. unfold f_int, qv in *. set (a := fst x5) in *. set (b := snd x5) in *. clearbody a b.
  pose proof (inj_pos _ R5) as Qb. destruct B as [B1 B2].
  apply (Qmult_lt_r _ _ _ Qb) in B1. apply (Qmult_lt_r _ _ _ Qb) in B2.
  assert (Ea : (inject_Z a / inject_Z b * inject_Z b == inject_Z a)%Q) by (field; lra). rewrite Ea in B1, B2.
  assert (Z1 : (1000000 * s + 2 * u) * b * 2 - 3 * b < a * 2000).
  { rewrite Zlt_Qlt. unfold Zminus. rewrite inject_Z_plus, inject_Z_opp, !inject_Z_mult, inject_Z_plus, !inject_Z_mult.
    change (inject_Z 1000000) with (1000000 # 1)%Q. change (inject_Z 2) with (2 # 1)%Q. change (inject_Z 3) with (3 # 1)%Q. change (inject_Z 2000) with (2000 # 1)%Q. lra. }
  assert (Z2 : a * 2000 < (1000000 * s + 2 * u) * b * 2 + 3 * b).
  { rewrite Zlt_Qlt. rewrite inject_Z_plus, !inject_Z_mult, inject_Z_plus, !inject_Z_mult.
    change (inject_Z 1000000) with (1000000 # 1)%Q. change (inject_Z 2) with (2 # 1)%Q. change (inject_Z 3) with (3 # 1)%Q. change (inject_Z 2000) with (2000 # 1)%Q. lra. }
  clear B1 B2 Ea Qb S1 S2 U1 U2.
  set (w := 2 * u / 1000). assert (W : 1000 * w <= 2 * u <= 1000 * w + 998).
  { unfold w. pose proof (Z.div_mod (2 * u) 1000 ltac:(lia)) as Q1. pose proof (Z.mod_pos_bound (2 * u) 1000 ltac:(lia)) as Q2.
    pose proof (Z.div_mod u 500 ltac:(lia)) as Q3. pose proof (Z.mod_pos_bound u 500 ltac:(lia)) as Q4. lia. }
  assert (Wn : 0 <= w) by lia. clearbody w.
  destruct (Z.le_gt_cases 0 a) as [A|A].
  - rewrite Z.quot_div_nonneg by lia. pose proof (Z.div_mod a b ltac:(lia)) as Q1. pose proof (Z.mod_pos_bound a b R5) as Q2.
    set (q := a / b) in *. set (r := a mod b) in *. clearbody q r. subst a. split; nia.
  - (* only at the epoch itself *)
    assert (s = 0) by nia. subst s. assert (Ha : - b < a) by nia.
    assert (Q0 : Z.quot a b = 0) by (rewrite <- (Z.opp_involutive a), Z.quot_opp_l by lia; rewrite Z.quot_small by lia; reflexivity).
    rewrite Q0. assert (w <= 0) by nia. lia.
Qed.
Print Assumptions C86_subsecond_partial.

(** The functions in exact arithmetic (MTime.v), which the other properties are about, agree. *)
Theorem C86_model_partial :
  forall tz dt, tz mod US = 0 -> dt mod US = 0 -> Z.abs (dt - tz) < 9000000000000000000 ->
    f_dt_to_milliseconds tz dt = dt_to_milliseconds tz dt /\
    (forall ms, 0 <= ms < 2 ^ 33 * 1000 -> f_milliseconds_to_dt tz ms = milliseconds_to_dt tz ms).
Proof.
  intros tz dt Ht Hm Hr. split; [|intros ms; apply C86_shown_partial].
  pose proof (C86_scheduled_partial tz dt Ht Hm Hr) as E. unfold dt_to_milliseconds. rewrite Hm.
  set (m := f_dt_to_milliseconds tz dt) in *. clearbody m. replace (dt - tz + 0) with (m * 1000) by lia. rewrite Z.quot_mul by lia. reflexivity.
Qed.
Print Assumptions C86_model_partial.

(** ** False in general. *)

(** The claim for all instants until 2242: as in exact arithmetic. *)
Definition as_exact : Prop :=
  forall tz dt, tz mod US = 0 -> 0 <= dt - tz < (2 ^ 33 - 1) * US ->
    f_dt_to_milliseconds tz dt = (dt - tz) / US * 1000 + 2 * (dt mod US) / 1000.
(** 2004-09-10 14:38:31.797: one millisecond less *)
Theorem C86_subsecond_refuted : ~ as_exact.
Proof.
  intro H. specialize (H 0 (1094827111 * US + 797000) eq_refl). assert (R : 0 <= 1094827111 * US + 797000 - 0 < (2 ^ 33 - 1) * US) by (vm_compute; split; congruence).
  specialize (H R). vm_compute in H. discriminate.
Qed.
Print Assumptions C86_subsecond_refuted.

(** The claim for all milliseconds of the years of datetime (until 9999). *)
Definition shown_exactly : Prop := forall tz ms, 0 <= ms < 253402300800000 -> f_milliseconds_to_dt tz ms = ms * 1000 + tz.
(** one microsecond off in 2242, up to fifteen in 9999 *)
Theorem C86_shown_refuted : ~ shown_exactly.
Proof. intro H. specialize (H 0 (2 ^ 33 * 1000 + 1) ltac:(lia)). vm_compute in H. discriminate. Qed.
Print Assumptions C86_shown_refuted.

Example C86_demo :
  (fl 1 10, qv (fl 1 10), half_even 5 2, half_even 7 2) = ((7205759403792794, 72057594037927936), qv (7205759403792794, 72057594037927936), 2, 4) /\
  f_dt_to_milliseconds (28800 * US) (1650000000 * US) * 1000 + 28800 * US = 1650000000 * US /\
  f_milliseconds_to_dt 0 1650000000123 = 1650000000123000 /\
  f_milliseconds_to_dt 0 (2 ^ 33 * 1000 + 1) = (2 ^ 33 * 1000 + 1) * 1000 - 1 /\
  map (fun ms => f_milliseconds_to_dt 0 ms - ms * 1000) [253402300799001; 253402300799002; 253402300799999] = [7; 14; -7].
Proof. vm_compute. repeat split. Qed.

(** a tie is rounded to the even neighbour (a case: 5/2 and 7/2 above) *)
Theorem C86_ties : forall n d k, 0 < d -> 2 * n = (2 * k + 1) * d -> (half_even n d = k \/ half_even n d = k + 1) /\ Z.even (half_even n d) = true.
Proof.
  intros n d k Hd E. assert (Q : n / d = k) by (symmetry; apply (Z.div_unique_pos n d k (n - k * d)); nia).
  assert (R : 2 * (n mod d) = d) by (pose proof (Z.div_mod n d ltac:(lia)); nia).
  unfold half_even. cbv zeta. rewrite Q, R, Z.ltb_irrefl. destruct (Z.even k) eqn:Ek; [auto|]. split; [auto|]. 
  replace (k + 1) with (Z.succ k) by lia. rewrite Z.even_succ, <- Z.negb_even, Ek. reflexivity.
Qed.
Print Assumptions C86_ties.
