(** Lemmas about rounding to doubles (PyFloat.v). *)
From Verif Require Import PyBase PyFloat.
From Coq Require Import QArith Lqa.
Open Scope Z_scope.

(** ** half_even *)
Lemma half_even_err n d : 0 < d -> - d <= 2 * (half_even n d * d - n) <= d.
Proof.
  intro H. unfold half_even. pose proof (Z.div_mod n d) as E. pose proof (Z.mod_pos_bound n d H) as B.
  set (q := n / d) in *. set (r := n mod d) in *. clearbody q r.
  destruct (Z.ltb_spec (2 * r) d); [nia|]. destruct (Z.ltb_spec d (2 * r)); [nia|]. destruct (Z.even q); nia.
Qed.
Lemma half_even_unique n d k : 0 < d -> - d < 2 * (k * d - n) < d -> half_even n d = k.
Proof.
  intros H B. pose proof (half_even_err n d H) as C. set (h := half_even n d) in *. clearbody h. nia.
Qed.
Lemma half_even_exact k d : 0 < d -> half_even (k * d) d = k.
Proof. intro H. apply half_even_unique; [exact H|]. rewrite Z.sub_diag. lia. Qed.

(** ** the exponent *)
Lemma flog_below n d K : 0 < n -> 0 < d -> 0 <= K -> n < d * 2 ^ K -> flog n d < K.
Proof.
  intros Hn Hd HK H. unfold flog.
  pose proof (Z.log2_spec n Hn) as [A1 A2]. pose proof (Z.log2_spec d Hd) as [B1 B2].
  set (ln := Z.log2 n) in *. set (ld := Z.log2 d) in *.
  assert (Pn : 0 <= ln) by apply Z.log2_nonneg. assert (Pd : 0 <= ld) by apply Z.log2_nonneg. clearbody ln ld.
  assert (G : ln - ld <= K).
  { destruct (Z.le_gt_cases (ln - ld) K) as [|G]; [assumption|exfalso].
    assert (2 ^ (Z.succ ld + K) <= 2 ^ ln) by (apply Z.pow_le_mono_r; lia).
    rewrite Z.pow_add_r in * by lia. assert (0 < 2 ^ K) by (apply Z.pow_pos_nonneg; lia). nia. }
  destruct (Z.leb_spec (d * 2 ^ Z.max (ln - ld) 0) (n * 2 ^ Z.max (- (ln - ld)) 0)) as [L|L]; [|lia].
  destruct (Z.eq_dec (ln - ld) K) as [E|]; [exfalso|lia]. rewrite E in L. rewrite Z.max_l, Z.max_r in L by lia. change (2 ^ 0) with 1 in L. lia.
Qed.

Definition rep (x : float) : Prop := 0 < snd x.
Definition qv (x : float) : Q := (inject_Z (fst x) / inject_Z (snd x))%Q.

Lemma fl_rep n d : rep (fl n d).
Proof.
  unfold fl, rep. destruct (n =? 0); [reflexivity|]. destruct (0 <=? _) eqn:E; cbn [snd]; [reflexivity|].
  apply Z.leb_gt in E. apply Z.pow_pos_nonneg; lia.
Qed.

(** the error is at most half a unit of the last of 53 bits *)
Lemma fl_err n d K : 0 < d -> 0 <= K <= 53 -> Z.abs n < d * 2 ^ K ->
  - (d * snd (fl n d)) <= (fst (fl n d) * d - n * snd (fl n d)) * 2 ^ (54 - K) <= d * snd (fl n d).
Proof.
  intros Hd HK Hn. unfold fl. destruct (Z.eqb_spec n 0) as [->|H0]; [cbn [fst snd]; rewrite !Z.mul_0_l; cbn; lia|].
  pose proof (flog_below (Z.abs n) d K ltac:(lia) Hd ltac:(lia) Hn) as Hf.
  set (e := Z.max (flog (Z.abs n) d - 52) (-1074)). assert (He : e <= K - 53) by lia. clearbody e. clear Hf.
  replace (2 ^ (54 - K)) with (2 * 2 ^ (53 - K)) by (rewrite <- Z.pow_succ_r by lia; f_equal; lia).
  destruct (Z.leb_spec 0 e) as [L|L]; cbn [fst snd].
  - assert (e = 0) by lia. assert (K = 53) by lia. subst e K. change (53 - 53) with 0. change (2 ^ 0) with 1. rewrite !Z.mul_1_r.
    pose proof (half_even_err n d Hd). lia.
  - pose proof (half_even_err (n * 2 ^ (- e)) d Hd) as B.
    assert (P : 2 ^ (53 - K) <= 2 ^ (- e)) by (apply Z.pow_le_mono_r; lia).
    assert (P0 : 0 < 2 ^ (53 - K)) by (apply Z.pow_pos_nonneg; lia).
    set (h := half_even _ _) in *. set (y := 2 ^ (- e)) in *. set (z := 2 ^ (53 - K)) in *. clearbody h y z. nia.
Qed.

(** whole numbers below 2^53 are floats *)
Lemma fl_whole q d : 0 < d -> Z.abs q < 2 ^ 53 -> fst (fl (q * d) d) = q * snd (fl (q * d) d).
Proof.
  intros Hd Hq. unfold fl. destruct (Z.eqb_spec (q * d) 0) as [H0|H0]; [cbn [fst snd]; nia|].
  assert (Hn : Z.abs (q * d) < d * 2 ^ 53) by (rewrite Z.abs_mul, (Z.abs_eq d) by lia; nia).
  pose proof (flog_below (Z.abs (q * d)) d 53 ltac:(lia) Hd ltac:(lia) Hn) as Hf.
  set (e := Z.max _ _). assert (He : e <= 0) by lia. clearbody e.
  destruct (Z.leb_spec 0 e) as [L|L]; cbn [fst snd].
  - assert (e = 0) by lia. subst e. change (2 ^ 0) with 1. rewrite !Z.mul_1_r. apply half_even_exact. exact Hd.
  - replace (q * d * 2 ^ (- e)) with ((q * 2 ^ (- e)) * d) by ring. apply half_even_exact. exact Hd.
Qed.

(** ** in rationals *)
Open Scope Q_scope.
Lemma inj_pos z : (0 < z)%Z -> 0 < inject_Z z.
Proof. intro H. change 0 with (inject_Z 0). rewrite <- Zlt_Qlt. exact H. Qed.
Lemma inj_nz z : (0 < z)%Z -> ~ inject_Z z == 0.
Proof. intros H E. pose proof (inj_pos z H) as L. rewrite E in L. apply (Qlt_irrefl 0). exact L. Qed.
Lemma div_le a b c : 0 < b -> a <= c * b -> a / b <= c.
Proof. intros H L. apply Qle_shift_div_r; assumption. Qed.

Definition eps (K : Z) : Q := 1 / inject_Z (2 ^ (54 - K)).
Lemma fl_near n d K : (0 < d)%Z -> (0 <= K <= 53)%Z -> (Z.abs n < d * 2 ^ K)%Z ->
  - eps K <= qv (fl n d) - inject_Z n / inject_Z d <= eps K.
Proof.
  intros Hd HK Hn. pose proof (fl_err n d K Hd HK Hn) as E. pose proof (fl_rep n d) as R. unfold rep in R. unfold qv.
  set (a := fst (fl n d)) in *. set (b := snd (fl n d)) in *. clearbody a b.
  assert (P : (0 < 2 ^ (54 - K))%Z) by (apply Z.pow_pos_nonneg; lia). unfold eps. set (w := (2 ^ (54 - K))%Z) in *. clearbody w.
  pose proof (inj_pos _ Hd) as Qd. pose proof (inj_pos _ R) as Qb. pose proof (inj_pos _ P) as Qw.
  assert (X : inject_Z a / inject_Z b - inject_Z n / inject_Z d == inject_Z ((a * d - n * b) * w) / (inject_Z d * inject_Z b * inject_Z w)).
  { rewrite inject_Z_mult. unfold Zminus. rewrite inject_Z_plus, inject_Z_opp, !inject_Z_mult. field. repeat split; apply inj_nz; assumption. }
  assert (D : 0 < inject_Z d * inject_Z b * inject_Z w).
  { apply Qmult_lt_0_compat; [apply Qmult_lt_0_compat|]; assumption. }
  assert (Y : 1 / inject_Z w == inject_Z (d * b) / (inject_Z d * inject_Z b * inject_Z w)).
  { rewrite inject_Z_mult. field. repeat split; apply inj_nz; assumption. }
  rewrite X, Y. split.
  - apply Qle_shift_div_l; [exact D|]. setoid_replace (- (inject_Z (d * b) / (inject_Z d * inject_Z b * inject_Z w)) * (inject_Z d * inject_Z b * inject_Z w)) with (- inject_Z (d * b)) by (field; repeat split; apply inj_nz; assumption).
    rewrite <- inject_Z_opp, <- Zle_Qle. apply E.
  - apply Qle_shift_div_r; [exact D|]. setoid_replace (inject_Z (d * b) / (inject_Z d * inject_Z b * inject_Z w) * (inject_Z d * inject_Z b * inject_Z w)) with (inject_Z (d * b)) by (field; repeat split; apply inj_nz; assumption).
    rewrite <- Zle_Qle. apply E.
Qed.
Lemma fl_whole_q q d : (0 < d)%Z -> (Z.abs q < 2 ^ 53)%Z -> qv (fl (q * d) d) == inject_Z q.
Proof.
  intros Hd Hq. unfold qv. rewrite (fl_whole q d Hd Hq). rewrite inject_Z_mult. field. apply inj_nz. exact (fl_rep _ _).
Qed.

Lemma small_abs n d K : (0 < d)%Z -> (0 <= K)%Z -> - inject_Z (2 ^ K) < inject_Z n / inject_Z d < inject_Z (2 ^ K) -> (Z.abs n < d * 2 ^ K)%Z.
Proof.
  intros Hd HK [A B]. pose proof (inj_pos _ Hd) as Qd.
  apply (Qmult_lt_r _ _ _ Qd) in A. apply (Qmult_lt_r _ _ _ Qd) in B.
  assert (E : inject_Z n / inject_Z d * inject_Z d == inject_Z n) by (field; apply inj_nz; exact Hd).
  rewrite E in A, B. rewrite <- inject_Z_opp, <- inject_Z_mult, <- Zlt_Qlt in A. rewrite <- inject_Z_mult, <- Zlt_Qlt in B. lia.
Qed.
Lemma f_add_near x y K : rep x -> rep y -> (0 <= K <= 53)%Z -> - inject_Z (2 ^ K) < qv x + qv y < inject_Z (2 ^ K) ->
  - eps K <= qv (f_add x y) - (qv x + qv y) <= eps K.
Proof.
  intros Hx Hy HK H. unfold rep in *. unfold f_add.
  assert (P : (0 < snd x * snd y)%Z) by nia.
  assert (E : inject_Z (fst x * snd y + fst y * snd x) / inject_Z (snd x * snd y) == qv x + qv y).
  { unfold qv. rewrite inject_Z_plus, !inject_Z_mult. field. split; apply inj_nz; assumption. }
  rewrite <- E in H |- *. apply fl_near; [exact P|exact HK|]. apply small_abs; [exact P|lia|exact H].
Qed.
Lemma f_mul_near x y K : rep x -> rep y -> (0 <= K <= 53)%Z -> - inject_Z (2 ^ K) < qv x * qv y < inject_Z (2 ^ K) ->
  - eps K <= qv (f_mul x y) - qv x * qv y <= eps K.
Proof.
  intros Hx Hy HK H. unfold rep in *. unfold f_mul.
  assert (P : (0 < snd x * snd y)%Z) by nia.
  assert (E : inject_Z (fst x * fst y) / inject_Z (snd x * snd y) == qv x * qv y).
  { unfold qv. rewrite !inject_Z_mult. field. split; apply inj_nz; assumption. }
  rewrite <- E in H |- *. apply fl_near; [exact P|exact HK|]. apply small_abs; [exact P|lia|exact H].
Qed.
(** a sum or product that is a whole number is exact *)
Lemma f_add_whole x y q : rep x -> rep y -> qv x + qv y == inject_Z q -> (Z.abs q < 2 ^ 53)%Z -> qv (f_add x y) == inject_Z q.
Proof.
  intros Hx Hy E H. unfold rep in *. unfold f_add. assert (P : (0 < snd x * snd y)%Z) by nia.
  assert (F : (fst x * snd y + fst y * snd x = q * (snd x * snd y))%Z).
  { apply inject_Z_injective. rewrite (inject_Z_mult q), <- E. unfold qv. rewrite inject_Z_plus, !inject_Z_mult. field. split; apply inj_nz; assumption. }
  rewrite F. apply fl_whole_q; assumption.
Qed.
Lemma f_mul_whole x y q : rep x -> rep y -> qv x * qv y == inject_Z q -> (Z.abs q < 2 ^ 53)%Z -> qv (f_mul x y) == inject_Z q.
Proof.
  intros Hx Hy E H. unfold rep in *. unfold f_mul. assert (P : (0 < snd x * snd y)%Z) by nia.
  assert (F : (fst x * fst y = q * (snd x * snd y))%Z).
  { apply inject_Z_injective. rewrite (inject_Z_mult q), <- E. unfold qv. rewrite !inject_Z_mult. field. split; apply inj_nz; assumption. }
  rewrite F. apply fl_whole_q; assumption.
Qed.
Lemma f_of_int_q z : (Z.abs z < 2 ^ 53)%Z -> qv (f_of_int z) == inject_Z z.
Proof. intro H. unfold f_of_int. rewrite <- (Z.mul_1_r z) at 1. apply fl_whole_q; [reflexivity|exact H]. Qed.

(** ** to integers *)
Lemma f_int_floor x k : rep x -> 0 <= qv x -> inject_Z k <= qv x < inject_Z (k + 1) -> f_int x = k.
Proof.
  intros Hx H0 [A B]. unfold rep in Hx. unfold f_int. pose proof (inj_pos _ Hx) as Qx.
  assert (E : qv x * inject_Z (snd x) == inject_Z (fst x)) by (unfold qv; field; apply inj_nz; exact Hx).
  apply (Qmult_le_compat_r _ _ (inject_Z (snd x))) in H0; [|apply Qlt_le_weak; exact Qx].
  apply (Qmult_le_compat_r _ _ (inject_Z (snd x))) in A; [|apply Qlt_le_weak; exact Qx].
  apply (Qmult_lt_r _ _ _ Qx) in B. rewrite E in *. rewrite <- inject_Z_mult in A, B. rewrite <- Zle_Qle in A. rewrite <- Zlt_Qlt in B.
  rewrite Qmult_0_l in H0. change 0 with (inject_Z 0) in H0. rewrite <- Zle_Qle in H0.
  rewrite Z.quot_div_nonneg by lia. symmetry. apply (Z.div_unique_pos _ _ _ (fst x - snd x * k)); lia.
Qed.
Lemma f_int_whole x k : rep x -> qv x == inject_Z k -> f_int x = k.
Proof.
  intros Hx E. unfold rep in Hx. unfold f_int.
  assert (F : (fst x = k * snd x)%Z).
  { apply inject_Z_injective. rewrite inject_Z_mult, <- E. unfold qv. field. apply inj_nz. exact Hx. }
  rewrite F. apply Z.quot_mul. lia.
Qed.
Lemma f_frac_q x : rep x -> rep (f_frac x) /\ qv (f_frac x) == qv x - inject_Z (f_int x).
Proof.
  intro Hx. split; [exact Hx|]. unfold f_frac, qv. cbn [fst snd]. unfold Zminus. rewrite inject_Z_plus, inject_Z_opp, inject_Z_mult.
  field. apply inj_nz. exact Hx.
Qed.
Lemma f_frac_range x : rep x -> 0 <= qv x -> 0 <= qv (f_frac x) < 1.
Proof.
  intros Hx H0. unfold rep in Hx. pose proof (inj_pos _ Hx) as Qx. unfold f_frac, f_int.
  assert (E : qv x * inject_Z (snd x) == inject_Z (fst x)) by (unfold qv; field; apply inj_nz; exact Hx).
  apply (Qmult_le_compat_r _ _ (inject_Z (snd x))) in H0; [|apply Qlt_le_weak; exact Qx]. rewrite E, Qmult_0_l in H0.
  change 0 with (inject_Z 0) in H0. rewrite <- Zle_Qle in H0. unfold qv. cbn [fst snd].
  rewrite Z.quot_div_nonneg by lia. replace (fst x - snd x * (fst x / snd x))%Z with (fst x mod snd x)%Z by (rewrite Z.mod_eq; lia).
  pose proof (Z.mod_pos_bound (fst x) (snd x) Hx) as [A B]. split.
  - apply Qle_shift_div_l; [exact Qx|]. rewrite Qmult_0_l. change 0 with (inject_Z 0). rewrite <- Zle_Qle. exact A.
  - apply Qlt_shift_div_r; [exact Qx|]. rewrite Qmult_1_l, <- Zlt_Qlt. exact B.
Qed.
Lemma f_round_near x k : rep x -> - (1 # 2) < inject_Z k - qv x < 1 # 2 -> f_round x = k.
Proof.
  intros Hx [A B]. unfold rep in Hx. pose proof (inj_pos _ Hx) as Qx. unfold f_round. apply half_even_unique; [exact Hx|].
  assert (E : qv x * inject_Z (snd x) == inject_Z (fst x)) by (unfold qv; field; apply inj_nz; exact Hx).
  apply (Qmult_lt_r _ _ _ Qx) in A. apply (Qmult_lt_r _ _ _ Qx) in B.
  assert (F : (inject_Z k - qv x) * inject_Z (snd x) == inject_Z (k * snd x - fst x)).
  { unfold Zminus. rewrite inject_Z_plus, inject_Z_opp, inject_Z_mult, <- E. ring. }
  rewrite F in A, B. split; rewrite Zlt_Qlt, inject_Z_mult, ?inject_Z_opp; change (inject_Z 2) with 2; lra.
Qed.
