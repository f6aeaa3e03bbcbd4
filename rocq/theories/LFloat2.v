(** PyFloat.fl gives the nearest double. *)
From Verif Require Import PyBase PyFloat LFloat SFloat.
From Coq Require Import QArith Qabs Qpower Lqa.
Open Scope Q_scope.

Lemma flog_range n d : (0 < n)%Z -> (0 < d)%Z ->
  2 ^ flog n d <= inject_Z n / inject_Z d < 2 ^ (flog n d + 1).
Proof.
  intros Hn Hd.
  assert (P2 : ~ 2 == 0) by (intro E; discriminate E).
  assert (PW : forall k, (0 <= k)%Z -> inject_Z (2 ^ k) == 2 ^ k) by (intros k Hk; exact (Zpower_Qpower 2 k Hk)).
  pose proof (inj_pos _ Hd) as Qd. pose proof (inj_pos _ Hn) as Qn.
  assert (LE : forall k, (d * 2 ^ Z.max k 0 <= n * 2 ^ Z.max (- k) 0)%Z <-> 2 ^ k <= inject_Z n / inject_Z d).
  { intro k. rewrite Zle_Qle, !inject_Z_mult, !PW by lia.
    assert (A : 0 < 2 ^ Z.max (- k) 0) by (apply Qpower_0_lt; reflexivity).
    assert (E : 2 ^ k == 2 ^ Z.max k 0 / 2 ^ Z.max (- k) 0).
    { destruct (Z.le_ge_cases 0 k).
      - rewrite Z.max_l, Z.max_r by lia. change (2 ^ 0) with 1. field.
      - rewrite Z.max_r, Z.max_l by lia. change (2 ^ 0) with 1. rewrite Qpower_opp. field. apply Qpower_not_0. exact P2. }
    rewrite E. set (u := 2 ^ Z.max k 0). set (v := 2 ^ Z.max (- k) 0) in *. split; intro L.
    - apply Qle_shift_div_l; [exact Qd|]. setoid_replace (u / v * inject_Z d) with (inject_Z d * u / v) by (field; lra). apply Qle_shift_div_r; assumption.
    - setoid_replace (inject_Z d * u) with (u / v * (v * inject_Z d)) by (field; lra).
      setoid_replace (inject_Z n * v) with (inject_Z n / inject_Z d * (v * inject_Z d)) by (field; lra).
      apply Qmult_le_compat_r; [exact L|]. apply Qlt_le_weak, Qmult_lt_0_compat; assumption. }
  unfold flog. pose proof (Z.log2_spec n Hn) as [A1 A2]. pose proof (Z.log2_spec d Hd) as [B1 B2].
  set (ln := Z.log2 n) in *. set (ld := Z.log2 d) in *.
  assert (Pn : (0 <= ln)%Z) by apply Z.log2_nonneg. assert (Pd : (0 <= ld)%Z) by apply Z.log2_nonneg. clearbody ln ld.
  assert (C1 : 2 ^ (ln - ld - 1) <= inject_Z n / inject_Z d).
  { unfold Z.sub. rewrite !Qpower_plus by exact P2. apply Qle_shift_div_l; [exact Qd|].
    rewrite Zle_Qle, PW in A1 by exact Pn. rewrite Zlt_Qlt, PW in B2 by lia. unfold Z.succ in B2. rewrite Qpower_plus in B2 by exact P2.
    rewrite !Qpower_opp. change (2 ^ 1) with 2 in *. assert (V : 0 < 2 ^ ld) by (apply Qpower_0_lt; reflexivity). set (v := 2 ^ ld) in *.
    assert (W : 0 < 2 ^ ln) by (apply Qpower_0_lt; reflexivity). set (w := 2 ^ ln) in *. clearbody v w.
    setoid_replace (w * / v * / 2 * inject_Z d) with (w * (inject_Z d / (v * 2))) by (field; lra).
    assert (inject_Z d / (v * 2) <= 1) by (apply Qle_shift_div_r; [lra|]; lra).
    apply Qle_trans with (w * 1); [|lra]. rewrite !(Qmult_comm w). apply Qmult_le_compat_r; [assumption|lra]. }
  assert (C2 : inject_Z n / inject_Z d < 2 ^ (ln - ld + 1)).
  { unfold Z.sub. rewrite !Qpower_plus by exact P2. apply Qlt_shift_div_r; [exact Qd|].
    rewrite Zlt_Qlt, PW in A2 by lia. unfold Z.succ in A2. rewrite Qpower_plus in A2 by exact P2. rewrite Zle_Qle, PW in B1 by exact Pd.
    rewrite !Qpower_opp. change (2 ^ 1) with 2 in *. assert (V : 0 < 2 ^ ld) by (apply Qpower_0_lt; reflexivity). set (v := 2 ^ ld) in *.
    assert (W : 0 < 2 ^ ln) by (apply Qpower_0_lt; reflexivity). set (w := 2 ^ ln) in *. clearbody v w.
    setoid_replace (w * / v * 2 * inject_Z d) with (w * 2 * (inject_Z d / v)) by (field; lra).
    assert (1 <= inject_Z d / v) by (apply Qle_shift_div_l; [lra|]; lra).
    apply Qlt_le_trans with (w * 2 * 1); [lra|]. rewrite !(Qmult_comm (w * 2)). apply Qmult_le_compat_r; [assumption|lra]. }
  destruct (Z.leb_spec (d * 2 ^ Z.max (ln - ld) 0) (n * 2 ^ Z.max (- (ln - ld)) 0)) as [L|L].
  - split; [apply LE; exact L|exact C2].
  - split; [exact C1|]. replace (ln - ld - 1 + 1)%Z with (ln - ld)%Z by lia.
    apply Qnot_le_lt. intro X. apply LE in X. lia.
Qed.

Lemma two_nz : ~ 2 == 0.
Proof. intro E. discriminate E. Qed.
Lemma pw_pos k : 0 < 2 ^ k.
Proof. apply Qpower_0_lt. reflexivity. Qed.
Lemma pw_inj k : (0 <= k)%Z -> inject_Z (2 ^ k) == 2 ^ k.
Proof. exact (Zpower_Qpower 2 k). Qed.
Lemma pw_le a b : (a <= b)%Z -> 2 ^ a <= 2 ^ b.
Proof.
  intro H. replace b with (a + (b - a))%Z by lia. rewrite Qpower_plus by exact two_nz. rewrite <- (pw_inj (b - a)) by lia.
  assert (1 <= inject_Z (2 ^ (b - a))).
  { change 1 with (inject_Z 1). rewrite <- Zle_Qle. assert (0 < 2 ^ (b - a))%Z by (apply Z.pow_pos_nonneg; lia). lia. }
  pose proof (pw_pos a) as P. setoid_replace (2 ^ a) with (1 * 2 ^ a) at 1 by ring. rewrite (Qmult_comm (2 ^ a)). apply Qmult_le_compat_r; lra.
Qed.
Lemma half_even_best n d k : (0 < d)%Z -> (Z.abs (half_even n d * d - n) <= Z.abs (k * d - n))%Z.
Proof.
  intro H. pose proof (half_even_err n d H) as B. set (h := half_even n d) in *. clearbody h.
  destruct (Z.eq_dec h k) as [->|]; [lia|]. assert (k <= h - 1 \/ h + 1 <= k)%Z by lia. nia.
Qed.

Definition fexp (n d : Z) : Z := Z.max (flog (Z.abs n) d - 52) (-1074).
Lemma fl_val n d : (0 < d)%Z -> n <> 0%Z -> exists h, qv (fl n d) == inject_Z h * 2 ^ fexp n d /\
  forall k, Qabs (inject_Z h * 2 ^ fexp n d - inject_Z n / inject_Z d) <= Qabs (inject_Z k * 2 ^ fexp n d - inject_Z n / inject_Z d).
Proof.
  intros Hd Hn. unfold fl. rewrite (proj2 (Z.eqb_neq n 0) Hn). fold (fexp n d). set (e := fexp n d). clearbody e.
  assert (G : forall N D c h, (0 < D)%Z -> 0 < c -> (forall k, inject_Z k * 2 ^ e - inject_Z n / inject_Z d == c * inject_Z (k * D - N)) -> h = half_even N D ->
    forall k, Qabs (inject_Z h * 2 ^ e - inject_Z n / inject_Z d) <= Qabs (inject_Z k * 2 ^ e - inject_Z n / inject_Z d)).
  { intros N D c h HD Hc E -> k. rewrite !E, !Qabs_Qmult, (Qabs_pos c) by lra. rewrite !(Qmult_comm c). apply Qmult_le_compat_r; [|lra].
    change (inject_Z (Z.abs (half_even N D * D - N)) <= inject_Z (Z.abs (k * D - N))). rewrite <- Zle_Qle. apply half_even_best. exact HD. }
  pose proof (inj_pos _ Hd) as Qd.
  destruct (Z.leb_spec 0 e) as [L|L].
  - exists (half_even n (d * 2 ^ e)). split.
    + unfold qv. cbn [fst snd]. rewrite inject_Z_mult, (pw_inj e L). change (inject_Z 1) with 1. field.
    + apply (G n (d * 2 ^ e)%Z (/ inject_Z d)); [|apply Qinv_lt_0_compat; exact Qd| |reflexivity].
      * assert (0 < 2 ^ e)%Z by (apply Z.pow_pos_nonneg; lia). nia.
      * intro k. unfold Zminus. rewrite inject_Z_plus, inject_Z_opp, !inject_Z_mult, (pw_inj e L). field. lra.
  - assert (E : inject_Z (2 ^ (- e)) * 2 ^ e == 1).
    { rewrite (pw_inj (- e)) by lia. rewrite <- Qpower_plus by exact two_nz. replace (- e + e)%Z with 0%Z by lia. reflexivity. }
    assert (P : (0 < 2 ^ (- e))%Z) by (apply Z.pow_pos_nonneg; lia).
    exists (half_even (n * 2 ^ (- e)) d). split.
    + unfold qv. cbn [fst snd]. pose proof (inj_pos _ P) as Qp. apply (Qmult_inj_r _ _ (inject_Z (2 ^ (- e)))); [lra|].
      rewrite <- Qmult_assoc, (Qmult_comm (2 ^ e)), E. field. lra.
    + apply (G (n * 2 ^ (- e))%Z d (2 ^ e / inject_Z d)); [exact Hd| | |reflexivity].
      * apply Qlt_shift_div_l; [exact Qd|]. rewrite Qmult_0_l. apply pw_pos.
      * intro k. unfold Zminus. rewrite inject_Z_plus, inject_Z_opp, !inject_Z_mult.
        setoid_replace (2 ^ e / inject_Z d * (inject_Z k * inject_Z d + - (inject_Z n * inject_Z (2 ^ (- e))))) with
          (inject_Z k * 2 ^ e - inject_Z n / inject_Z d * (inject_Z (2 ^ (- e)) * 2 ^ e)) by (field; lra).
        rewrite E. ring.
Qed.

(** the model's rounding gives a nearest double *)
Lemma fl_nearest n d : (0 < d)%Z -> nearest (inject_Z n / inject_Z d) (qv (fl n d)).
Proof.
  intro Hd. destruct (Z.eq_dec n 0) as [->|Hn].
  { split; [exists 0%Z, 0%Z; repeat split; discriminate|]. intros y _. unfold fl, qv. cbn [Z.eqb fst snd].
    setoid_replace (inject_Z 0 / inject_Z 1 - inject_Z 0 / inject_Z d) with 0 by (pose proof (inj_pos _ Hd); change (inject_Z 0) with 0; field; change (inject_Z 1) with 1; lra).
    apply Qabs_nonneg. }
  destruct (fl_val n d Hd Hn) as (h & E & B). pose proof (inj_pos _ Hd) as Qd.
  assert (Ha : (0 < Z.abs n)%Z) by lia. pose proof (flog_range (Z.abs n) d Ha Hd) as [L U].
  assert (Hex : fexp n d = Z.max (flog (Z.abs n) d - 52) (-1074)) by reflexivity.
  set (e := fexp n d) in *. set (f := flog (Z.abs n) d) in *. clearbody e f.
  set (x := inject_Z n / inject_Z d) in *.
  assert (AX : inject_Z (Z.abs n) / inject_Z d == Qabs x).
  { unfold x. unfold Qdiv. rewrite Qabs_Qmult, (Qabs_pos (/ inject_Z d)) by (apply Qlt_le_weak, Qinv_lt_0_compat; exact Qd). reflexivity. }
  rewrite AX in L, U. clearbody x.
  (* at least the numbers 2^53 steps away are beyond x *)
  assert (X53 : Qabs x <= inject_Z (2 ^ 53) * 2 ^ e).
  { rewrite (pw_inj 53), <- Qpower_plus by (lia || exact two_nz). apply Qle_trans with (2 ^ (f + 1)); [lra|]. apply pw_le. lia. }
  assert (H53 : (Z.abs h <= 2 ^ 53)%Z).
  { pose proof (pw_pos e) as P. destruct (Z.le_gt_cases (Z.abs h) (2 ^ 53)) as [|G]; [assumption|exfalso].
    assert (S : exists s, (s = 1 \/ s = -1)%Z /\ (h * s = Z.abs h)%Z) by (destruct (Z.le_ge_cases 0 h); [exists 1%Z|exists (-1)%Z]; lia).
    destruct S as (s & Hs & Es). specialize (B (s * 2 ^ 53)%Z). rewrite !inject_Z_mult in B.
    assert (Hq : inject_Z (2 ^ 53) < inject_Z (Z.abs h)) by (rewrite <- Zlt_Qlt; exact G).
    set (w := inject_Z (2 ^ 53)) in *. set (p := 2 ^ e) in *. clearbody w p.
    destruct Hs as [->| ->].
    - replace (Z.abs h) with h in Hq by lia. assert (w * p < inject_Z h * p) by (apply Qmult_lt_r; assumption).
      apply Qabs_Qle_condition in X53. rewrite (Qabs_pos (inject_Z h * p - x)) in B by lra.
      rewrite (Qabs_pos (inject_Z 1 * w * p - x)) in B by (change (inject_Z 1) with 1; lra). change (inject_Z 1) with 1 in B. lra.
    - replace (Z.abs h) with (- h)%Z in Hq by lia. rewrite inject_Z_opp in Hq. assert (w * p < - inject_Z h * p) by (apply Qmult_lt_r; assumption).
      apply Qabs_Qle_condition in X53. rewrite (Qabs_neg (inject_Z h * p - x)) in B by lra.
      rewrite (Qabs_neg (inject_Z (-1) * w * p - x)) in B by (change (inject_Z (-1)) with (-1); lra). change (inject_Z (-1)) with (-1) in B. lra. }
  split.
  - destruct (Z.eq_dec (Z.abs h) (2 ^ 53)) as [K|K].
    + exists (h / 2)%Z, (e + 1)%Z. assert (D : h = (2 * (h / 2))%Z).
      { apply Z_div_exact_full_2; [lia|]. assert (J : (h = 2 ^ 53 \/ h = - 2 ^ 53)%Z) by lia. destruct J as [->| ->]; reflexivity. }
      split; [lia|]. split; [lia|]. rewrite E, Qpower_plus by exact two_nz. rewrite D at 1. rewrite inject_Z_mult. change (inject_Z 2) with 2. change (2 ^ 1) with 2. ring.
    + exists h, e. split; [lia|]. split; [lia|exact E].
  - intros y (m & e' & Hm & He' & Ey). rewrite E. destruct (Z.le_gt_cases e e') as [G|G].
    + (* a multiple of 2^e *)
      assert (Ey' : y == inject_Z (m * 2 ^ (e' - e)) * 2 ^ e).
      { rewrite Ey, inject_Z_mult, (pw_inj (e' - e)) by lia. rewrite <- Qmult_assoc, <- Qpower_plus by exact two_nz. replace (e' - e + e)%Z with e' by lia. reflexivity. }
      rewrite Ey'. apply B.
    + (* smaller than 2^f, which is a multiple of 2^e *)
      assert (Ef : (e = f - 52)%Z) by lia.
      assert (Y : Qabs y <= 2 ^ f).
      { rewrite Ey, Qabs_Qmult, (Qabs_pos (2 ^ e')) by (apply Qlt_le_weak, pw_pos).
        apply Qle_trans with (inject_Z (2 ^ 53) * 2 ^ e').
        - apply Qmult_le_compat_r; [|apply Qlt_le_weak, pw_pos]. change (inject_Z (Z.abs m) <= inject_Z (2 ^ 53)). rewrite <- Zle_Qle. lia.
        - rewrite (pw_inj 53), <- Qpower_plus by (lia || exact two_nz). apply pw_le. lia. }
      assert (Ew : inject_Z (2 ^ 52) * 2 ^ e == 2 ^ f) by (rewrite (pw_inj 52), <- Qpower_plus by (lia || exact two_nz); replace (52 + e)%Z with f by lia; reflexivity).
      apply Qabs_Qle_condition in Y. pose proof (pw_pos f) as Pf.
      destruct (Qlt_le_dec x 0) as [Nx|Px].
      * rewrite (Qabs_neg x) in L by lra. eapply Qle_trans; [apply (B (- 2 ^ 52)%Z)|]. rewrite inject_Z_opp.
        setoid_replace (- inject_Z (2 ^ 52) * 2 ^ e - x) with (- (2 ^ f) - x) by (rewrite <- Ew; ring).
        rewrite (Qabs_pos (- (2 ^ f) - x)) by lra. rewrite (Qabs_pos (y - x)) by lra. lra.
      * rewrite (Qabs_pos x) in L by lra. eapply Qle_trans; [apply (B (2 ^ 52)%Z)|].
        setoid_replace (inject_Z (2 ^ 52) * 2 ^ e - x) with (2 ^ f - x) by (rewrite <- Ew; ring).
        rewrite (Qabs_neg (2 ^ f - x)) by lra. rewrite (Qabs_neg (y - x)) by lra. lra.
Qed.
