(** Clock readings and timer waits in floating point. *)
From Verif Require Import PyBase PyFloat LFloat MTimer.
From Coq Require Import QArith Lqa.
Open Scope Q_scope.

Lemma big_int_near n : (0 <= n < 2 ^ 62)%Z -> - 256 <= qv (f_of_int n) - inject_Z n <= 256.
Proof.
  intros H. unfold f_of_int, fl. destruct (Z.eqb_spec n 0) as [->|H0]; [split; vm_compute; discriminate|].
  pose proof (flog_below (Z.abs n) 1 62 ltac:(lia) ltac:(lia) ltac:(lia) ltac:(lia)) as Hf.
  set (e := Z.max (flog (Z.abs n) 1 - 52) (-1074)). assert (He : (e <= 9)%Z) by lia. clearbody e. clear Hf.
  destruct (Z.leb_spec 0 e) as [L|L]; unfold qv; cbn [fst snd].
  - assert (P0 : (0 < 2 ^ e)%Z) by (apply Z.pow_pos_nonneg; lia). assert (P1 : (2 ^ e <= 512)%Z) by (change 512%Z with (2 ^ 9)%Z; apply Z.pow_le_mono_r; lia).
    pose proof (half_even_err n (1 * 2 ^ e) ltac:(lia)) as B. rewrite Z.mul_1_l in *. set (h := half_even n (2 ^ e)) in *. set (y := (2 ^ e)%Z) in *. clearbody h y.
    assert (C : (- 256 <= h * y - n <= 256)%Z) by lia. set (z := (h * y)%Z) in *. clearbody z.
    setoid_replace (inject_Z z / inject_Z 1 - inject_Z n) with (inject_Z (z - n)) by (unfold Zminus; rewrite inject_Z_plus, inject_Z_opp; field).
    change (-256) with (inject_Z (-256)). change 256 with (inject_Z 256). rewrite <- !Zle_Qle. lia.
  - assert (P0 : (0 < 2 ^ (- e))%Z) by (apply Z.pow_pos_nonneg; lia).
    rewrite <- (Z.mul_1_r (n * 2 ^ (- e))), half_even_exact by lia.
    setoid_replace (inject_Z (n * 2 ^ (- e)) / inject_Z (2 ^ (- e)) - inject_Z n) with 0; [lra|].
    rewrite inject_Z_mult. field. apply inj_nz. exact P0.
Qed.

Lemma inj_le_q a b : (a <= b)%Z -> inject_Z a <= inject_Z b.
Proof. rewrite <- Zle_Qle. auto. Qed.
Lemma inj_lt_q a b : (a < b)%Z -> inject_Z a < inject_Z b.
Proof. rewrite <- Zlt_Qlt. auto. Qed.

(** time.time() is within a microsecond of the clock *)
Lemma py_time_near ns : (0 <= ns < 2 ^ 32 * NS)%Z -> rep (py_time ns) /\ - (1 # 1000000) <= qv (py_time ns) - inject_Z ns / inject_Z NS <= 1 # 1000000.
Proof.
  intros H. unfold py_time. destruct (Z.eqb_spec (ns mod NS) 0) as [E|E].
  - split; [apply fl_rep|]. pose proof (Z.div_mod ns NS ltac:(discriminate)) as D. rewrite E in D.
    assert (B : (0 <= ns / NS < 2 ^ 32)%Z) by (split; [apply Z.div_pos; [lia|reflexivity]|apply Z.div_lt_upper_bound; [reflexivity|lia]]).
    set (q := (ns / NS)%Z) in *. clearbody q. rewrite f_of_int_q by (change (2 ^ 53)%Z with (2 ^ 32 * 2 ^ 21)%Z; lia).
    setoid_replace (inject_Z q - inject_Z ns / inject_Z NS) with 0; [split; vm_compute; discriminate|]. rewrite D, Z.add_0_r, inject_Z_mult. field. discriminate.
  - split; [apply fl_rep|]. pose proof (big_int_near ns ltac:(unfold NS in H; change (2 ^ 62)%Z with (2 ^ 32 * 2 ^ 30)%Z; lia)) as A.
    pose proof (fl_rep ns 1) as R. unfold f_of_int, rep in *. set (x := fl ns 1) in *. clearbody x.
    assert (P : (0 < snd x * NS)%Z) by (unfold NS; lia).
    assert (Q1 : inject_Z (fst x) / inject_Z (snd x * NS) == qv x / inject_Z NS).
    { unfold qv. rewrite inject_Z_mult. field. split; apply inj_nz; [reflexivity || exact R|reflexivity || exact R]. }
    assert (B0 : 0 <= inject_Z ns) by (change 0 with (inject_Z 0); apply inj_le_q; lia).
    assert (B1 : inject_Z ns <= inject_Z (2 ^ 32 * NS - 1)) by (apply inj_le_q; lia).
    assert (W : - (256 # 1000000000) <= qv x / inject_Z NS - inject_Z ns / inject_Z NS <= 256 # 1000000000).
    { setoid_replace (qv x / inject_Z NS - inject_Z ns / inject_Z NS) with ((qv x - inject_Z ns) / inject_Z NS) by (field; discriminate).
      change (inject_Z NS) with 1000000000. unfold Qdiv. change (/ 1000000000) with (1 # 1000000000). lra. }
    assert (V : qv x / inject_Z NS < inject_Z (2 ^ 32) + 1 /\ -1 < qv x / inject_Z NS).
    { change (inject_Z NS) with 1000000000 in *. unfold Qdiv in *. change (/ 1000000000) with (1 # 1000000000) in *.
      change (inject_Z (2 ^ 32 * NS - 1)) with 4294967295999999999 in B1. change (inject_Z (2 ^ 32)) with 4294967296. lra. }
    assert (HK : (Z.abs (fst x) < snd x * NS * 2 ^ 33)%Z).
    { apply small_abs; [exact P|lia|]. rewrite Q1. change (inject_Z (2 ^ 33)) with 8589934592. change (inject_Z (2 ^ 32)) with 4294967296 in V. lra. }
    pose proof (fl_near (fst x) (snd x * NS) 33 P ltac:(lia) HK) as G. rewrite Q1 in G.
    unfold eps in G. change (1 / inject_Z (2 ^ (54 - 33))) with (1 # 2097152) in G. lra.
Qed.

Open Scope Z_scope.
(** a clock reading is that of the clock to 2 microseconds *)
Lemma read_ms_near ns : 2000 <= ns < 2 ^ 32 * NS - 2000 -> (ns - 2000) / MS <= read_ms ns <= (ns + 2000) / MS.
Proof.
  intros H. destruct (py_time_near ns ltac:(lia)) as [R W]. unfold read_ms. set (x := py_time ns) in *. clearbody x.
  assert (R2 : rep (f_of_int 1000)) by apply fl_rep.
  assert (E2 : (qv (f_of_int 1000) == 1000)%Q) by reflexivity.
  assert (B0 : (inject_Z 2000 <= inject_Z ns)%Q) by (apply inj_le_q; lia).
  assert (B1 : (inject_Z ns <= inject_Z (2 ^ 32 * NS))%Q) by (apply inj_le_q; lia).
  assert (G : (- (1 # 2048) <= qv (f_mul x (f_of_int 1000)) - qv x * 1000 <= 1 # 2048)%Q).
  { pose proof (f_mul_near x (f_of_int 1000) 43 R R2 ltac:(lia)) as G. rewrite E2 in G. unfold eps in G.
    change (1 / inject_Z (2 ^ (54 - 43)))%Q with (1 # 2048) in G. apply G.
    change (inject_Z (2 ^ 43)) with (8796093022208)%Q. change (inject_Z NS) with 1000000000%Q in *. unfold Qdiv in *. change (/ 1000000000)%Q with (1 # 1000000000) in *.
    change (inject_Z (2 ^ 32 * NS)) with 4294967296000000000%Q in B1. change (inject_Z 2000) with 2000%Q in B0. lra. }
  assert (RM : rep (f_mul x (f_of_int 1000))) by apply fl_rep. set (y := f_mul x (f_of_int 1000)) in *. clearbody y.
  assert (Y : (inject_Z (ns - 2000) <= qv y * inject_Z MS <= inject_Z (ns + 2000))%Q).
  { unfold Z.sub. rewrite !inject_Z_plus, inject_Z_opp. change (inject_Z 2000) with 2000%Q in *. change (inject_Z MS) with 1000000%Q.
    change (inject_Z NS) with 1000000000%Q in *. unfold Qdiv in *. change (/ 1000000000)%Q with (1 # 1000000000) in *. lra. }
  unfold rep in RM. assert (YZ : (ns - 2000) * snd y <= fst y * MS <= (ns + 2000) * snd y).
  { assert (EY : (qv y * inject_Z MS == inject_Z (fst y * MS) / inject_Z (snd y))%Q) by (unfold qv; rewrite inject_Z_mult; field; apply inj_nz; exact RM).
    rewrite EY in Y. destruct Y as [Y1 Y2]. pose proof (inj_pos _ RM) as Qy. split; rewrite Zle_Qle; [rewrite (inject_Z_mult (ns - 2000))|rewrite (inject_Z_mult (ns + 2000))].
    - apply (Qmult_le_compat_r _ _ (inject_Z (snd y))) in Y1; [|apply Qlt_le_weak; exact Qy].
      eapply Qle_trans; [exact Y1|]. apply Qle_lteq. right. field. apply inj_nz. exact RM.
    - apply (Qmult_le_compat_r _ _ (inject_Z (snd y))) in Y2; [|apply Qlt_le_weak; exact Qy].
      eapply Qle_trans; [|exact Y2]. apply Qle_lteq. right. field. apply inj_nz. exact RM. }
  unfold f_int. assert (F0 : 0 <= fst y) by (unfold MS in *; nia). rewrite Z.quot_div_nonneg by lia.
  pose proof (Z.div_mod (fst y) (snd y) ltac:(lia)) as D. pose proof (Z.mod_pos_bound (fst y) (snd y) RM) as M.
  set (q := fst y / snd y) in *. set (m := fst y mod snd y) in *. clearbody q m. split.
  - apply Z.lt_succ_r. apply Z.div_lt_upper_bound; [reflexivity|]. unfold MS in *. nia.
  - apply Z.div_le_lower_bound; [reflexivity|]. unfold MS in *. nia.
Qed.

(** the wait is the time left, or a millisecond less *)
Lemma wait_ms_near d : 0 < d < 2 ^ 42 -> d - 1 <= wait_ms d <= d.
Proof.
  intros H. unfold wait_ms, f_div_int.
  assert (R1 : rep (fl d 1000)) by apply fl_rep. assert (R2 : rep (f_of_int 1000)) by apply fl_rep.
  assert (E2 : (qv (f_of_int 1000) == 1000)%Q) by reflexivity.
  assert (B0 : (0 <= inject_Z d)%Q) by (change 0%Q with (inject_Z 0); apply inj_le_q; lia).
  assert (B1 : (inject_Z d <= inject_Z (2 ^ 42))%Q) by (apply inj_le_q; lia). change (inject_Z (2 ^ 42)) with 4398046511104%Q in B1.
  pose proof (fl_near d 1000 33 ltac:(lia) ltac:(lia) ltac:(change (1000 * 2 ^ 33) with 8589934592000; change (2 ^ 42) with 4398046511104 in H; lia)) as A.
  unfold eps in A. change (1 / inject_Z (2 ^ (54 - 33)))%Q with (1 # 2097152) in A. change (inject_Z 1000) with 1000%Q in A. unfold Qdiv in A. change (/ 1000)%Q with (1 # 1000) in A.
  set (x := fl d 1000) in *. clearbody x.
  assert (G : (- (1 # 2048) <= qv (f_mul x (f_of_int 1000)) - qv x * 1000 <= 1 # 2048)%Q).
  { pose proof (f_mul_near x (f_of_int 1000) 43 R1 R2 ltac:(lia)) as G. rewrite E2 in G. unfold eps in G.
    change (1 / inject_Z (2 ^ (54 - 43)))%Q with (1 # 2048) in G. apply G. change (inject_Z (2 ^ 43)) with (8796093022208)%Q. lra. }
  assert (RM : rep (f_mul x (f_of_int 1000))) by apply fl_rep. set (y := f_mul x (f_of_int 1000)) in *. clearbody y.
  assert (Y : (inject_Z (d - 1) < qv y < inject_Z (d + 1))%Q).
  { unfold Z.sub. rewrite !inject_Z_plus, inject_Z_opp. change (inject_Z 1) with 1%Q. lra. }
  assert (Y0 : (0 <= qv y)%Q).
  { destruct Y as [Y _]. assert (inject_Z 0 <= inject_Z (d - 1))%Q by (apply inj_le_q; lia). change (inject_Z 0) with 0%Q in *. lra. }
  destruct (Qlt_le_dec (qv y) (inject_Z d)) as [L|L].
  - rewrite (f_int_floor y (d - 1) RM Y0); [lia|]. replace (d - 1 + 1) with d by lia. split; [apply Qlt_le_weak; apply Y|exact L].
  - rewrite (f_int_floor y d RM Y0); [lia|]. split; [exact L|apply Y].
Qed.

(** up to a tenth of a second it is exact *)
Lemma wait_ms_short d : 0 < d <= 100 -> wait_ms d = d.
Proof.
  intros H.
  assert (G : forallb (fun n => wait_ms (Z.of_nat n) =? Z.of_nat n) (seq 1 100) = true) by (vm_compute; reflexivity).
  rewrite forallb_forall in G. specialize (G (Z.to_nat d)). rewrite Z2Nat.id in G by lia. apply Z.eqb_eq. apply G. apply in_seq. lia.
Qed.
Lemma wait_ms_pos d : 0 < d < 2 ^ 42 -> 0 < wait_ms d.
Proof.
  intros H. destruct (Z.le_gt_cases d 100); [rewrite wait_ms_short; lia|]. pose proof (wait_ms_near d H). lia.
Qed.
