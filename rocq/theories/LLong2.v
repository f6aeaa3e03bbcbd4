(** Task processes beyond their first window (C90). *)
From Coq Require Import Permutation Sorted.
From Verif Require Import PyBase PyStr LStr MTime MTimeExpr LTimeExpr SExpr MEventSource MQueue MLoop MSched MBus SBus LBus
  SQueue LQueue LLoop SEvent SSched LSort LEventSource LEventSource2 LSched LSched2 LSched3 MStrategy SStrategy LStrategy LStrategy2
  LLive LTie MProcess SProcess LProcess SLong LLong.
Open Scope Z_scope.

(** ** the windows of one entry *)
Section Win.
  Variables (cfg : escfg) (st : Z) (c : ecls) (offs : list Z) (d0 : Z).
  Notation tasks := (map (fun o => (o, c)) offs).
  Notation D := (day_evs st None tasks).
  Notation W := (win cfg st tasks).
  Notation w := (cf_count cfg).
  Hypothesis Hoffs : Forall tod_ok offs.
  Hypothesis Hne : offs <> [].
  Hypothesis Hw : 2 <= w.
  Hypothesis Hst : dt_date st <= d0.

  Lemma in_D d e : In e (D d) -> exists o, In o offs /\ fst e = d * DAY + o /\ snd e = c /\ st <= fst e.
  Proof.
    intros He. unfold day_evs in He. apply (Permutation_in _ (sort_perm _ _)) in He. unfold day_instants in He.
    apply filter_In in He as [He Hf]. apply in_map_iff in He as ([o c'] & <- & He). apply in_map_iff in He as (o' & Eo & Ho). injection Eo as <- <-.
    exists o'. cbn [fst snd] in *. unfold within in Hf. rewrite andb_true_r in Hf. apply Z.leb_le in Hf. auto.
  Qed.
  Lemma D_in d o : In o offs -> st <= d * DAY + o -> In (d * DAY + o, c) (D d).
  Proof.
    intros Ho Hs. unfold day_evs. apply (Permutation_in _ (Permutation_sym (sort_perm _ _))). unfold day_instants. apply filter_In. split.
    - apply in_map_iff. exists (o, c). split; [reflexivity|]. apply in_map_iff. exists o. auto.
    - unfold within. cbn [fst]. rewrite andb_true_r. apply Z.leb_le. exact Hs.
  Qed.

  Lemma day_of d o : tod_ok o -> dt_date (d * DAY + o) = d.
  Proof. unfold tod_ok, dt_date. intros Ho. rewrite Z.add_comm, Z_div_plus by (unfold DAY, US; lia). rewrite Z.div_small by exact Ho. lia. Qed.

  Lemma st_before d o : tod_ok o -> dt_date st < d -> st <= d * DAY + o.
  Proof.
    unfold tod_ok, dt_date. intros Ho Hd. pose proof (Z.mod_pos_bound st DAY ltac:(unfold DAY, US; lia)). pose proof (Z.div_mod st DAY ltac:(unfold DAY, US; lia)). nia.
  Qed.

  Lemma win_split a : W a = flat_map D (day_range a (w - 1)) ++ D (a + w - 1).
  Proof.
    unfold win, day_range. replace (Z.to_nat w) with (S (Z.to_nat (w - 1))) by lia. rewrite seq_S, map_app, flat_map_app. f_equal.
    cbn [map flat_map plus]. rewrite app_nil_r. f_equal. lia.
  Qed.

  Lemma last_day a p e : d0 <= a -> W a = p ++ [e] -> dt_date (fst e) = a + w - 1 /\ exists o, In o offs /\ fst e = (a + w - 1) * DAY + o.
  Proof.
    intros Ha HW. rewrite win_split in HW.
    assert (Hn : D (a + w - 1) <> []).
    { destruct offs as [|o os] eqn:Eo; [congruence|]. intros E. 
      assert (Hin : In ((a + w - 1) * DAY + o, c) (day_evs st None (map (fun o => (o, c)) (o :: os)) (a + w - 1))).
      { rewrite <- Eo. apply D_in; [rewrite Eo; left; reflexivity|]. apply st_before; [inversion Hoffs; assumption|lia]. }
      rewrite E in Hin. destruct Hin. }
    assert (Hin : In e (D (a + w - 1))).
    { destruct (exists_last Hn) as (l & x & El). rewrite El, app_assoc in HW. apply app_inj_tail in HW as [_ <-]. rewrite El. apply in_or_app. right. left. reflexivity. }
    destruct (in_D _ _ Hin) as (o & Ho & Ee & _). split; [|eauto]. rewrite Ee. apply day_of. rewrite Forall_forall in Hoffs. apply Hoffs; exact Ho.
  Qed.

  Definition starts (n : nat) : list Z := map (fun i => d0 + Z.of_nat i * (w - 1)) (seq 0 n).
  Lemma starts_S n : starts (S n) = starts n ++ [d0 + Z.of_nat n * (w - 1)].
  Proof. unfold starts. rewrite seq_S, map_app. reflexivity. Qed.

  Hypothesis Hwhole : Forall (fun o => o mod US = 0) offs.
  Lemma chain_starts ds : chain cfg st tasks d0 (fun _ e b => fst e mod US = 0 -> b = dt_date (fst e)) ds -> exists n, ds = starts (S n).
  Proof.
    induction 1 as [|ds a p e b Hc (n & IH) HW Hn].
    - exists 0%nat. unfold starts. cbn. f_equal. lia.
    - exists (S n). rewrite starts_S, <- IH. f_equal. f_equal.
      rewrite starts_S in IH. apply app_inj_tail in IH as [_ ->].
      destruct (last_day (d0 + Z.of_nat n * (w - 1)) p e ltac:(nia) HW) as (E & o & Ho & Eo). rewrite Hn; [rewrite E; lia|].
      rewrite Eo. apply mod_lin; [apply mod_mulr; reflexivity|]. rewrite Forall_forall in Hwhole. apply Hwhole; exact Ho.
  Qed.

  (** ** counting *)
  Hypothesis Hnd : NoDup offs.

  Lemma times_app x a b : times x (a ++ b) = (times x a + times x b)%nat.
  Proof. apply count_occ_app. Qed.
  Lemma times_perm x a b : Permutation a b -> times x a = times x b.
  Proof. intros H. apply (proj1 (Permutation_count_occ Z.eq_dec a b)). exact H. Qed.
  Lemma times_nin x a : ~ In x a -> times x a = 0%nat.
  Proof. apply count_occ_not_In. Qed.

  Lemma times_day dd o d : In o offs -> st <= dd * DAY + o -> times (dd * DAY + o) (map fst (D d)) = if d =? dd then 1%nat else 0%nat.
  Proof.
    intros Ho Hs. destruct (Z.eqb_spec d dd) as [->|Hd].
    - destruct (day_evs_times st offs c dd) as [HP _]. rewrite (times_perm _ _ _ HP). unfold times. apply NoDup_count_occ'.
      + apply NoDup_filter. apply FinFun.Injective_map_NoDup; [intros a b; lia|exact Hnd].
      + apply filter_In. split; [apply in_map_iff; exists o; auto|]. apply Z.leb_le. exact Hs.
    - apply times_nin. intros Hin. apply in_map_iff in Hin as (e & Ee & He). destruct (in_D _ _ He) as (o' & Ho' & E' & _).
      rewrite Forall_forall in Hoffs. pose proof (day_of dd o (Hoffs _ Ho)) as G1. pose proof (day_of d o' (Hoffs _ Ho')) as G2. congruence.
  Qed.

  Lemma times_days dd o : In o offs -> st <= dd * DAY + o -> forall n a,
    times (dd * DAY + o) (map fst (flat_map D (map (fun k => a + Z.of_nat k) (seq 0 n)))) = if (a <=? dd) && (dd <? a + Z.of_nat n) then 1%nat else 0%nat.
  Proof.
    intros Ho Hs. induction n as [|n IH]; intros a.
    - cbn. destruct (Z.leb_spec a dd), (Z.ltb_spec dd (a + 0)); cbn; try reflexivity; lia.
    - rewrite seq_S, map_app, flat_map_app, map_app, times_app, IH. cbn [map flat_map plus]. rewrite app_nil_r, (times_day dd o _ Ho Hs).
      destruct (Z.leb_spec a dd), (Z.ltb_spec dd (a + Z.of_nat n)), (Z.eqb_spec (a + Z.of_nat n) dd), (Z.ltb_spec dd (a + Z.of_nat (S n))); cbn [andb plus]; try reflexivity; lia.
  Qed.

  Definition covers (dd : Z) (i : nat) : bool := (d0 + Z.of_nat i * (w - 1) <=? dd) && (dd <=? d0 + Z.of_nat i * (w - 1) + w - 1).
  Lemma times_win dd o i : In o offs -> st <= dd * DAY + o ->
    times (dd * DAY + o) (map fst (W (d0 + Z.of_nat i * (w - 1)))) = if covers dd i then 1%nat else 0%nat.
  Proof.
    intros Ho Hs. unfold win, day_range. rewrite (times_days dd o Ho Hs). unfold covers. rewrite Z2Nat.id by lia.
    destruct (Z.leb_spec (d0 + Z.of_nat i * (w - 1)) dd), (Z.ltb_spec dd (d0 + Z.of_nat i * (w - 1) + w)), (Z.leb_spec dd (d0 + Z.of_nat i * (w - 1) + w - 1)); cbn; try reflexivity; lia.
  Qed.

  Lemma times_wins dd o n : In o offs -> st <= dd * DAY + o ->
    times (dd * DAY + o) (map fst (flat_map W (starts n))) = length (filter (covers dd) (seq 0 n)).
  Proof.
    intros Ho Hs. induction n as [|n IH]; [reflexivity|].
    rewrite starts_S, flat_map_app, map_app, times_app, IH. cbn [flat_map]. rewrite app_nil_r, (times_win dd o n Ho Hs), seq_S, filter_app, app_length. cbn [filter plus].
    destruct (covers dd n); reflexivity.
  Qed.

  Lemma covers_cases dd i : d0 <= dd -> covers dd i = true ->
    Z.of_nat i = (dd - d0) / (w - 1) \/ ((dd - d0) mod (w - 1) = 0 /\ Z.of_nat i = (dd - d0) / (w - 1) - 1).
  Proof.
    intros Hd H. unfold covers in H. apply andb_true_iff in H as [H1 H2]. apply Z.leb_le in H1, H2.
    pose proof (Z.div_mod (dd - d0) (w - 1) ltac:(lia)) as E. pose proof (Z.mod_pos_bound (dd - d0) (w - 1) ltac:(lia)) as B.
    set (q := (dd - d0) / (w - 1)) in *. set (r := (dd - d0) mod (w - 1)) in *.
    assert (Z.of_nat i <= q) by nia. assert (q - 1 <= Z.of_nat i) by nia.
    destruct (Z.eq_dec (Z.of_nat i) q); [left; assumption|right]. assert (Z.of_nat i = q - 1) by lia. split; [|assumption]. nia.
  Qed.

  Lemma covers_q dd i : d0 <= dd -> Z.of_nat i = (dd - d0) / (w - 1) -> covers dd i = true.
  Proof.
    intros Hd E0. pose proof (Z.div_mod (dd - d0) (w - 1) ltac:(lia)) as E. pose proof (Z.mod_pos_bound (dd - d0) (w - 1) ltac:(lia)) as B.
    unfold covers. apply andb_true_iff. rewrite !Z.leb_le, E0. nia.
  Qed.
  Lemma covers_q1 dd i : d0 <= dd -> (dd - d0) mod (w - 1) = 0 -> Z.of_nat i = (dd - d0) / (w - 1) - 1 -> covers dd i = true.
  Proof.
    intros Hd Hr E0. pose proof (Z.div_mod (dd - d0) (w - 1) ltac:(lia)) as E.
    unfold covers. apply andb_true_iff. rewrite !Z.leb_le, E0. nia.
  Qed.

  Lemma cover_count dd n : d0 <= dd -> dd <= d0 + Z.of_nat n * (w - 1) + w - 1 ->
    let k := length (filter (covers dd) (seq 0 (S n))) in
    (1 <= k <= 2)%nat /\ ((dd - d0) mod (w - 1) <> 0 \/ dd = d0 -> k = 1%nat) /\
    ((dd - d0) mod (w - 1) = 0 -> d0 < dd -> dd <= d0 + Z.of_nat n * (w - 1) -> k = 2%nat).
  Proof.
    intros Hd Hu. cbv zeta. set (q := (dd - d0) / (w - 1)).
    pose proof (Z.div_mod (dd - d0) (w - 1) ltac:(lia)) as E. pose proof (Z.mod_pos_bound (dd - d0) (w - 1) ltac:(lia)) as B. fold q in E.
    assert (Hq : 0 <= q) by nia.
    assert (Hndf : NoDup (filter (covers dd) (seq 0 (S n)))) by (apply NoDup_filter, seq_NoDup).
    assert (Hincl : incl (filter (covers dd) (seq 0 (S n))) [Z.to_nat q; Z.to_nat (q - 1)]).
    { intros i Hi. apply filter_In in Hi as [_ Hi]. destruct (covers_cases dd i Hd Hi) as [Hi'|[_ Hi']]; fold q in Hi'; cbn; lia. }
    pose proof (NoDup_incl_length Hndf Hincl) as Hle. cbn [length] in Hle.
    assert (Hge : (1 <= length (filter (covers dd) (seq 0 (S n))))%nat).
    { destruct (Z_le_gt_dec q (Z.of_nat n)) as [Hqn|Hqn].
      - assert (Hin : In (Z.to_nat q) (filter (covers dd) (seq 0 (S n)))).
        { apply filter_In. split; [apply in_seq; lia|]. apply covers_q; [exact Hd|]. fold q. lia. }
        destruct (filter (covers dd) (seq 0 (S n))); [destruct Hin|cbn; lia].
      - assert (Hr : (dd - d0) mod (w - 1) = 0 /\ q = Z.of_nat n + 1) by (split; nia). destruct Hr as [Hr Hqe].
        assert (Hin : In n (filter (covers dd) (seq 0 (S n)))).
        { apply filter_In. split; [apply in_seq; lia|]. apply covers_q1; [exact Hd|exact Hr|]. fold q. lia. }
        destruct (filter (covers dd) (seq 0 (S n))); [destruct Hin|cbn; lia]. }
    split; [lia|]. split.
    - intros Hone. assert (Hincl1 : incl (filter (covers dd) (seq 0 (S n))) [Z.to_nat q]).
      { intros i Hi. apply filter_In in Hi as [_ Hi]. destruct (covers_cases dd i Hd Hi) as [Hi'|[Hr Hi']]; fold q in Hi'; [cbn; lia|].
        destruct Hone as [Hone|Hone]; [congruence|]. subst dd. assert (q = 0) by (unfold q; rewrite Z.sub_diag; reflexivity). lia. }
      pose proof (NoDup_incl_length Hndf Hincl1) as Hle1. cbn [length] in Hle1. lia.
    - intros Hr Hlt Hn. assert (1 <= q) by nia. assert (Hqn : q <= Z.of_nat n) by nia.
      assert (Hincl2 : incl [Z.to_nat q; Z.to_nat (q - 1)] (filter (covers dd) (seq 0 (S n)))).
      { intros i [<-|[<-|[]]]; apply filter_In; (split; [apply in_seq; lia|]).
        - apply covers_q; [exact Hd|]. fold q. lia.
        - apply covers_q1; [exact Hd|exact Hr|]. fold q. lia. }
      assert (Hnd2 : NoDup [Z.to_nat q; Z.to_nat (q - 1)]) by (constructor; [intros [Hx|[]]; lia|constructor; [intros []|constructor]]).
      pose proof (NoDup_incl_length Hnd2 Hincl2) as Hge2. cbn [length] in Hge2. lia.
  Qed.

  (** what has been delivered, when the rest of the current window starts after [x] *)
  Lemma times_sofar n pre y ys dd o : In o offs -> st <= dd * DAY + o -> d0 <= dd ->
    W (d0 + Z.of_nat n * (w - 1)) = pre ++ y :: ys -> StronglySorted Z.le (map fst (W (d0 + Z.of_nat n * (w - 1)))) -> dd * DAY + o < fst y ->
    let k := times (dd * DAY + o) (map fst (flat_map W (starts n) ++ pre)) in
    (1 <= k <= 2)%nat /\ ((dd - d0) mod (w - 1) <> 0 \/ dd = d0 -> k = 1%nat) /\
    ((dd - d0) mod (w - 1) = 0 -> d0 < dd -> (forall o', In o' offs -> dd * DAY + o' < fst y) -> k = 2%nat).
  Proof.
    intros Ho Hs Hd HW Hss Hlt. cbv zeta.
    assert (Hy : exists i, (i < Z.to_nat w)%nat /\ exists oy, In oy offs /\ fst y = (d0 + Z.of_nat n * (w - 1) + Z.of_nat i) * DAY + oy).
    { assert (Hin : In y (W (d0 + Z.of_nat n * (w - 1)))) by (rewrite HW; apply in_or_app; right; left; reflexivity).
      unfold win in Hin. apply in_flat_map in Hin as (d & Hd' & Hin). unfold day_range in Hd'. apply in_map_iff in Hd' as (i & <- & Hi). apply in_seq in Hi.
      destruct (in_D _ _ Hin) as (oy & Hoy & Ey & _). exists i. split; [lia|]. exists oy. auto. }
    destruct Hy as (i & Hi & oy & Hoy & Ey).
    pose proof (proj1 (Forall_forall _ _) Hoffs) as Hoffs'. pose proof (Hoffs' _ Ho) as To. pose proof (Hoffs' _ Hoy) as Ty. unfold tod_ok in To, Ty.
    assert (Hu : dd <= d0 + Z.of_nat n * (w - 1) + w - 1) by nia.
    assert (Erest : times (dd * DAY + o) (map fst (y :: ys)) = 0%nat).
    { apply times_nin. intros Hin. rewrite HW, map_app in Hss.
      assert (Hss2 : StronglySorted Z.le (map fst (y :: ys))) by (clear - Hss; induction (map fst pre) as [|a l IH]; [exact Hss|]; cbn in Hss; inversion Hss; subst; auto).
      cbn [map] in Hss2, Hin. inversion Hss2 as [|? ? _ Hf]; subst. rewrite Forall_forall in Hf. destruct Hin as [Hin|Hin]; [lia|]. specialize (Hf _ Hin). lia. }
    assert (Et : times (dd * DAY + o) (map fst (flat_map W (starts n) ++ pre)) = length (filter (covers dd) (seq 0 (S n)))).
    { rewrite <- (times_wins dd o (S n) Ho Hs), starts_S, flat_map_app. cbn [flat_map]. rewrite app_nil_r, HW, !map_app, !times_app, Erest. lia. }
    rewrite Et. destruct (cover_count dd n Hd Hu) as (C1 & C2 & C3). split; [exact C1|]. split; [exact C2|].
    intros Hr Hlt' Hall. apply C3; [exact Hr|exact Hlt'|]. specialize (Hall _ Hoy). rewrite Ey in Hall.
    assert (dd < d0 + Z.of_nat n * (w - 1) + Z.of_nat i) by (unfold DAY, US in *; lia).
    (* the day is over within window n: it is not its last day *)
    assert (Hdd : dd <= d0 + Z.of_nat n * (w - 1) + w - 2) by lia.
    pose proof (Z.div_mod (dd - d0) (w - 1) ltac:(lia)) as E. rewrite Hr in E. set (q := (dd - d0) / (w - 1)) in *.
    assert (q <= Z.of_nat n) by nia. nia.
  Qed.
End Win.

(** ** processes *)
Section Runs.
  Variables (fuel : nat) (cfg : escfg) (sc : scfg) (tz st : Z) (now : nat -> Z) (calls : list ucall) (ns : dict str obj) (dates : list Z).
  Variables (s4 : strat) (s0 s : lstate scb sworld) (ls : list (label scb sout)) (ps : list (Z * Z)).
  Notation lc := (loop_cfg cfg sc s4).
  Hypothesis Hstart : start fuel cfg sc tz st None now calls ns dates = Some (s4, s0).
  Hypothesis Hlen : length dates = length (st_srcs s4).
  Hypothesis Hok : Forall ok_label ls.
  Hypothesis Hex : l_exec (sched_handler fuel lc tz) s0 ls = Some s.
  Hypothesis Hhist : cf_hist cfg = false.
  Hypothesis Hmp : market_period sc s4 = raw_of ps.
  Hypothesis Hps : Forall (fun p => tod_ok (fst p) /\ tod_ok (snd p)) ps.
  Hypothesis Hwhole : Forall (fun p => fst p mod US = 0 /\ snd p mod US = 0) ps.
  Hypothesis Hne : ps <> [].
  Hypothesis Hf1 : (1441 <= fuel)%nat.
  Hypothesis Hf2 : (Z.to_nat (cf_count cfg) < fuel)%nat.
  Variables (k : nat) (n : str) (id : nat) (t : str) (offs : list Z) (d : Z).
  Hypothesis Hk : nth_error (asked calls) k = Some (n, id, t).
  Hypothesis Ho : owes ps t offs.
  Hypothesis Hd : nth_error dates (length (st_srcs s4) - length (asked calls) + k) = Some d.
  Notation K := (length (st_srcs s4) - length (asked calls) + k)%nat.
  Notation tasks := (map (fun o => (o, cls_of k (desc_of (n, id, t)))) offs).

  Lemma long_runs : runs fuel cfg sc tz st None now calls ns dates s4 s.
  Proof. exists s0, ls. auto. Qed.

  Lemma long_boot : boot fuel lc tz (st_srcs s4) dates = Some s0.
  Proof.
    pose proof Hstart as E. unfold start in E.
    destruct (setup fuel cfg sc st None now true calls None (strat_new ns)) as [[[]|x|] s5] eqn:Es; try discriminate.
    destruct (boot fuel (loop_cfg cfg sc s5) tz (st_srcs s5) dates) as [s0'|] eqn:Eb; [|discriminate].
    assert (E1 : s5 = s4 /\ s0' = s0).
    { clear - E. assert (G : forall A B (a a' : A) (b b' : B), Some (a, b) = Some (a', b') -> a = a' /\ b = b') by (intros ? ? ? ? ? ? H; injection H; auto). exact (G _ _ _ _ _ _ E). }
    destruct E1 as [-> ->]. exact Eb.
  Qed.

  Lemma long_calls : map fst (calls_of k (invoked s4 (l_w s))) = map fst (emitted K (l_w s)).
  Proof. rewrite (calls_emitted fuel cfg sc tz st now calls ns dates s4 s long_runs Hhist Hf1 Hf2 k n id t Hk), map_map. reflexivity. Qed.

  Lemma long_LI next_ok : LI lc K (now k) tasks d next_ok s0.
  Proof.
    destruct (boot_srcs fuel lc tz ltac:(lia) (st_srcs s4) dates s0 long_boot Hlen _ d Hd) as (es0 & r & es2 & E0 & Ep & E2).
    destruct (srcs_shape fuel cfg sc tz st now calls ns dates s4 s long_runs Hhist Hf1 Hf2) as (pre & ts & H1 & H0 & H2 & H3 & H4).
    assert (E0' : nth_error ts k = Some es0).
    { rewrite <- E0, H1. rewrite nth_error_app2 by (unfold npre in H0; rewrite H1 in H0; lia). f_equal. unfold npre in H0. rewrite H1 in H0. lia. }
    destruct (H4 k _ es0 Hk E0') as (l & El & S1 & S2 & S3 & S4 & S5).
    destruct (entry_meaning ps t offs fuel (dt_date (now k)) Hne Hps) as (l' & El' & He); [eapply Forall_impl; [|exact Hwhole]; intros p [Hp _]; exact Hp|exact Hf1|exact Ho|].
    unfold entries_of, desc_of in El. cbn [d_time fst snd] in El. rewrite Hmp in El.
    assert (l' = l) as ->.
    { revert El El'. destruct (str_eqb (time_dict t) (lit "every_minute")); intros E E'; rewrite E in E'; injection E' as <-; reflexivity. }
    eapply (LI_boot fuel lc tz ltac:(lia) Hhist K (now k) tasks d next_ok (st_srcs s4) dates s0 es0 r es2); try eassumption; try exact long_boot.
    - rewrite S4, (lc_mp cfg sc s4 ps Hmp). unfold tasks_of, entries_for in *. clear - He. induction He as [|e o l offs H He IH]; cbn [map]; constructor; [cbn; auto|exact IH].
    - destruct S5 as [S5| ->]; [left; exact S5|right]. inversion He. reflexivity.
  Qed.

  (** the calls in terms of windows *)
  Lemma wins_owed (done : list Z) (cur : Z) (pre rest : list (Z * ecls)) : win lc (now k) tasks cur = pre ++ rest ->
    in_windows (now k) offs (cf_count cfg) (done ++ [cur]) (map fst (flat_map (win lc (now k) tasks) done ++ pre)).
  Proof.
    intros HW. set (W := win lc (now k) tasks) in *.
    assert (HWo : forall x, owed_on (now k) offs x (x + cf_count cfg - 1) (map fst (W x))).
    { intros x. destruct (owed_exists (now k) offs x (cf_count cfg)) as (S & HS). rewrite (owed_eq _ _ (cls_of k (desc_of (n, id, t))) _ _ _ HS) in HS. exact HS. }
    assert (Ecat : forall l, concat (map (fun x => map fst (W x)) l) = map fst (flat_map W l)).
    { induction l as [|x l IH]; [reflexivity|]. cbn [map concat flat_map]. rewrite map_app, IH. reflexivity. }
    exists (map (fun x => map fst (W x)) (done ++ [cur])). split; [|split].
    - clear - HWo. induction (done ++ [cur]) as [|x l IH]; cbn [map]; constructor; [apply HWo|exact IH].
    - exists (map fst rest). rewrite Ecat, flat_map_app. cbn [flat_map]. rewrite app_nil_r, HW, !map_app, <- !app_assoc. reflexivity.
    - exists (map fst pre). rewrite (map_app (fun x => map fst (W x))). cbn [map]. rewrite removelast_last, Ecat, map_app. reflexivity.
  Qed.

  (** any dates *)
  Lemma long_windows : exists ds, Forall (fun b => exists o, In (LDone o) ls /\ b = o_date2 o) ds /\
    in_windows (now k) offs (cf_count cfg) (d :: ds) (map fst (calls_of k (invoked s4 (l_w s)))).
  Proof.
    destruct (boot_FI fuel lc tz ltac:(lia) (st_srcs s4) dates s0 long_boot Hlen) as (F & _ & _).
    destruct (LI_read fuel lc tz _ ltac:(lia) Hhist K (now k) tasks d ls ls s0 s (incl_refl _) F (long_LI _) Hok Hex) as (es & done & cur & pre & _ & _ & Hc & He & HW).
    rewrite long_calls, He.
    assert (Hds : exists ds, done ++ [cur] = d :: ds /\ Forall (fun b => exists o, In (LDone o) ls /\ b = o_date2 o) ds).
    { clear - Hc. remember (done ++ [cur]) as l. clear Heql. induction Hc as [|ds a p e b Hc (ds' & E & HF) HW Hn]; [exists []; auto|].
      exists (ds' ++ [b]). rewrite E. split; [reflexivity|]. apply Forall_app. split; [exact HF|]. constructor; [exact Hn|constructor]. }
    destruct Hds as (ds & Eds & HF). exists ds. split; [exact HF|]. rewrite <- Eds. eapply wins_owed. exact HW.
  Qed.

  Hypothesis Htz : tz mod US = 0.
  Hypothesis Hsame : same_day (sched_handler fuel lc tz) tz s0 ls.
  Hypothesis Hoffs : Forall tod_ok offs.
  Hypothesis Hnil : offs <> [].
  Hypothesis Hw2 : 2 <= cf_count cfg.
  Hypothesis Hnow : dt_date (now k) <= d.

  Lemma long_same_day : exists i, in_windows (now k) offs (cf_count cfg) (map (fun j => d + Z.of_nat j * (cf_count cfg - 1)) (seq 0 (S i)))
    (map fst (calls_of k (invoked s4 (l_w s)))).
  Proof.
    destruct (boot_FI fuel lc tz ltac:(lia) (st_srcs s4) dates s0 long_boot Hlen) as (F & _ & _).
    destruct (LI_same_day fuel lc tz _ ltac:(lia) Hhist K (now k) tasks d ls Htz s0 s Hsame F (long_LI _) Hok Hex) as ((es & done & cur & pre & _ & _ & Hc & He & HW) & _).
    rewrite long_calls, He.
    destruct (chain_starts lc (now k) (cls_of k (desc_of (n, id, t))) offs d Hoffs Hnil Hw2 Hnow (owes_whole ps t offs Hne Hwhole Ho) _ Hc) as (i & Ei).
    exists i. unfold starts in Ei. cbn [cf_count loop_cfg] in Ei. rewrite <- Ei. eapply wins_owed. exact HW.
  Qed.

  Lemma long_days clock ex s' m dd o : NoDup offs -> w_hung (l_w s) = false ->
    l_step (sched_handler fuel lc tz) s (LTurn clock ex) = Some s' -> l_mode s' = Arming m ->
    In o offs -> d <= dd -> now k <= dd * DAY + o -> dd * DAY + o - tz <= clock * 1000 ->
    let c := times (dd * DAY + o) (map fst (calls_of k (invoked s4 (l_w s)))) in
    (1 <= c <= 2)%nat /\ ((dd - d) mod (cf_count cfg - 1) <> 0 \/ dd = d -> c = 1%nat) /\
    ((dd - d) mod (cf_count cfg - 1) = 0 -> d < dd -> (forall o', In o' offs -> dd * DAY + o' - tz <= clock * 1000) -> c = 2%nat).
  Proof.
    intros Hnd Hh Hst Hm Hino Hdd Hx Hclock.
    destruct (boot_FI fuel lc tz ltac:(lia) (st_srcs s4) dates s0 long_boot Hlen) as (F & _ & _).
    destruct (LI_same_day fuel lc tz _ ltac:(lia) Hhist K (now k) tasks d ls Htz s0 s Hsame F (long_LI _) Hok Hex) as (HL & F').
    assert (Hc : l_mode s = Checking /\ s' = check_turn clock ex s).
    { unfold l_step in Hst. destruct (l_mode s); try discriminate. injection Hst as <-. auto. }
    destruct Hc as [Hchk ->].
    destruct (LI_sleep fuel lc tz _ ltac:(lia) Hhist K (now k) tasks d _ s clock ex m F' HL Hchk Hh ltac:(cbn; lia) Hm) as (done & cur & pre & y & ys & Hc & He & HW & Hy).
    rewrite long_calls, He.
    pose proof (owes_whole ps t offs Hne Hwhole Ho) as How.
    destruct (chain_starts lc (now k) (cls_of k (desc_of (n, id, t))) offs d Hoffs Hnil Hw2 Hnow How _ Hc) as (i & Ei).
    rewrite starts_S in Ei. apply app_inj_tail in Ei as [-> ->].
    assert (Hyw : fst y mod US = 0).
    { assert (Hin : In y (win lc (now k) tasks (d + Z.of_nat i * (cf_count lc - 1)))) by (rewrite HW; apply in_or_app; right; left; reflexivity).
      unfold win in Hin. apply in_flat_map in Hin as (d' & _ & Hin). destruct (in_D _ _ _ _ _ Hin) as (oy & Hoy & -> & _).
      apply mod_lin; [apply mod_mulr; reflexivity|]. rewrite Forall_forall in How. apply How; exact Hoy. }
    destruct (ms_whole tz (fst y) Htz Hyw) as [_ E2]. unfold milliseconds_to_dt in E2.
    destruct (owed_exists (now k) offs (d + Z.of_nat i * (cf_count lc - 1)) (cf_count cfg)) as (S & HS).
    destruct (window_facts fuel cfg tz now calls ps Hps Hwhole Hne Hf1 Hf2 Htz k n id t offs _ S Hk Ho HS) as (ES & Hss & _).
    rewrite ES in Hss.
    pose proof (times_sofar lc (now k) (cls_of k (desc_of (n, id, t))) offs d Hoffs Hw2 Hnd i pre y ys dd o Hino Hx Hdd HW Hss ltac:(lia)) as (T1 & T2 & T3).
    cbv zeta. split; [exact T1|]. split; [exact T2|]. intros Hr Hlt Hall. apply T3; [exact Hr|exact Hlt|]. intros o' Ho'. specialize (Hall o' Ho'). lia.
  Qed.
End Runs.
