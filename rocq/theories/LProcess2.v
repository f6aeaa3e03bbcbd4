(** Account syncs in a task process (C62). *)
From Coq Require Import Permutation Sorted.
From Verif Require Import PyBase PyStr LStr MTime MTimeExpr LTimeExpr SExpr MEventSource MQueue MLoop MSched MBus SBus LBus
  SQueue LQueue LLoop SEvent SSched LSort LEventSource LEventSource2 LSched LSched2 LSched3 MStrategy SStrategy LStrategy LStrategy2
  LLive LTie MProcess SProcess LProcess.
Open Scope Z_scope.

Lemma whole_in_day x : 0 <= x < DAY -> 0 <= whole x < DAY.
Proof.
  intros H. unfold whole. pose proof (Z.div_mod x US ltac:(discriminate)). pose proof (Z.mod_pos_bound x US ltac:(reflexivity)).
  assert (0 <= x / US) by (apply Z.div_pos; unfold US; lia). unfold US, DAY in *. lia.
Qed.
Lemma whole_whole x : whole x mod US = 0.
Proof. unfold whole. apply Z.mod_mul. discriminate. Qed.

Lemma steps_unique step a b l1 l2 : steps step a b l1 -> steps step a b l2 -> l1 = l2.
Proof. intros [S1 I1] [S2 I2]. apply sorted_ext; [assumption|assumption|]. intros x. rewrite I1, I2. reflexivity. Qed.
Lemma steps_unique_all step ps : forall l1 l2, Forall2 (fun p l => steps step (fst p) (snd p) l) ps l1 ->
  Forall2 (fun p l => steps step (fst p) (snd p) l) ps l2 -> l1 = l2.
Proof.
  induction ps as [|p ps IH]; intros l1 l2 H1 H2; inversion H1; inversion H2; subst; [reflexivity|].
  f_equal; [eapply steps_unique; eassumption|apply IH; assumption].
Qed.

Lemma sync_in_day step ps now offs : 0 < step -> Forall (fun p => tod_ok (fst p) /\ tod_ok (snd p)) ps -> sync_owes step ps now offs ->
  forall x, In x offs -> 0 <= x < DAY.
Proof.
  intros Hs Hps Ho x Hx. destruct Ho as [now l Hl|p ps now ls Hl]; apply in_map_iff in Hx as (y & <- & Hy); apply whole_in_day.
  - destruct Hl as [_ Hin]. apply Hin in Hy as (k & Hk & -> & Hle). pose proof (trunc_tod now) as Ht. unfold trunc in Ht. unfold whole in *. unfold DAY, US in *. nia.
  - revert Hps Hl. generalize (p :: ps). clear p ps. intros ps Hps Hl. induction Hl as [|p l ps ls Hl HF IH]; [destruct Hy|].
    inversion Hps as [|? ? [Ha Hb] Hps']; subst. cbn [concat] in Hy. apply in_app_or in Hy as [Hy|Hy]; [|exact (IH Hy Hps')].
    exact (steps_in_day step _ _ _ Hs Ha Hb Hl y Hy).
Qed.

Lemma sync_whole step ps now offs : sync_owes step ps now offs -> Forall (fun o => o mod US = 0) offs.
Proof. intros [now' l _|p ps' now' ls _]; apply Forall_forall; intros x Hx; apply in_map_iff in Hx as (y & <- & _); apply whole_whole. Qed.

Section Syncs.
  Variables (fuel : nat) (cfg : escfg) (sc : scfg) (st : Z).
  Notation uexec := (uexec fuel sc st None).
  Notation setup := (setup fuel cfg sc st None).

  (** the source made by a successful set_options call *)
  Lemma set_options_src k e s u o step qs offs mp : fst (set_options fuel sc st None k e s) = GOk u -> use_in_force sc k = true ->
    sync_cbs sc k 0 <> [] -> parse_opts k = Ok o ->
    interval_in_force sc o = Ok step -> 0 < step -> DAY / step + 1 < Z.of_nat fuel ->
    period_in_force sc o = raw_of qs -> Forall (fun p => tod_ok (fst p) /\ tod_ok (snd p)) qs -> sync_owes step qs (e_now e) offs ->
    exists es, st_srcs (snd (set_options fuel sc st None k e s)) = st_srcs s ++ [es] /\ es_start es = Some st /\ es_end es = None /\
      (es_need es = true \/ offs = []) /\ tasks_of mp (es_daily es) (map (fun t => (t, sync_cls)) offs).
  Proof.
    intros Hok Hu Hc Hp Hi Hs Hf Hper Hqs Ho. revert Hok. unfold set_options, setup_account, use_in_force in *.
    destruct (negb (st_allowed s)); [discriminate|]. rewrite Hp. destruct (parse_opts_keep _ _ Hp) as (K1 & K2 & K3 & K4).
    destruct (e_dir e); [|discriminate]. rewrite K1, Hu.
    destruct (negb (so_acct o)); [discriminate|]. destruct (e_load e); [|discriminate]. destruct (e_gate e); [|discriminate].
    assert (Hn : need_bal sc o || need_ord sc o = true).
    { revert Hc. unfold sync_cbs, need_bal, need_ord. rewrite K3, K4. destruct (match so_bal k with Some b => b | None => sc_bal sc end), (match so_ord k with Some b => b | None => sc_ord sc end); cbn; try reflexivity. congruence. }
    rewrite Hn. intros _. set (s1 := new_acc _). set (i := st_nacc _).
    assert (E1 : st_srcs s1 = st_srcs s) by reflexivity. rewrite <- E1. clearbody s1 i. clear E1.
    destruct qs as [|q qs].
    - inversion Ho as [now l Hl|]; subst.
      destruct (timer_no_period fuel sc st None i (e_now e) o s1 step mp Hi Hper Hs Hf) as (s' & es & l' & E & G1 & G2 & G3 & G4 & G5 & G6 & G7 & G8).
      rewrite E. cbn [snd]. change trunc with whole in *. assert (l' = l) as -> by (eapply steps_unique; eassumption).
      exists es. repeat split; try assumption. destruct l as [|x l]; [right; reflexivity|left; apply G5; discriminate].
    - inversion Ho as [|? ? ? ls Hl]; subst.
      destruct (timer_period fuel sc st None i (e_now e) o s1 step mp (q :: qs) Hi Hper ltac:(discriminate) Hs Hqs Hf) as (s' & es & ls' & E & G1 & G2 & G3 & G4 & G5 & G6).
      rewrite E. cbn [snd]. change trunc with whole in *. assert (ls' = ls) as -> by (eapply steps_unique_all; eassumption).
      exists es. repeat split; try assumption. left; exact G4.
  Qed.

  Hypothesis Hhist : cf_hist cfg = false.

  Lemma one_sync_src now pre k e post ns s4 u o step qs offs mp :
    setup now true (pre ++ UOpt k e :: post) None (strat_new ns) = (GOk tt, s4) ->
    Forall not_opt pre -> Forall not_opt post -> use_in_force sc k = true ->
    fst (set_options fuel sc st None k e (uexec pre (set_allowed true (make_apis sc (strat_new ns))))) = GOk u ->
    sync_cbs sc k 0 <> [] -> parse_opts k = Ok o ->
    interval_in_force sc o = Ok step -> 0 < step -> DAY / step + 1 < Z.of_nat fuel ->
    period_in_force sc o = raw_of qs -> Forall (fun p => tod_ok (fst p) /\ tod_ok (snd p)) qs -> sync_owes step qs (e_now e) offs ->
    exists es ts, st_srcs s4 = es :: ts /\ length ts = length (asked (pre ++ UOpt k e :: post)) /\ es_start es = Some st /\ es_end es = None /\
      (es_need es = true \/ offs = []) /\ tasks_of mp (es_daily es) (map (fun t => (t, sync_cls)) offs).
  Proof.
    intros Hs Hpre Hpost Hu Hok Hc Hp Hi Hst Hf Hper Hqs Ho.
    pose proof (setup_sched fuel cfg sc st None now (pre ++ UOpt k e :: post) None ns) as Hd. rewrite Hs in Hd. cbn [snd] in Hd.
    unfold MStrategy.setup, schedule_all_tasks in Hs.
    set (s1 := set_allowed true (make_apis sc (strat_new ns))) in *.
    set (s3 := set_allowed false (uexec (pre ++ UOpt k e :: post) s1)) in *.
    destruct (schedule_descs fuel cfg sc st None now (st_sched s3) s3) as [s5|x|] eqn:E; try discriminate.
    assert (Ep : forall a b : gres unit * strat, a = b -> snd a = snd b) by (intros a b ->; reflexivity).
    apply Ep in Hs. cbn [snd] in Hs. subst s5. clear Ep.
    destruct (schedule_descs_tasks fuel cfg sc st Hhist now _ _ _ E) as (ts & G1 & G2 & _). destruct (schedule_descs_frame _ _ _ _ _ _ _ _ _ E) as (_ & F2 & _ & F4).
    destruct (uexec_not_opt fuel sc st None pre Hpre s1) as (P1 & P2 & P3 & P4 & P5).
    assert (Es3 : uexec (pre ++ UOpt k e :: post) s1 = uexec post (snd (set_options fuel sc st None k e (uexec pre s1)))) by (rewrite uexec_app; reflexivity).
    destruct (uexec_not_opt fuel sc st None post Hpost (snd (set_options fuel sc st None k e (uexec pre s1)))) as (Q1 & Q2 & Q3 & Q4 & Q5).
    destruct (set_options_src k e (uexec pre s1) u o step qs offs mp Hok Hu Hc Hp Hi Hst Hf Hper Hqs Ho) as (es & O1 & O2 & O3 & O4 & O5).
    exists es, ts. split.
    - rewrite G1. unfold s3. cbn [set_allowed st_srcs]. rewrite Es3, Q5, O1, P5. reflexivity.
    - split; [|auto]. rewrite G2. transitivity (length (st_sched s4)); [congruence|]. rewrite Hd. apply map_length.
  Qed.
End Syncs.

Lemma syncs_app a b : syncs_of (a ++ b) = syncs_of a ++ syncs_of b.
Proof. apply filter_app. Qed.

Section Runs.
  Variables (fuel : nat) (cfg : escfg) (sc : scfg) (tz st : Z) (now : nat -> Z) (pre post : list ucall) (ko : sopts) (e0 : senv) (ns : dict str obj) (dates : list Z).
  Variables (s4 : strat) (s : lstate scb sworld) (ps qs : list (Z * Z)) (o : sopts) (step d : Z) (offs S : list Z) (u : unit).
  Notation calls := (pre ++ UOpt ko e0 :: post).
  Hypothesis Hrun : runs fuel cfg sc tz st None now calls ns dates s4 s.
  Hypothesis Hhist : cf_hist cfg = false.
  Hypothesis Hpre : Forall not_opt pre.
  Hypothesis Hpost : Forall not_opt post.
  Hypothesis Huse : use_in_force sc ko = true.
  Hypothesis Hok : fst (set_options fuel sc st None ko e0 (uexec fuel sc st None pre (set_allowed true (make_apis sc (strat_new ns))))) = GOk u.
  Hypothesis Hcbs : sync_cbs sc ko 0 <> [].
  Hypothesis Hpo : parse_opts ko = Ok o.
  Hypothesis Hint : interval_in_force sc o = Ok step.
  Hypothesis Hstep : 0 < step.
  Hypothesis Hf0 : DAY / step + 1 < Z.of_nat fuel.
  Hypothesis Hper : period_in_force sc o = raw_of qs.
  Hypothesis Hqs : Forall (fun p => tod_ok (fst p) /\ tod_ok (snd p)) qs.
  Hypothesis Hoffs : sync_owes step qs (e_now e0) offs.
  Hypothesis Hd : nth_error dates 0 = Some d.
  Hypothesis HS : owed_on st offs d (d + cf_count cfg - 1) S.
  Hypothesis Hf1 : (1441 <= fuel)%nat.
  Hypothesis Hf2 : (Z.to_nat (cf_count cfg) < fuel)%nat.

  Notation lc := (loop_cfg cfg sc s4).
  Notation W := (flat_map (day_evs st None (map (fun t => (t, sync_cls)) offs)) (day_range d (cf_count cfg))).

  Lemma sync_src_ok mp : exists es ts, st_srcs s4 = es :: ts /\ length ts = length (asked calls) /\ es_start es = Some st /\ es_end es = None /\
      (es_need es = true \/ offs = []) /\ tasks_of mp (es_daily es) (map (fun t => (t, sync_cls)) offs).
  Proof.
    destruct (run_parts fuel cfg sc tz st now calls ns dates s4 s Hrun) as (s0 & ls & _ & _ & _ & _ & Hs).
    exact (one_sync_src fuel cfg sc st Hhist now pre ko e0 post ns s4 u o step qs offs mp Hs Hpre Hpost Huse Hok Hcbs Hpo Hint Hstep Hf0 Hper Hqs Hoffs).
  Qed.

  Lemma npre_one : npre calls s4 = 1%nat.
  Proof. destruct (sync_src_ok []) as (es & ts & E & L & _). unfold npre. rewrite E. cbn [length]. rewrite L. lia. Qed.

  Lemma syncs_emitted : syncs_of (invoked s4 (l_w s)) = flat_map (fun x => map (fun c => (x, c)) (sync_cbs sc ko 0)) (map fst (emitted 0 (l_w s))).
  Proof.
    destruct (run_parts fuel cfg sc tz st now calls ns dates s4 s Hrun) as (s0 & ls & Hb & Hl & Hokl & Hex & Hs).
    destruct (one_account fuel cfg sc st None now pre ko e0 post ns s4 Hs Hpre Hpost Huse ltac:(eauto)) as (_ & _ & Hcalls).
    assert (Hsc : st_sched s4 = map desc_of (asked calls)).
    { pose proof (setup_sched fuel cfg sc st None now calls None ns) as H. rewrite Hs in H. exact H. }
    assert (Hcls : forall k e, In (k, e) (w_emits (l_w s)) -> syncs_of (map (fun c => (fst e, c)) (MBus.calls inst (snd e) (st_bus s4))) =
        if Nat.eqb k 0 then map (fun c => (fst e, c)) (sync_cbs sc ko 0) else []).
    { intros k e Hin. destruct (emit_cls fuel cfg sc tz st now calls ns dates s4 s Hrun Hhist Hf1 Hf2 k e Hin) as [[Hlt Hc]|(j & a & -> & Ha & Hc)]; rewrite Hc.
      - rewrite npre_one in Hlt. assert (k = 0%nat) as -> by lia. cbn [Nat.eqb]. rewrite Hcalls. unfold sync_cbs. destruct (need_bal sc ko), (need_ord sc ko); reflexivity.
      - rewrite npre_one. cbn [Nat.add Nat.eqb]. assert (Hj : nth_error (st_sched s4) j = Some (desc_of a)) by (rewrite Hsc, nth_error_map, Ha; reflexivity).
        rewrite (entry_calls fuel cfg sc st None now calls ns s4 Hs j _ Hj). reflexivity. }
    unfold invoked, emitted. revert Hcls. generalize (w_emits (l_w s)). induction l as [|[k e] l IH]; intros H; [reflexivity|].
    cbn [flat_map filter fst snd]. rewrite syncs_app, (H k e (or_introl eq_refl)), IH by (intros; apply H; right; assumption).
    destruct (Nat.eqb k 0); reflexivity.
  Qed.

  Lemma sync_good s0 : boot fuel lc tz (st_srcs s4) dates = Some s0 -> length dates = length (st_srcs s4) ->
    (0 < length (st_srcs s4))%nat /\ forall es, nth_error (w_srcs (l_w s0)) 0 = Some es -> good fuel lc es W.
  Proof.
    intros Hb Hl. destruct (sync_src_ok (cf_mp lc)) as (es1 & ts & E & L & S1 & S2 & S3 & S4). split; [rewrite E; cbn; lia|]. intros es Hes.
    destruct (boot_srcs fuel lc tz ltac:(lia) (st_srcs s4) dates s0 Hb Hl _ d Hd) as (es0 & r & es2 & E0 & Ep & E2).
    rewrite Hes in E2. injection E2 as <-. rewrite E in E0. cbn in E0. injection E0 as <-.
    change (cf_count cfg) with (cf_count lc). eapply (peeked_good fuel lc es1 st); [exact Hhist|exact S1|exact S2|exact S4| |exact Hf2|exact Ep].
    destruct S3 as [S3| ->]; [left; exact S3|right; reflexivity].
  Qed.

  Lemma sync_window : S = map fst W.
  Proof. exact (owed_eq st offs sync_cls d (cf_count cfg) S HS). Qed.

  Lemma sync_calls_owed : exists em, syncs_of (invoked s4 (l_w s)) = flat_map (fun x => map (fun c => (x, c)) (sync_cbs sc ko 0)) em /\ agree em S.
  Proof.
    exists (map fst (emitted 0 (l_w s))). split; [exact syncs_emitted|].
    destruct (run_parts fuel cfg sc tz st now calls ns dates s4 s Hrun) as (s0 & ls & Hb & Hl & Hokl & Hex & Hs).
    destruct (sync_good s0 Hb Hl) as [Hlt Hg].
    destruct (one_comparable fuel lc tz (st_srcs s4) dates s0 ltac:(lia) Hl Hb ls s Hokl Hex _ _ Hlt Hg) as (t' & Ht).
    rewrite sync_window. exists (map fst t'). destruct Ht as [->|Ht]; [left|right; rewrite Ht]; rewrite map_app; reflexivity.
  Qed.

  Hypothesis Htz : tz mod US = 0.

  Lemma sync_window_facts : StronglySorted Z.le S /\ StronglySorted (le_ev tz) W /\ Forall (fun e => snd e = sync_cls /\ fst e mod US = 0) W.
  Proof.
    pose proof (owed_sorted st offs _ _ S ltac:(intros a b Ha Hb; pose proof (sync_in_day step qs _ offs Hstep Hqs Hoffs a Ha); pose proof (sync_in_day step qs _ offs Hstep Hqs Hoffs b Hb); lia) HS) as Hs.
    assert (HF : Forall (fun e => snd e = sync_cls /\ fst e mod US = 0) W).
    { apply Forall_forall. intros e He. apply in_flat_map in He as (d' & _ & He). unfold day_evs in He. apply (Permutation_in _ (sort_perm _ _)) in He.
      unfold day_instants in He. apply filter_In in He as [He _]. apply in_map_iff in He as ([o' c] & <- & He). apply in_map_iff in He as (o'' & Eo & Ho').
      injection Eo as <- <-. cbn [fst snd]. split; [reflexivity|]. apply mod_lin; [apply mod_mulr; reflexivity|].
      pose proof (sync_whole step qs _ offs Hoffs) as Hw. rewrite Forall_forall in Hw. apply Hw; exact Ho'. }
    split; [exact Hs|]. split; [|exact HF]. eapply sorted_evs; [exact Hf1|exact Hf2|exact Htz|exact HF|]. rewrite <- sync_window. exact Hs.
  Qed.

  Hypothesis Hmp : market_period sc s4 = raw_of ps.
  Hypothesis Hps : Forall (fun p => tod_ok (fst p) /\ tod_ok (snd p)) ps.
  Hypothesis Hwhole : Forall (fun p => fst p mod US = 0 /\ snd p mod US = 0) ps.
  Hypothesis Hne : ps <> [].

  (** once a task has run for instant x, the syncs owed up to and including x are done *)
  Lemma sync_first j nj idj tj oj x :
    w_hung (l_w s) = false -> nth_error (asked calls) j = Some (nj, idj, tj) -> owes ps tj oj ->
    In x (map fst (calls_of j (invoked s4 (l_w s)))) ->
    exists r, syncs_of (invoked s4 (l_w s)) = flat_map (fun x => map (fun c => (x, c)) (sync_cbs sc ko 0)) (filter (fun y => y <=? x) S ++ r).
  Proof.
    intros Hh Hj Hoj Hx. rewrite syncs_emitted.
    rewrite (calls_emitted fuel cfg sc tz st now calls ns dates s4 s Hrun Hhist Hf1 Hf2 j nj idj tj Hj), map_map in Hx. cbn [fst] in Hx.
    pose proof (instants_whole fuel cfg sc tz st now calls ns dates s4 s ps Hrun Hhist Hmp Hps Hwhole Hne Hf1 Hf2 j nj idj tj oj x Hj Hoj Hx) as Hxw.
    apply in_map_iff in Hx as (e & Ee & He).
    assert (Hin : In ((npre calls s4 + j)%nat, e) (w_emits (l_w s))).
    { unfold emitted in He. apply in_map_iff in He as ([k' e'] & <- & He). apply filter_In in He as [He Ek]. cbn [fst snd] in *. apply Nat.eqb_eq in Ek. subst k'. exact He. }
    destruct (run_parts fuel cfg sc tz st now calls ns dates s4 s Hrun) as (s0 & ls & Hb & Hl & Hokl & Hex & Hs).
    destruct (sync_good s0 Hb Hl) as [Hlt Hg]. destruct sync_window_facts as (HsS & HsW & HFW).
    destruct (one_comparable fuel lc tz (st_srcs s4) dates s0 ltac:(lia) Hl Hb ls s Hokl Hex _ _ Hlt Hg) as (t' & Ht).
    enough (Hr : exists r, map fst (emitted 0 (l_w s)) = filter (fun y => y <=? x) S ++ r) by (destruct Hr as (r & Hr); exists r; rewrite Hr; reflexivity).
    apply prefix_covers.
    - intros a b Hab. rewrite !Z.leb_le. lia.
    - exact HsS.
    - rewrite sync_window. exists (map fst t'). destruct Ht as [Ht|Ht]; [left|right]; rewrite Ht, map_app; reflexivity.
    - intros y Hy. rewrite map_length in Hy. rewrite sync_window, nth_error_map in Hy.
      destruct (nth_error W (length (emitted 0 (l_w s)))) as [ye|] eqn:EW; [|discriminate]. injection Hy as <-.
      pose proof (one_order fuel lc tz (st_srcs s4) dates s0 ltac:(lia) Hl Hb ls s Hokl Hex _ _ Hlt Hg Hh HsW _ e Hin ye EW) as Hle.
      rewrite Forall_forall in HFW. destruct (HFW ye (nth_error_In _ _ EW)) as [Hyc Hyw].
      apply before_le_ev in Hle; [|exact Htz|rewrite Ee; exact Hxw|exact Hyw].
      destruct (emit_cls fuel cfg sc tz st now calls ns dates s4 s Hrun Hhist Hf1 Hf2 _ e Hin) as [[Hlt' _]|(j' & a & Ej & Ha & Hc)]; [lia|]. assert (j' = j) by lia. subst j'.
      unfold before in Hle. rewrite Hc, Hyc, Ee in Hle. unfold cls_of, task_cls, prio_of, desc_of, sync_cls in Hle. cbn [ec_prio d_time fst snd] in Hle.
      rewrite Z.leb_gt. destruct (str_eqb _ _) in Hle; lia.
  Qed.

  (** when the loop goes to sleep, no owed sync is left *)
  Lemma sync_sleep clock ex s' m :
    w_hung (l_w s) = false -> l_step (sched_handler fuel lc tz) s (LTurn clock ex) = Some s' -> l_mode s' = Arming m ->
    exists r, syncs_of (invoked s4 (l_w s)) = flat_map (fun x => map (fun c => (x, c)) (sync_cbs sc ko 0)) (filter (fun y => y - tz <=? clock * 1000) S ++ r).
  Proof.
    intros Hh Hst Hm. rewrite syncs_emitted.
    destruct (run_parts fuel cfg sc tz st now calls ns dates s4 s Hrun) as (s0 & ls & Hb & Hl & Hokl & Hex & Hs).
    destruct (sync_good s0 Hb Hl) as [Hlt Hg]. destruct sync_window_facts as (HsS & HsW & HFW).
    destruct (one_comparable fuel lc tz (st_srcs s4) dates s0 ltac:(lia) Hl Hb ls s Hokl Hex _ _ Hlt Hg) as (t' & Ht).
    assert (Hc : l_mode s = Checking /\ s' = check_turn clock ex s).
    { unfold l_step in Hst. destruct (l_mode s); try discriminate. injection Hst as <-. auto. }
    destruct Hc as [Hc ->].
    enough (Hr : exists r, map fst (emitted 0 (l_w s)) = filter (fun y => y - tz <=? clock * 1000) S ++ r) by (destruct Hr as (r & Hr); exists r; rewrite Hr; reflexivity).
    apply prefix_covers.
    - intros a b Hab. rewrite !Z.leb_le. lia.
    - exact HsS.
    - rewrite sync_window. exists (map fst t'). destruct Ht as [Ht|Ht]; [left|right]; rewrite Ht, map_app; reflexivity.
    - intros y Hy. rewrite map_length in Hy. rewrite sync_window, nth_error_map in Hy.
      destruct (nth_error W (length (emitted 0 (l_w s)))) as [ye|] eqn:EW; [|discriminate]. injection Hy as <-.
      pose proof (one_sleep fuel lc tz (st_srcs s4) dates s0 ltac:(lia) Hl Hb ls s Hokl Hex _ _ Hlt Hg clock ex m Hc Hh Hm ye EW) as Hle.
      rewrite Forall_forall in HFW. destruct (HFW ye (nth_error_In _ _ EW)) as [_ Hyw].
      destruct (ms_whole tz (fst ye) Htz Hyw) as [E1 E2]. unfold milliseconds_to_dt in E2. apply Z.leb_gt. lia.
  Qed.
End Runs.
