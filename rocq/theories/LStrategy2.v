(** Strategies, continued: parsed market periods, the account's sync timer (C19, C55)
    and the witnesses for C11, C14-C16, C19, C55. *)
From Coq Require Import Permutation Sorted.
From Verif Require Import PyBase PyStr LStr MTime MTimeExpr MEventSource SEvent SExpr
  LEventSource LTimeExpr LEventSource2 MBus SBus LBus MStrategy SStrategy LStrategy.
Open Scope Z_scope.

(** ** parsed option lists *)
Lemma digit_range c : is_digit c = true -> 0 <= digit_val c <= 9.
Proof. unfold is_digit, digit_val. intros H. apply andb_prop in H as [H1 H2]. apply N.leb_le in H1, H2. lia. Qed.

Definition tval_ok (v : tval) : Prop := match v with TTime t => tod_ok t | _ => True end.

Lemma parse_time_ok v t : tval_ok v -> parse_time v = Ok t -> tod_ok t.
Proof.
  destruct v as [x|s|]; cbn [parse_time tval_ok]; [intros H E; apply Ok_inj in E; subst; exact H| |discriminate].
  intros _. destruct (split_on 58%N s) as [|h [|m [|s' [|? ?]]]]; try discriminate.
  destruct (field h) as [h'|]; [|discriminate]. destruct (field m) as [m'|]; [|discriminate]. destruct (field s') as [s''|]; [|discriminate].
  unfold mk_time. destruct ((0 <=? h') && (h' <? 24) && (0 <=? m') && (m' <? 60) && (0 <=? s'') && (s'' <? 60)) eqn:E; [|discriminate].
  rewrite !andb_true_iff, !Z.leb_le, !Z.ltb_lt in E. intros H. apply Ok_inj in H. subst t.
  unfold tod_ok, DAY, US. lia.
Qed.
Lemma parse_time_str_whole s t : parse_time (TStr s) = Ok t -> t mod US = 0.
Proof.
  cbn [parse_time]. destruct (split_on 58%N s) as [|h [|m [|s' [|? ?]]]]; try discriminate.
  destruct (field h) as [h'|]; [|discriminate]. destruct (field m) as [m'|]; [|discriminate]. destruct (field s') as [s''|]; [|discriminate].
  unfold mk_time. destruct ((0 <=? h') && _ && _ && _ && _ && _); [|discriminate]. intros H. apply Ok_inj in H. subst t. apply Z_mod_mult.
Qed.

Lemma parse_periods_shape mp : Forall (Forall tval_ok) mp -> forall r, parse_periods mp = Ok r ->
  exists ps, r = raw_of ps /\ length ps = length mp /\ Forall (fun p => tod_ok (fst p) /\ tod_ok (snd p)) ps /\
    Forall2 (fun raw p => exists a b, raw = [a; b] /\ parse_time a = Ok (fst p) /\ parse_time b = Ok (snd p)) mp ps.
Proof.
  induction mp as [|raw mp IH]; intros HF r; cbn [parse_periods].
  - intros H. apply Ok_inj in H. subst r. exists []. repeat split; constructor.
  - destruct raw as [|a [|b [|? ?]]]; try discriminate. inversion HF as [|? ? Hab HF']; subst.
    inversion Hab as [|? ? Ha Hb']; subst. inversion Hb' as [|? ? Hb _]; subst.
    destruct (parse_time a) as [x|] eqn:Ex; [|discriminate]. destruct (parse_time b) as [y|] eqn:Ey; [|discriminate].
    destruct (parse_periods mp) as [r'|]; [|discriminate]. cbn. intros H. apply Ok_inj in H. subst r.
    destruct (IH HF' r' eq_refl) as (ps & -> & Hl & Hok & H2). exists ((x, y) :: ps). split; [reflexivity|]. split; [cbn; congruence|].
    split; [constructor; [split; [exact (parse_time_ok a x Ha Ex)|exact (parse_time_ok b y Hb Ey)]|exact Hok]|].
    constructor; [|exact H2]. exists a, b. repeat split; assumption.
Qed.

(** ** the sync timer *)
Section Timer.
  Variables (fuel : nat) (sc : scfg) (st : Z) (en : option Z).

  Lemma step_loop_days step today a b : 0 < step -> 0 <= a -> tod_ok b ->
    Z.max 0 ((b - a) / step + 1) < Z.of_nat fuel ->
    forall mp, exists l es, option_map (map fmt_hms) (step_loop fuel step (combine today a) (combine today b)) = Some es /\
      steps step a b l /\ entries_for mp es (map trunc l).
  Proof.
    intros Hs Ha Hb Hf mp. destruct (step_loop_spec step Hs fuel a b Hf) as (l & El & Hl).
    exists l, (map fmt_hms (map (fun x => x + today * DAY) l)).
    split; [|split; [exact Hl|]].
    - unfold combine. rewrite !(Z.add_comm (today * DAY)), step_loop_shift, El. reflexivity.
    - unfold entries_for. destruct Hl as [_ Hin].
      assert (Hr : Forall (fun t => 0 <= t < DAY) l).
      { apply Forall_forall. intros t Ht. apply Hin in Ht as (k & Hk & -> & Hle). unfold tod_ok in *. nia. }
      clear El Hin. induction Hr as [|t l Ht Hr IH]; cbn [map]; constructor; [|exact IH].
      rewrite offset_fmt. rewrite Z.add_comm. change (today * DAY + t) with (combine today t).
      destruct (time_of_combine today t Ht) as [-> _]. reflexivity.
  Qed.

  Definition interval_in_force (o : sopts) : res Z := match so_interval o with Some r => r | None => Ok (sc_interval sc) end.
  Definition period_in_force (o : sopts) : rawmp := match so_period o with Some p => p | None => sc_period sc end.

  Lemma mod_day now : 0 <= dt_time now < DAY.
  Proof. unfold dt_time. apply Z.mod_pos_bound. reflexivity. Qed.
  Lemma trunc_tod now : 0 <= trunc (dt_time now) <= dt_time now.
  Proof.
    pose proof (mod_day now). unfold trunc. pose proof (Z.div_mod (dt_time now) US ltac:(discriminate)).
    pose proof (Z.mod_pos_bound (dt_time now) US ltac:(reflexivity)). assert (0 <= dt_time now / US) by (apply Z.div_pos; unfold US; lia).
    unfold US in *. lia.
  Qed.

  Lemma timer_no_period i now o s step mp : interval_in_force o = Ok step -> period_in_force o = [] -> 0 < step ->
    DAY / step + 1 < Z.of_nat fuel ->
    exists s' es l, setup_timer fuel sc st en i now o s = (GOk tt, s') /\ st_srcs s' = st_srcs s ++ [es] /\
      es_start es = Some st /\ es_end es = en /\ es_events es = [] /\ (l <> [] -> es_need es = true) /\ (l = [] -> es_daily es = []) /\
      steps step (trunc (dt_time now) + step) (86399 * US) l /\
      tasks_of mp (es_daily es) (map (fun t => (t, sync_cls)) (map trunc l)).
  Proof.
    intros Hi Hp Hs Hf. pose proof (trunc_tod now) as Ht.
    destruct (step_loop_days step (dt_date now) (trunc (dt_time now) + step) (86399 * US) Hs ltac:(lia) ltac:(split; [discriminate|reflexivity])) with (mp := mp)
      as (l & ent & El & Hl & He).
    { apply Z.max_lub_lt; [pose proof (Z.div_pos DAY step ltac:(discriminate) Hs); lia|].
      assert ((86399 * US - (trunc (dt_time now) + step)) / step <= DAY / step) by (apply Z.div_le_mono; [exact Hs|unfold DAY, US; lia]). lia. }
    destruct (step_loop fuel step _ _) as [l0|] eqn:E0 in El; [|discriminate]. cbn [option_map] in El.
    assert (Ee : map fmt_hms l0 = ent) by (injection El; auto). clear El.
    destruct (add_entries_fields sync_cls ent (es_new (Some st) en)) as (F1 & F2 & F3 & F4 & F5).
    eexists _, (add_entries sync_cls ent (es_new (Some st) en)), l. split.
    { unfold setup_timer, sync_entries. unfold interval_in_force in Hi. rewrite Hi. unfold period_in_force in Hp. rewrite Hp.
      unfold combine, trunc in E0 |- *. rewrite Z.add_assoc in E0. rewrite E0, Ee. reflexivity. }
    split; [reflexivity|]. rewrite F1, F2, F3, F5. split; [reflexivity|]. split; [reflexivity|]. split; [reflexivity|].
    split; [intros _; destruct ent; reflexivity|].
    split; [intros ->; cbn [map] in He; inversion He; reflexivity|]. split; [exact Hl|].
    apply entries_tasks; [exact He|reflexivity].
  Qed.

  Lemma timer_period i now o s step mp ps : interval_in_force o = Ok step -> period_in_force o = raw_of ps -> ps <> [] -> 0 < step ->
    Forall (fun p => tod_ok (fst p) /\ tod_ok (snd p)) ps -> DAY / step + 1 < Z.of_nat fuel ->
    exists s' es ls, setup_timer fuel sc st en i now o s = (GOk tt, s') /\ st_srcs s' = st_srcs s ++ [es] /\
      es_start es = Some st /\ es_end es = en /\ es_need es = true /\
      Forall2 (fun p l => steps step (fst p) (snd p) l) ps ls /\
      tasks_of mp (es_daily es) (map (fun t => (t, sync_cls)) (map trunc (concat ls))).
  Proof.
    intros Hi Hp Hne Hs Hps Hf.
    destruct (periods_entries_ok mp fuel step (dt_date now) Hs ps) as (ls & ent & E1 & Hls & He).
    { eapply Forall_impl; [|exact Hps]. intros p [Ha Hb]. split; [exact Ha|]. split; [exact Hb|].
      apply Z.max_lub_lt; [pose proof (Z.div_pos DAY step ltac:(discriminate) Hs); lia|]. unfold tod_ok in *.
      assert ((snd p - fst p) / step <= DAY / step) by (apply Z.div_le_mono; [exact Hs|lia]). lia. }
    destruct (add_entries_fields sync_cls ent (es_new (Some st) en)) as (F1 & F2 & F3 & F4 & F5).
    eexists _, (add_entries sync_cls ent (es_new (Some st) en)), ls. split.
    { unfold setup_timer, sync_entries. unfold interval_in_force in Hi. rewrite Hi. unfold period_in_force in Hp. rewrite Hp.
      destruct ps as [|p ps]; [congruence|]. cbn [raw_of map]. cbn [raw_of map] in E1. rewrite E1. reflexivity. }
    split; [reflexivity|]. rewrite F1, F2, F5. split; [reflexivity|]. split; [reflexivity|]. split; [destruct ent; reflexivity|].
    split; [exact Hls|]. apply entries_tasks; [exact He|reflexivity].
  Qed.

  (** an interval of 0 never ends *)
  Lemma step_loop_zero cur stop : cur <= stop -> forall f, step_loop f 0 cur stop = None.
  Proof. intros H. induction f as [|f IH]; [reflexivity|]. cbn [step_loop]. replace (cur <=? stop) with true by (symmetry; apply Z.leb_le; exact H). rewrite Z.add_0_r, IH. reflexivity. Qed.
  Lemma timer_zero i now o s : interval_in_force o = Ok 0 -> period_in_force o = [] ->
    fst (setup_timer fuel sc st en i now o s) = GFuel.
  Proof.
    intros Hi Hp. unfold setup_timer, sync_entries. unfold interval_in_force in Hi. rewrite Hi. unfold period_in_force in Hp. rewrite Hp.
    rewrite step_loop_zero; [reflexivity|]. rewrite Z.add_0_r. unfold combine. pose proof (mod_day now).
    assert (dt_time now / US * US <= 86399 * US); [|lia]. apply Z.mul_le_mono_nonneg_r; [discriminate|].
    apply Z.lt_succ_r. apply Z.div_lt_upper_bound; [reflexivity|]. exact (proj2 H).
  Qed.

  Lemma timer_late i now o s step : interval_in_force o = Ok step -> period_in_force o = [] -> 0 < step ->
    DAY / step + 1 < Z.of_nat fuel -> 86399 * US < trunc (dt_time now) + step -> en = None ->
    exists s' es, setup_timer fuel sc st en i now o s = (GOk tt, s') /\ st_srcs s' = st_srcs s ++ [es] /\
      es_daily es = [] /\
      forall cfg, cf_hist cfg = false -> 0 < cf_count cfg ->
        forall f today, peek_next_event f cfg today es = GFuel /\ get_next_event f cfg today es = GFuel.
  Proof.
    intros Hi Hp Hs Hf Hl He. destruct (timer_no_period i now o s step [] Hi Hp Hs Hf) as (s' & es & l & H1 & H2 & H3 & H4 & H4' & H5 & H6 & H7 & H8).
    exists s', es. assert (l = []).
    { destruct l as [|x l]; [reflexivity|]. exfalso. destruct (proj1 (proj2 H7 x) (or_introl eq_refl)) as (k & Hk & -> & Hle). nia. }
    split; [exact H1|]. split; [exact H2|]. split; [auto|]. intros cfg Hh Hc f today.
    apply empty_live_never; try assumption; [congruence|auto|congruence|auto].
  Qed.
End Timer.

(** on later days nothing happens before the first entry's time of day *)
Lemma stream_times st en tasks lo hi S lim : stream_ok st en tasks lo hi S ->
  Forall (fun t => lim <= fst t < DAY) tasks -> 0 <= lim -> forall x c, In (x, c) S -> lim <= dt_time x.
Proof.
  intros (days & ls & _ & HF & ->) Hl H0 x c Hin. induction HF as [|d l days ls Hd HF IH]; [destruct Hin|].
  cbn [concat] in Hin. apply in_app_or in Hin as [Hin|Hin]; [|exact (IH Hin)]. clear IH HF.
  destruct Hd as (HP & _). apply (Permutation_in _ HP) in Hin. unfold day_instants in Hin.
  apply filter_In in Hin as [Hin _]. apply in_map_iff in Hin as ([off c'] & E & Hin).
  apply (proj1 (Forall_forall _ _) Hl) in Hin. cbn [fst snd] in *. injection E as <- _.
  unfold dt_time. rewrite Z.add_comm, Z_mod_plus_full, Z.mod_small by lia. lia.
Qed.

(** ** C55: one set_options call *)
Section Sync.
  Variables (fuel : nat) (cfg : escfg) (sc : scfg) (st : Z) (en : option Z).
  Notation uexec := (uexec fuel sc st en).
  Notation setup := (setup fuel cfg sc st en).

  Definition use_in_force (k : sopts) : bool := match so_use k with Some b => b | None => sc_setup sc end.
  Definition sync_cbs (k : sopts) (i : nat) : list cb :=
    (if need_bal sc k then [CbBal i] else []) ++ (if need_ord sc k then [CbOrd i] else []).

  Lemma parse_opts_keep k o : parse_opts k = Ok o ->
    so_use o = so_use k /\ so_acct o = so_acct k /\ so_bal o = so_bal k /\ so_ord o = so_ord k.
  Proof.
    unfold parse_opts. destruct (parse_opt (so_mp k)); [|discriminate]. cbn.
    destruct (match so_interval k with Some (Err e) => Err e | x => Ok x end); [|discriminate]. cbn.
    destruct (parse_opt (so_period k)); [|discriminate]. cbn. intros H. apply Ok_inj in H. subst o. repeat split; reflexivity.
  Qed.

  Lemma set_options_ok k e s u : fst (set_options fuel sc st en k e s) = GOk u -> use_in_force k = true ->
    let s' := snd (set_options fuel sc st en k e s) in
    st_bus s' = fold_left b_step (map (fun c => Reg sync_cls c 0) (sync_cbs k (st_nacc s))) (st_bus s) /\
    st_acc s' = Some (st_nacc s) /\ st_use s' = Some true /\ st_nacc s' = S (st_nacc s).
  Proof.
    unfold set_options, setup_account, setup_timer, use_in_force.
    destruct (negb (st_allowed s)); [discriminate|].
    destruct (parse_opts k) as [o|x] eqn:Ep; [|discriminate]. destruct (parse_opts_keep _ _ Ep) as (K1 & K2 & K3 & K4).
    destruct (e_dir e); [|discriminate]. rewrite K1. intros H Hu. revert H. rewrite Hu.
    destruct (negb (so_acct o)); [discriminate|]. destruct (e_load e); [|discriminate]. destruct (e_gate e); [|discriminate].
    unfold sync_cbs. assert (B1 : need_bal sc o = need_bal sc k) by (unfold need_bal; rewrite K3; reflexivity).
    assert (B2 : need_ord sc o = need_ord sc k) by (unfold need_ord; rewrite K4; reflexivity). rewrite B1, B2.
    destruct (need_bal sc k), (need_ord sc k); cbn [orb];
      try (destruct (sync_entries fuel sc (e_now e) o); try discriminate); intros _; cbn; repeat split; reflexivity.
  Qed.

  Definition not_opt (c : ucall) : Prop := match c with UOpt _ _ => False | _ => True end.

  Lemma ustep_not_opt c s : not_opt c -> let s' := snd (ustep fuel sc st en c s) in
    st_bus s' = st_bus s /\ st_nacc s' = st_nacc s /\ st_acc s' = st_acc s /\ st_use s' = st_use s /\ st_srcs s' = st_srcs s.
  Proof.
    destruct c as [f t|k e|n o]; intros H; [|destruct H|]; cbn [ustep].
    - unfold run_daily. destruct (f_name f); [|repeat split; reflexivity]. destruct (negb (st_allowed s)); [repeat split; reflexivity|].
      destruct (negb (f_callable f)); repeat split; reflexivity.
    - repeat split; reflexivity.
  Qed.
  Lemma uexec_not_opt cs : Forall not_opt cs -> forall s, let s' := uexec cs s in
    st_bus s' = st_bus s /\ st_nacc s' = st_nacc s /\ st_acc s' = st_acc s /\ st_use s' = st_use s /\ st_srcs s' = st_srcs s.
  Proof.
    intros HF. induction HF as [|c cs Hc HF IH]; intros s; [repeat split; reflexivity|]. cbn [MStrategy.uexec].
    destruct (IH (snd (ustep fuel sc st en c s))) as (-> & -> & -> & -> & ->). apply ustep_not_opt; exact Hc.
  Qed.
  Lemma uexec_app a b : forall s, uexec (a ++ b) s = uexec b (uexec a s).
  Proof. induction a as [|c a IH]; intros s; [reflexivity|]. cbn [app MStrategy.uexec]. apply IH. Qed.

  Lemma schedule_one_acc now d s s' : schedule_one fuel cfg sc st en now d s = GOk s' ->
    st_acc s' = st_acc s /\ st_use s' = st_use s /\ st_nacc s' = st_nacc s.
  Proof.
    unfold schedule_one. destruct (es_setup _ _ _); [|discriminate].
    destruct (if str_eqb (d_time d) (lit "every_minute") then _ else _); try discriminate.
    intros H. assert (E : forall a b : strat, GOk a = GOk b -> a = b) by (clear; intros a b E; injection E; auto).
    apply E in H. subst s'. repeat split; reflexivity.
  Qed.
  Lemma schedule_descs_acc now ds : forall s s', schedule_descs fuel cfg sc st en now ds s = GOk s' ->
    st_acc s' = st_acc s /\ st_use s' = st_use s /\ st_nacc s' = st_nacc s.
  Proof.
    induction ds as [|d ds IH]; intros s s'; cbn [schedule_descs]; [intros H; injection H as <-; repeat split; reflexivity|].
    destruct (schedule_one fuel cfg sc st en (now (st_count s)) d s) as [s1|x|] eqn:E1; try discriminate. intros H.
    destruct (IH _ _ H) as (-> & -> & ->). exact (schedule_one_acc _ _ _ _ E1).
  Qed.

  Lemma delivers_same {K C} (k : K) (cs : list C) r : delivers (map (fun c => En k 0 c) cs) r -> r = cs.
  Proof.
    intros (L & -> & HP & _ & HF). specialize (HF 0).
    assert (HL : filter (fun x : entry K C => en_prio x =? 0) L = L).
    { assert (Ha : forall x, In x L -> en_prio x = 0).
      { intros x Hx. apply (Permutation_in _ HP) in Hx. apply in_map_iff in Hx as (c & <- & _). reflexivity. }
      clear HP HF. induction L as [|x L IH]; [reflexivity|]. cbn [filter]. rewrite (Ha x (or_introl eq_refl)). cbn. f_equal. apply IH. intros y Hy; apply Ha; right; exact Hy. }
    assert (HR : filter (fun x : entry K C => en_prio x =? 0) (map (fun c => En k 0 c) cs) = map (fun c => En k 0 c) cs).
    { clear. induction cs as [|c cs IH]; [reflexivity|]. cbn. f_equal. exact IH. }
    rewrite HL, HR in HF. rewrite HF. rewrite map_map. cbn [en_cb]. apply map_id.
  Qed.

  Lemma one_account now pre k e post ns s4 :
    setup now true (pre ++ UOpt k e :: post) None (strat_new ns) = (GOk tt, s4) ->
    Forall not_opt pre -> Forall not_opt post -> use_in_force k = true ->
    (exists u, fst (set_options fuel sc st en k e (uexec pre (set_allowed true (make_apis sc (strat_new ns))))) = GOk u) ->
    st_acc s4 = Some 0%nat /\ st_use s4 = Some true /\
    MBus.calls inst sync_cls (st_bus s4) = sync_cbs k 0.
  Proof.
    intros Hs Hpre Hpost Hu (u & Hok). unfold MStrategy.setup, schedule_all_tasks in Hs.
    set (s1 := set_allowed true (make_apis sc (strat_new ns))) in *.
    set (s3 := set_allowed false (uexec (pre ++ UOpt k e :: post) s1)) in *.
    destruct (schedule_descs fuel cfg sc st en now (st_sched s3) s3) as [s5|x|] eqn:E; try discriminate.
    assert (Ep : forall a b : gres unit * strat, a = b -> snd a = snd b) by (intros a b ->; reflexivity).
    apply Ep in Hs. cbn [snd] in Hs. subst s5. clear Ep.
    destruct (schedule_descs_acc _ _ _ _ E) as (A1 & A2 & A3).
    destruct (uexec_not_opt pre Hpre s1) as (P1 & P2 & P3 & P4 & P5).
    assert (Es3 : uexec (pre ++ UOpt k e :: post) s1 = uexec post (snd (set_options fuel sc st en k e (uexec pre s1)))) by (rewrite uexec_app; reflexivity).
    destruct (uexec_not_opt post Hpost (snd (set_options fuel sc st en k e (uexec pre s1)))) as (Q1 & Q2 & Q3 & Q4 & Q5).
    destruct (set_options_ok k e (uexec pre s1) u Hok Hu) as (O1 & O2 & O3 & O4).
    assert (B3 : st_bus s3 = fold_left b_step (map (fun c => Reg sync_cls c 0) (sync_cbs k 0)) bus_new).
    { unfold s3. cbn [set_allowed st_bus]. rewrite Es3, Q1, O1, P1, P2. reflexivity. }
    split; [rewrite A1; unfold s3; cbn [set_allowed st_acc]; rewrite Es3, Q3, O2, P2; reflexivity|].
    split; [rewrite A2; unfold s3; cbn [set_allowed st_use]; rewrite Es3, Q4, O3; reflexivity|].
    pose proof (schedule_descs_bus _ _ _ _ _ _ _ _ _ E) as E2.
    set (regs := task_regs (st_ns s3) (st_count s3) (st_sched s3)) in *.
    set (ops := map (fun c => Reg sync_cls c 0) (sync_cbs k 0) ++ regs).
    assert (Hb : st_bus s4 = b_run ops) by (unfold b_run, ops; rewrite fold_left_app, E2, B3; reflexivity).
    rewrite Hb.
    assert (Hregs : forall ds j o, In o (task_regs (st_ns s3) j ds) -> exists k' c p, o = Reg k' c p /\ k' <> sync_cls).
    { induction ds as [|d ds IH]; intros j o; cbn [task_regs]; [intros []|]. intros [<-|Hin].
      - exists (cls_of j d), (CbUser j (dget (d_name d) (st_ns s3))), 0. split; [reflexivity|apply cls_of_sync].
      - exact (IH _ _ Hin). }
    assert (HD : delivers (of_class sync_cls (live ops)) (MBus.calls inst sync_cls (b_run ops))).
    { apply delivery_one; [reflexivity|]. intros k' c p _ Hi. unfold inst in Hi. destruct (eqb_spec sync_cls k'); [auto|discriminate]. }
    assert (HL : of_class sync_cls (live ops) = map (fun c => En sync_cls 0 c) (sync_cbs k 0)).
    { unfold live. rewrite live_no_unreg; cbn [app].
      - unfold ops. rewrite flat_map_app. unfold of_class. rewrite filter_app.
        change (filter (fun x => eqb sync_cls (en_cls x))) with (@of_class ecls cb _ sync_cls).
        rewrite (of_class_none sync_cls regs) by (intros o Ho; exact (Hregs _ _ _ Ho)). rewrite app_nil_r.
        generalize (sync_cbs k 0). clear. induction l as [|c l IH]; [reflexivity|]. cbn [map flat_map app]. cbn. f_equal. exact IH.
      - unfold ops. intros o Ho. apply in_app_or in Ho as [Ho|Ho].
        + apply in_map_iff in Ho as (c & <- & _). eauto.
        + destruct (Hregs _ _ _ Ho) as (k' & c & p & -> & _). eauto. }
    rewrite HL in HD. exact (delivers_same _ _ _ HD).
  Qed.

  (** the source of the k-th entry carries that entry's class only (C16) *)
  Lemma schedule_one_src now d s s' : schedule_one fuel cfg sc st en now d s = GOk s' ->
    exists es, st_srcs s' = st_srcs s ++ [es] /\ Forall (fun x => snd x = cls_of (st_count s) d) (es_daily es).
  Proof.
    unfold schedule_one. destruct (es_setup cfg now (es_new (Some st) en)) as [es0|] eqn:E0; [|discriminate].
    assert (D0 : es_daily es0 = []).
    { revert E0. unfold es_setup, reset_if_needed. cbn. destruct (get_days _ _ _) as [[days his]|]; [|discriminate]. cbn. intros H; apply Ok_inj in H; subst; reflexivity. }
    destruct (if str_eqb (d_time d) (lit "every_minute") then _ else _) as [l|x|]; try discriminate.
    intros H. assert (E : forall a b : strat, GOk a = GOk b -> a = b) by (clear; intros a b E; injection E; auto).
    apply E in H. subst s'. eexists. split; [reflexivity|]. rewrite add_entries_daily, D0. cbn [app].
    apply Forall_forall. intros x Hx. apply in_map_iff in Hx as (y & <- & _). reflexivity.
  Qed.
  Lemma schedule_descs_srcs now ds : forall s s', schedule_descs fuel cfg sc st en now ds s = GOk s' ->
    exists ts, st_srcs s' = st_srcs s ++ ts /\ length ts = length ds /\
      forall i d es, nth_error ds i = Some d -> nth_error ts i = Some es ->
        Forall (fun x => snd x = cls_of (st_count s + i) d) (es_daily es).
  Proof.
    induction ds as [|d ds IH]; intros s s'; cbn [schedule_descs].
    - intros H; injection H as <-. exists []. rewrite app_nil_r. split; [reflexivity|]. split; [reflexivity|]. intros [|i] d es; discriminate.
    - destruct (schedule_one fuel cfg sc st en (now (st_count s)) d s) as [s1|x|] eqn:E1; try discriminate. intros H.
      destruct (schedule_one_src _ _ _ _ E1) as (es & F1 & F2). destruct (schedule_one_frame _ _ _ _ _ _ _ _ _ E1) as (_ & _ & _ & _ & F5 & _).
      destruct (IH _ _ H) as (ts & G1 & G2 & G3). exists (es :: ts). rewrite G1, F1, <- app_assoc. split; [reflexivity|]. split; [cbn; congruence|].
      intros [|i] d' es'; cbn [nth_error].
      + intros H1 H2; injection H1 as <-; injection H2 as <-. rewrite Nat.add_0_r. exact F2.
      + intros H1 H2. specialize (G3 i d' es' H1 H2). rewrite F5 in G3. replace (st_count s + S i)%nat with (S (st_count s) + i)%nat by lia. exact G3.
  Qed.

  Lemma entry_source now calls ns s4 : setup now true calls None (strat_new ns) = (GOk tt, s4) ->
    exists pre ts, st_srcs s4 = pre ++ ts /\ length ts = length (st_sched s4) /\
      forall k d es, nth_error (st_sched s4) k = Some d -> nth_error ts k = Some es ->
        Forall (fun x => snd x = cls_of k d) (es_daily es).
  Proof.
    intros Hs. unfold MStrategy.setup, schedule_all_tasks in Hs.
    set (s1 := set_allowed true (make_apis sc (strat_new ns))) in *.
    set (s3 := set_allowed false (uexec calls s1)) in *.
    destruct (schedule_descs fuel cfg sc st en now (st_sched s3) s3) as [s5|x|] eqn:E; try discriminate.
    assert (Ep : forall a b : gres unit * strat, a = b -> snd a = snd b) by (intros a b ->; reflexivity).
    apply Ep in Hs. cbn [snd] in Hs. subst s5. clear Ep.
    destruct (schedule_descs_srcs _ _ _ _ E) as (ts & G1 & G2 & G3).
    destruct (schedule_descs_frame _ _ _ _ _ _ _ _ _ E) as (_ & F2 & _ & _).
    assert (Hcount : st_count s3 = 0%nat) by (unfold s3; cbn; rewrite uexec_count; reflexivity).
    rewrite Hcount in G3. exists (st_srcs s3), ts. rewrite F2. split; [exact G1|]. split; [exact G2|exact G3].
  Qed.

  (** C16 with the hypothesis that names resolve to the functions given *)
  Lemma entry_drives now calls ns s4 : setup now true calls None (strat_new ns) = (GOk tt, s4) ->
    forall k n id t, nth_error (asked calls) k = Some (n, id, t) -> dget n (st_ns s4) = Some (OUser id) ->
    exists es c pre ts, st_srcs s4 = pre ++ ts /\ length ts = length (asked calls) /\ nth_error ts k = Some es /\
      Forall (fun x => snd x = c) (es_daily es) /\
      MBus.calls inst c (st_bus s4) = [CbUser k (Some (OUser id))].
  Proof.
    intros Hs k n id t Hk Hr.
    assert (Hd : st_sched s4 = map desc_of (asked calls)).
    { pose proof (setup_sched fuel cfg sc st en now calls None ns) as H. rewrite Hs in H. exact H. }
    assert (Hkd : nth_error (st_sched s4) k = Some (Desc n (time_dict t))).
    { rewrite Hd. rewrite nth_error_map, Hk. reflexivity. }
    destruct (entry_source now calls ns s4 Hs) as (pre & ts & H1 & H2 & H3).
    assert (exists es, nth_error ts k = Some es) as (es & Hes).
    { destruct (nth_error ts k) eqn:E; [eauto|]. apply nth_error_None in E. assert (nth_error (st_sched s4) k <> None) by congruence. apply nth_error_Some in H. lia. }
    exists es, (cls_of k (Desc n (time_dict t))), pre, ts. split; [exact H1|]. split; [rewrite H2, Hd; apply map_length|]. split; [exact Hes|].
    split; [exact (H3 _ _ _ Hkd Hes)|].
    rewrite (entry_calls fuel cfg sc st en now calls ns s4 Hs k _ Hkd). cbn [d_name]. rewrite Hr. reflexivity.
  Qed.
End Sync.
