(** Processes whose sources are bounded: with an end date, or started in the past (C125). *)
From Coq Require Import Permutation Sorted.
From Verif Require Import PyBase PyStr MTime MTimeExpr MEventSource MQueue MLoop MSched MBus MStrategy SBus LBus SEvent SExpr SStrategy SSched SQueue LQueue LLoop
  LSort LEventSource LEventSource2 LStrategy LStrategy2 LSched LSched2 LSched3 LLive MProcess SProcess LProcess SEnd LEnd.
Open Scope Z_scope.

(** ** sources *)
Section Source.
  Variables (fuel : nat) (cfg : escfg) (a : Z) (en : option Z) (tasks : list task) (es0 : esrc).
  Hypothesis Hst : es_start es0 = Some a.
  Hypothesis Hen : es_end es0 = en.
  Hypothesis Hneed : es_need es0 = true.
  Hypothesis Ht : tasks_of (cf_mp cfg) (es_daily es0) tasks.
  Hypothesis Hb : cf_hist cfg = true \/ en <> None.
  Notation W := (flat_map (day_evs a en tasks) (days_of cfg 0 a en)).
  Hypothesis Hf : (length (days_of cfg 0 a en) < fuel)%nat.

  Lemma days_any today : days_of cfg today a en = days_of cfg 0 a en.
  Proof. unfold days_of. destruct en; [reflexivity|]. destruct (cf_hist cfg); [reflexivity|]. destruct Hb; congruence. Qed.

  Lemma src_answers todays : exists es', get_events fuel cfg todays es0 = GOk (answers (length todays) W, es').
  Proof.
    destruct todays as [|t ts]; [exists es0; reflexivity|].
    pose proof (reset_fresh cfg t a es0 Hst Hneed) as Hreset. rewrite (get_events_reset cfg t ts es0 _ fuel Hreset).
    set (es1 := es_set_gen _ _ _ _ es0) in *.
    destruct (get_events_bounded cfg a tasks fuel (t :: ts) es1) as (es' & E).
    - repeat split; [exact Hst|exact Ht].
    - unfold bounded, es1; cbn. rewrite Hen. destruct Hb as [->|H]; [reflexivity|]. destruct en; [apply orb_true_r|congruence].
    - reflexivity.
    - unfold es1; cbn. rewrite Hen, days_any. exact Hf.
    - exists es'. rewrite E. unfold pend, es1; cbn [es_events es_days es_end es_set_gen app]. rewrite Hen, days_any. reflexivity.
  Qed.

  Lemma src_rel em es : rel fuel cfg es0 em es ->
    (length em <= length W)%nat /\ em = firstn (length em) W /\
    forall todays, exists es', get_events fuel cfg todays es = GOk (answers (length todays) (skipn (length em) W), es').
  Proof.
    intros (dates & esa & H1 & H2).
    pose proof (get_events_length _ _ _ _ _ _ H1) as Hl. rewrite map_length in Hl.
    destruct (src_answers dates) as (es' & E). rewrite H1 in E. injection E as E _. apply answers_some in E. rewrite <- Hl in E. destruct E as [Hle Em].
    split; [exact Hle|]. split; [exact Em|].
    assert (Ha : forall todays, exists es', get_events fuel cfg todays esa = GOk (answers (length todays) (skipn (length em) W), es')).
    { intros todays. destruct (src_answers (dates ++ todays)) as (es2 & E2). rewrite (get_events_app _ _ _ _ _ _ _ H1) in E2.
      rewrite app_length, <- Hl, answers_split in E2 by exact Hle. rewrite <- Em in E2.
      destruct (get_events fuel cfg todays esa) as [[rs2 es3]| |]; try discriminate.
      injection E2 as E2 _. apply app_inv_head in E2. rewrite E2. exists es3. reflexivity. }
    destruct H2 as [->|(t0 & r & Hp)]; [exact Ha|].
    intros [|t ts]; [exists es; reflexivity|].
    destruct (Ha (t0 :: ts)) as (es2 & E2). exists es2. cbn [get_events length] in E2 |- *.
    destruct (peek_preview _ _ _ _ _ _ Hp) as (_ & Hga & Hgb).
    destruct (Hgb fuel t ltac:(lia)) as [_ Hgc]. rewrite Hga in E2. rewrite Hgc. exact E2.
  Qed.

  Lemma src_dry em es : rel fuel cfg es0 em es -> exhausted cfg es -> em = W.
  Proof.
    intros Hr [Hset Hev]. destruct (src_rel em es Hr) as (Hle & Em & Hrest). destruct (Hrest [0]) as (es' & E). cbn [get_events length] in E.
    unfold get_next_event in E. rewrite (settled_gen cfg 0 fuel es Hset ltac:(lia)), Hev in E.
    destruct (skipn (length em) W) as [|x xs] eqn:Es; [|discriminate].
    rewrite Em. assert (Hlen : length (skipn (length em) W) = 0%nat) by (rewrite Es; reflexivity).
    rewrite skipn_length in Hlen. apply firstn_all2. lia.
  Qed.
End Source.

(** ** the owed instants *)
Definition until (en : option Z) (t : Z) : bool := match en with Some e => t <=? e | None => true end.

Lemma day_evs_until a en offs c d :
  map fst (day_evs a en (map (fun o => (o, c)) offs) d) = filter (until en) (map fst (day_evs a None (map (fun o => (o, c)) offs) d)).
Proof.
  destruct (day_evs_ok a en (map (fun o => (o, c)) offs) d) as (HP & HS & _). destruct (day_evs_times a offs c d) as [HP' HS'].
  apply sorted_perm.
  - apply sorted_map. exact HS.
  - clear - HS'. induction HS' as [|x l Hs IH Hf]; cbn; [constructor|]. destruct (until en x); [|exact IH]. constructor; [exact IH|].
    apply Forall_forall. intros y Hy. apply filter_In in Hy. rewrite Forall_forall in Hf. apply Hf. tauto.
  - eapply Permutation_trans; [apply Permutation_map; exact HP|].
    assert (PF : forall (l1 l2 : list Z), Permutation l1 l2 -> Permutation (filter (until en) l1) (filter (until en) l2)).
    { clear. induction 1 as [|x l1 l2 H IH|x y l|l1 l2 l3 H1 IH1 H2 IH2]; cbn; [constructor| | |eapply Permutation_trans; eassumption].
      - destruct (until en x); [constructor|]; exact IH.
      - destruct (until en x), (until en y); try apply Permutation_refl. apply perm_swap. }
    eapply Permutation_trans; [|apply Permutation_sym, PF; exact HP'].
    unfold day_instants. rewrite map_map. cbn [fst snd]. rewrite (filter_map (fun o => (d * DAY + o, c))), map_map. cbn [fst].
    rewrite !(filter_map (fun o => d * DAY + o)). apply Permutation_refl'. f_equal. clear. induction offs as [|o offs IH]; [reflexivity|]. cbn [filter].
    unfold within at 1. fold (until en (d * DAY + o)). destruct (a <=? d * DAY + o); cbn [andb filter]; [|exact IH]. destruct (until en (d * DAY + o)); rewrite IH; reflexivity.
Qed.
Lemma owed_until a en offs c lo n S : owed_on a offs lo (lo + n - 1) S ->
  filter (until en) S = map fst (flat_map (day_evs a en (map (fun o => (o, c)) offs)) (day_range lo n)).
Proof.
  intro H. rewrite (owed_eq a offs c lo n S H). clear H. induction (day_range lo n) as [|d l IH]; [reflexivity|].
  cbn [flat_map]. rewrite !map_app, filter_app, IH, <- day_evs_until. reflexivity.
Qed.

(** ** what setup leaves behind *)
Section Setup.
  Variables (fuel : nat) (cfg : escfg) (sc : scfg) (st : Z) (en : option Z).
  Notation uexec := (uexec fuel sc st en).
  Notation setup := (setup fuel cfg sc st en).
  Definition begins (now : Z) : Z := if cf_hist cfg then st else now.

  Lemma ustep_srcs c s : Forall sync_src (st_srcs s) -> Forall sync_src (st_srcs (snd (ustep fuel sc st en c s))).
  Proof.
    intros H. destruct c as [f t|k e|n o]; cbn [ustep].
    - unfold run_daily. destruct (f_name f); [|exact H]. destruct (negb (st_allowed s)); [exact H|]. destruct (negb (f_callable f)); exact H.
    - unfold set_options, setup_account, setup_timer.
      destruct (negb (st_allowed s)); [exact H|]. destruct (parse_opts k) as [o|x]; [|exact H]. destruct (e_dir e); [|exact H].
      destruct (match so_use o with Some b => b | None => sc_setup sc end); [|exact H].
      destruct (negb (so_acct o)); [exact H|]. destruct (e_load e); [|exact H]. destruct (e_gate e); [|exact H].
      destruct (need_bal sc o || need_ord sc o); [|exact H].
      destruct (sync_entries fuel sc (e_now e) o) as [l| |]; [|exact H|exact H].
      cbn [snd add_src set_bus st_srcs new_acc set_use set_opts]. apply Forall_app. split; [exact H|]. constructor; [|constructor].
      destruct (add_entries_fields sync_cls l (es_new (Some st) en)) as (_ & _ & F3 & _).
      split; [rewrite F3; reflexivity|]. rewrite add_entries_daily. apply Forall_forall. intros x Hx. apply in_map_iff in Hx as (y & <- & _). reflexivity.
    - exact H.
  Qed.
  Lemma uexec_srcs cs : forall s, Forall sync_src (st_srcs s) -> Forall sync_src (st_srcs (uexec cs s)).
  Proof. induction cs as [|c cs IH]; intros s H; [exact H|]. cbn [MStrategy.uexec]. apply IH, ustep_srcs, H. Qed.

  Lemma setup_parts now calls ns s4 : setup now true calls None (strat_new ns) = (GOk tt, s4) ->
    exists s3 ops, schedule_descs fuel cfg sc st en now (st_sched s3) s3 = GOk s4 /\ st_count s3 = 0%nat /\
      st_sched s3 = map desc_of (asked calls) /\ Forall sync_src (st_srcs s3) /\ Forall is_sync ops /\ st_bus s3 = b_run ops.
  Proof.
    intros Hs. pose proof (setup_sched fuel cfg sc st en now calls None ns) as Hd. rewrite Hs in Hd. cbn [snd] in Hd.
    unfold MStrategy.setup, schedule_all_tasks in Hs.
    set (s1 := set_allowed true (make_apis sc (strat_new ns))) in *.
    set (s3 := set_allowed false (uexec calls s1)) in *.
    destruct (schedule_descs fuel cfg sc st en now (st_sched s3) s3) as [s5|x|] eqn:E; try discriminate.
    assert (Ep : forall a b : gres unit * strat, a = b -> snd a = snd b) by (intros a b ->; reflexivity).
    apply Ep in Hs. cbn [snd] in Hs. subst s5. clear Ep.
    destruct (uexec_bus fuel sc st en calls s1) as (o1 & F1 & E1).
    destruct (schedule_descs_frame _ _ _ _ _ _ _ _ _ E) as (_ & G2 & _ & G4).
    exists s3, o1. split; [exact E|]. split; [unfold s3; cbn; rewrite uexec_count; reflexivity|]. split; [congruence|].
    split; [apply uexec_srcs; constructor|]. split; [exact F1|]. exact E1.
  Qed.

  Lemma es_setup_any now : exists es0, es_setup cfg now (es_new (Some st) en) = Ok es0 /\ es_start es0 = Some (begins now) /\ es_end es0 = en /\
    es_daily es0 = [] /\ es_events es0 = [].
  Proof. unfold es_setup, reset_if_needed, get_days, begins. cbn. destruct (cf_hist cfg); cbn; [|destruct en]; eexists; repeat split. Qed.

  Definition task_src now s k d es : Prop := exists l, entries_of fuel sc now s d = GOk l /\
    es_start es = Some (begins now) /\ es_end es = en /\ es_events es = [] /\
    es_daily es = map (fun e => (e, cls_of k d)) l /\ (es_need es = true \/ l = []).

  Lemma schedule_one_task now d s s' : schedule_one fuel cfg sc st en now d s = GOk s' ->
    exists es, st_srcs s' = st_srcs s ++ [es] /\ task_src now s (st_count s) d es.
  Proof.
    unfold schedule_one. destruct (es_setup_any now) as (es0 & -> & H1 & H2 & H3 & H4).
    destruct (if str_eqb (d_time d) (lit "every_minute") then _ else _) as [l|x|] eqn:El; try discriminate.
    intros H. assert (E : forall a b : strat, GOk a = GOk b -> a = b) by (clear; intros a b E; injection E; auto).
    apply E in H. subst s'. clear E. fold (prio_of d) (cls_of (st_count s) d).
    exists (add_entries (cls_of (st_count s) d) l es0). split; [reflexivity|].
    destruct (add_entries_fields (cls_of (st_count s) d) l es0) as (F1 & F2 & F3 & F4 & F5).
    exists l. split; [exact El|]. rewrite F1, F2, F3, F5. split; [exact H1|]. split; [exact H2|]. split; [exact H4|].
    split; [rewrite add_entries_daily, H3; reflexivity|]. destruct l; auto.
  Qed.

  Lemma schedule_descs_tasks now ds : forall s s', schedule_descs fuel cfg sc st en now ds s = GOk s' ->
    exists ts, st_srcs s' = st_srcs s ++ ts /\ length ts = length ds /\
      forall i d es, nth_error ds i = Some d -> nth_error ts i = Some es -> task_src (now (st_count s + i)%nat) s (st_count s + i) d es.
  Proof.
    induction ds as [|d ds IH]; intros s s'; cbn [schedule_descs].
    - intros H; injection H as <-. exists []. rewrite app_nil_r. split; [reflexivity|]. split; [reflexivity|]. intros [|i] d es; discriminate.
    - destruct (schedule_one fuel cfg sc st en (now (st_count s)) d s) as [s1|x|] eqn:E1; try discriminate. intros H.
      destruct (schedule_one_task _ _ _ _ E1) as (es & F1 & F2). destruct (schedule_one_frame _ _ _ _ _ _ _ _ _ E1) as (_ & _ & _ & F4 & F5 & _).
      destruct (IH _ _ H) as (ts & G1 & G2 & G3). exists (es :: ts). rewrite G1, F1, <- app_assoc. split; [reflexivity|]. split; [cbn; congruence|].
      intros [|i] d' es'; cbn [nth_error].
      + intros H1 H2; injection H1 as <-; injection H2 as <-. rewrite Nat.add_0_r. exact F2.
      + intros H1 H2. specialize (G3 i d' es' H1 H2). rewrite F5 in G3. replace (st_count s + S i)%nat with (S (st_count s) + i)%nat by lia.
        destruct G3 as (l & G3 & G4). exists l. split; [|exact G4]. revert G3. unfold entries_of, market_period. rewrite F4. auto.
  Qed.

  Lemma setup_srcs now calls ns s4 : setup now true calls None (strat_new ns) = (GOk tt, s4) ->
    exists pre ts, st_srcs s4 = pre ++ ts /\ length ts = length (asked calls) /\ Forall sync_src pre /\
      forall k a es, nth_error (asked calls) k = Some a -> nth_error ts k = Some es -> task_src (now k) s4 k (desc_of a) es.
  Proof.
    intros Hs. destruct (setup_parts now calls ns s4 Hs) as (s3 & ops & E & Hc & Hd & Hsy & _ & _).
    destruct (schedule_descs_tasks _ _ _ _ E) as (ts & G1 & G2 & G3). destruct (schedule_descs_frame _ _ _ _ _ _ _ _ _ E) as (_ & _ & F3 & _).
    exists (st_srcs s3), ts. split; [exact G1|]. split; [rewrite G2, Hd; apply map_length|]. split; [exact Hsy|].
    intros k a es Ha Hes. assert (Hk : nth_error (st_sched s3) k = Some (desc_of a)) by (rewrite Hd, nth_error_map, Ha; reflexivity).
    specialize (G3 k _ es Hk Hes). rewrite Hc in G3. destruct G3 as (l & G3 & G4). exists l. split; [|exact G4].
    revert G3. unfold entries_of, market_period. rewrite F3. auto.
  Qed.

  Lemma sync_calls now calls ns s4 : setup now true calls None (strat_new ns) = (GOk tt, s4) ->
    forall c, In c (MBus.calls inst sync_cls (st_bus s4)) -> (exists i, c = CbBal i) \/ (exists i, c = CbOrd i).
  Proof.
    intros Hs c Hc. destruct (setup_parts now calls ns s4 Hs) as (s3 & ops & E & H0 & Hd & _ & Hsy & Hbus).
    pose proof (schedule_descs_bus _ _ _ _ _ _ _ _ _ E) as E2. set (regs := task_regs _ _ _) in *.
    assert (Hb4 : st_bus s4 = b_run (ops ++ regs)) by (unfold b_run; rewrite fold_left_app, E2, Hbus; reflexivity).
    assert (HD : delivers (of_class sync_cls (live (ops ++ regs))) (MBus.calls inst sync_cls (b_run (ops ++ regs)))).
    { apply delivery_one; [reflexivity|]. intros k' c' p _ Hi. unfold inst in Hi. destruct (eqb_spec sync_cls k'); [auto|discriminate]. }
    rewrite <- Hb4 in HD. destruct HD as (L & EL & HP & _). rewrite EL in Hc. apply in_map_iff in Hc as (x & <- & Hx).
    apply (Permutation_in _ HP) in Hx. unfold of_class in Hx. apply filter_In in Hx as [Hx He].
    assert (Hcl : en_cls x = sync_cls) by (destruct (eqb_spec sync_cls (en_cls x)); [auto|discriminate]).
    assert (Hregs : forall ds j o, In o (task_regs (st_ns s3) j ds) -> exists j' d c p, o = Reg (cls_of j' d) c p).
    { induction ds as [|d ds IH]; intros j o; cbn [task_regs]; [intros []|]. intros [<-|Hin]; [eauto|exact (IH _ _ Hin)]. }
    unfold live in Hx. rewrite live_no_unreg in Hx.
    - cbn [app] in Hx. apply in_flat_map in Hx as (o & Ho & Hx). apply in_app_or in Ho as [Ho|Ho].
      + apply (proj1 (Forall_forall _ _) Hsy) in Ho as (c & p & -> & Hc). destruct Hx as [<-|[]]. exact Hc.
      + destruct (Hregs _ _ _ Ho) as (j' & d & c & p & ->). destruct Hx as [<-|[]]. cbn in Hcl. exfalso. exact (cls_of_sync _ _ Hcl).
    - intros o Ho. apply in_app_or in Ho as [Ho|Ho].
      + apply (proj1 (Forall_forall _ _) Hsy) in Ho as (c & p & -> & _). eauto.
      + destruct (Hregs _ _ _ Ho) as (j' & d & c & p & ->). eauto.
  Qed.
End Setup.

(** ** runs *)
Section Runs.
  Variables (fuel : nat) (cfg : escfg) (sc : scfg) (tz st : Z) (en : option Z) (now : nat -> Z) (calls : list ucall) (ns : dict str obj) (dates : list Z).
  Variables (s4 : strat) (s0 s : lstate scb sworld) (ls : list (label scb sout)) (ps : list (Z * Z)).
  Hypothesis Hstart : start fuel cfg sc tz st en now calls ns dates = Some (s4, s0).
  Hypothesis Hl : length dates = length (st_srcs s4).
  Hypothesis Hok : Forall ok_label ls.
  Hypothesis Hex : l_exec (sched_handler fuel (loop_cfg cfg sc s4) tz) s0 ls = Some s.
  Hypothesis Hb : cf_hist cfg = true \/ en <> None.
  Hypothesis Hmp : market_period sc s4 = raw_of ps.
  Hypothesis Hps : Forall (fun p => tod_ok (fst p) /\ tod_ok (snd p)) ps.
  Hypothesis Hwhole : Forall (fun p => fst p mod US = 0) ps.
  Hypothesis Hne : ps <> [].
  Hypothesis Hf1 : (1441 <= fuel)%nat.

  Notation np := (length (st_srcs s4) - length (asked calls))%nat.
  Notation lc := (loop_cfg cfg sc s4).

  Lemma start_parts : boot fuel lc tz (st_srcs s4) dates = Some s0 /\ setup fuel cfg sc st en now true calls None (strat_new ns) = (GOk tt, s4).
  Proof.
    pose proof Hstart as E. unfold start in E.
    destruct (setup fuel cfg sc st en now true calls None (strat_new ns)) as [[[]|x|] s5] eqn:Es; try discriminate.
    destruct (boot fuel (loop_cfg cfg sc s5) tz (st_srcs s5) dates) as [s0'|] eqn:Eb; [|discriminate].
    assert (E1 : s5 = s4 /\ s0' = s0).
    { clear - E. assert (G : forall A B (a a' : A) (b b' : B), Some (a, b) = Some (a', b') -> a = a' /\ b = b') by (intros ? ? ? ? ? ? H; injection H; auto). exact (G _ _ _ _ _ _ E). }
    destruct E1 as [-> ->]. split; [assumption|reflexivity].
  Qed.
  Lemma reached : sreach fuel lc tz (st_srcs s4) s.
  Proof. exists dates, s0, ls. destruct start_parts as [B _]. auto. Qed.

  Lemma srcs_shape : exists pre ts, st_srcs s4 = pre ++ ts /\ length pre = np /\ length ts = length (asked calls) /\ Forall sync_src pre /\
      forall k a es, nth_error (asked calls) k = Some a -> nth_error ts k = Some es -> task_src fuel cfg sc st en (now k) s4 k (desc_of a) es.
  Proof.
    destruct start_parts as [_ Hs]. destruct (setup_srcs fuel cfg sc st en now calls ns s4 Hs) as (pre & ts & H1 & H2 & H3 & H4).
    exists pre, ts. split; [exact H1|]. split; [rewrite H1, app_length, H2; lia|]. auto.
  Qed.

  Lemma no_events es : In es (st_srcs s4) -> es_events es = [].
  Proof.
    destruct srcs_shape as (pre & ts & H1 & _ & H2 & H3 & H4). rewrite H1. intros Hin. apply in_app_or in Hin as [Hin|Hin].
    - rewrite Forall_forall in H3. apply H3; exact Hin.
    - apply In_nth_error in Hin as (k & Hk). assert (Hlt : (k < length (asked calls))%nat) by (rewrite <- H2; apply nth_error_Some; congruence).
      apply nth_error_Some in Hlt. destruct (nth_error (asked calls) k) as [a|] eqn:Ea; [|congruence].
      destruct (H4 k a es Ea Hk) as (l & _ & _ & _ & E & _). exact E.
  Qed.

  Lemma emit_src k e : In (k, e) (w_emits (l_w s)) -> exists es, nth_error (st_srcs s4) k = Some es /\ exists expr, In (expr, snd e) (es_daily es).
  Proof.
    intros Hin. destruct start_parts as [B _].
    destruct (one_from fuel lc tz (st_srcs s4) dates s0 ltac:(lia) Hl B ls s Hok Hex) with (k := k) (e := e) as (es & Hes & expr & off & d & Hd & _); [|exact Hin|].
    { intros es He. unfold evs_from. rewrite (no_events es He). constructor. }
    exists es. split; [exact Hes|]. exists expr. exact Hd.
  Qed.

  Lemma emit_cls k e : In (k, e) (w_emits (l_w s)) ->
    (k < np /\ snd e = sync_cls)%nat \/
    (exists j a, k = (np + j)%nat /\ nth_error (asked calls) j = Some a /\ snd e = cls_of j (desc_of a)).
  Proof.
    intros Hin. destruct (emit_src k e Hin) as (es & Hes & expr & Hd).
    destruct srcs_shape as (pre & ts & H1 & H0 & H2 & H3 & H4). rewrite H1 in Hes.
    destruct (Nat.lt_ge_cases k np) as [Hk|Hk].
    - left. split; [exact Hk|]. rewrite nth_error_app1 in Hes by lia. apply nth_error_In in Hes. rewrite Forall_forall in H3. destruct (H3 es Hes) as [_ HF].
      rewrite Forall_forall in HF. apply (HF _ Hd).
    - right. rewrite nth_error_app2 in Hes by lia. rewrite H0 in Hes. exists (k - np)%nat.
      assert (Hlt : (k - np < length (asked calls))%nat) by (rewrite <- H2; apply nth_error_Some; congruence).
      apply nth_error_Some in Hlt. destruct (nth_error (asked calls) (k - np)) as [a|] eqn:Ea; [|congruence]. exists a.
      split; [lia|]. split; [reflexivity|]. destruct (H4 _ a es Ea Hes) as (l & _ & _ & _ & _ & E & _). rewrite E in Hd.
      apply in_map_iff in Hd as (y & Ey & _). injection Ey as _ <-. reflexivity.
  Qed.

  Lemma calls_emitted k n id t : nth_error (asked calls) k = Some (n, id, t) ->
    calls_of k (invoked s4 (l_w s)) = map (fun e => (fst e, dget n (st_ns s4))) (emitted (np + k) (l_w s)).
  Proof.
    intros Hk. destruct start_parts as [_ Hs].
    assert (Hd : st_sched s4 = map desc_of (asked calls)).
    { pose proof (setup_sched fuel cfg sc st en now calls None ns) as H. rewrite Hs in H. exact H. }
    unfold invoked, emitted. apply calls_emits. intros k' e Hin. destruct (emit_cls k' e Hin) as [[Hlt Hc]|(j & a & -> & Ha & Hc)]; rewrite Hc.
    - destruct (Nat.eqb_spec k' (np + k)); [lia|]. pose proof (sync_calls fuel cfg sc st en now calls ns s4 Hs) as Hsy.
      induction (MBus.calls inst sync_cls (st_bus s4)) as [|c cs IH]; [reflexivity|]. cbn [map].
      change ((fst e, c) :: ?l) with ([(fst e, c)] ++ l). rewrite calls_of_app, IH by (intros c' Hc'; apply Hsy; right; exact Hc'). destruct (Hsy c (or_introl eq_refl)) as [(i & ->)|(i & ->)]; reflexivity.
    - assert (Hj : nth_error (st_sched s4) j = Some (desc_of a)) by (rewrite Hd, nth_error_map, Ha; reflexivity).
      rewrite (entry_calls fuel cfg sc st en now calls ns s4 Hs j _ Hj). unfold calls_of. cbn [map flat_map snd fst app].
      destruct (Nat.eqb_spec (np + j) (np + k)), (Nat.eqb_spec j k); try lia; [|reflexivity]. subst j.
      rewrite Hk in Ha. injection Ha as <-. reflexivity.
  Qed.

  (** the source of the k-th entry *)
  Lemma entry_src k n id t offs : nth_error (asked calls) k = Some (n, id, t) -> owes ps t offs ->
    exists es, nth_error (st_srcs s4) (np + k) = Some es /\ es_start es = Some (begins cfg st (now k)) /\ es_end es = en /\
      tasks_of (cf_mp lc) (es_daily es) (map (fun o => (o, cls_of k (desc_of (n, id, t)))) offs) /\ (es_need es = true \/ es_daily es = [] /\ offs = []).
  Proof.
    intros Hk Ho. destruct srcs_shape as (pre & ts & H1 & H0 & H2 & H3 & H4).
    destruct (nth_error ts k) as [es|] eqn:E; [|exfalso; apply nth_error_None in E; assert ((k < length (asked calls))%nat) by (apply nth_error_Some; congruence); lia].
    exists es. split; [replace (np + k)%nat with (length pre + k)%nat by lia; rewrite H1, nth_error_app2 by lia; replace (length pre + k - length pre)%nat with k by lia; exact E|].
    destruct (H4 k _ es Hk E) as (l & El & S1 & S2 & S3 & S4 & S5). split; [exact S1|]. split; [exact S2|].
    destruct (entry_meaning ps t offs fuel (dt_date (now k)) Hne Hps Hwhole Hf1 Ho) as (l' & El' & He).
    unfold entries_of, desc_of in El. cbn [d_time fst snd] in El. rewrite Hmp in El.
    assert (l' = l) as ->.
    { revert El El'. destruct (str_eqb (time_dict t) (lit "every_minute")); intros E1 E2; rewrite E1 in E2; injection E2 as <-; reflexivity. }
    split.
    - assert (Emp : cf_mp lc = ps) by (unfold loop_cfg; cbn [cf_mp]; rewrite Hmp; apply periods_of_raw).
      rewrite S4, Emp. unfold tasks_of, entries_for in *. clear - He. induction He as [|e o l offs H He IH]; cbn [map]; constructor; [cbn; auto|exact IH].
    - destruct S5 as [S5| ->]; [left; exact S5|right]. split; [rewrite S4; reflexivity|]. inversion He. reflexivity.
  Qed.

  Lemma hist_emitted k n id t offs hi S : nth_error (asked calls) k = Some (n, id, t) -> owes ps t offs ->
    hi = (match en with Some e => dt_date e | None => dt_date (begins cfg st (now k)) + cf_count cfg - 1 end) ->
    (Z.to_nat (hi - dt_date (begins cfg st (now k)) + 1) < fuel)%nat ->
    owed_on (begins cfg st (now k)) offs (dt_date (begins cfg st (now k))) hi S ->
    (exists r, filter (until en) S = map fst (emitted (np + k) (l_w s)) ++ r) /\
    (forall es, nth_error (w_srcs (l_w s)) (np + k) = Some es -> exhausted lc es -> map fst (emitted (np + k) (l_w s)) = filter (until en) S).
  Proof.
    intros Hk Ho Ehi Hf HS. set (a := begins cfg st (now k)) in *. set (c := cls_of k (desc_of (n, id, t))).
    destruct (entry_src k n id t offs Hk Ho) as (es0 & E0 & S1 & S2 & S3 & S4). fold a in S1. fold c in S3.
    assert (HS' : owed_on a offs (dt_date a) (dt_date a + (hi - dt_date a + 1) - 1) S) by (replace (dt_date a + (hi - dt_date a + 1) - 1) with hi by lia; exact HS).
    rewrite (owed_until a en offs c (dt_date a) _ S HS').
    assert (Ed : day_range (dt_date a) (hi - dt_date a + 1) = days_of lc 0 a en).
    { unfold days_of. subst hi. destruct en; [reflexivity|]. destruct Hb as [H|H]; [|congruence].
      change (cf_hist lc) with (cf_hist cfg). rewrite H. change (cf_count lc) with (cf_count cfg). f_equal. lia. }
    destruct (emitted_prefix fuel lc tz (st_srcs s4) ltac:(lia) s (np + k) es0 reached E0) as (es & Hes & Hrel).
    destruct S4 as [S4|[S4 ->]].
    - rewrite Ed. assert (Hb' : cf_hist lc = true \/ en <> None) by exact Hb.
      assert (Hfd : (length (days_of lc 0 a en) < fuel)%nat) by (rewrite <- Ed, day_range_length; exact Hf).
      destruct (src_rel fuel lc a en _ es0 S1 S2 S4 S3 Hb' Hfd _ _ Hrel) as (Hle & Em & _). split.
      + exists (map fst (skipn (length (emitted (np + k) (l_w s))) (flat_map (day_evs a en (map (fun o => (o, c)) offs)) (days_of lc 0 a en)))).
        rewrite <- map_app. f_equal. rewrite Em at 1. symmetry. apply firstn_skipn.
      + intros es' Hes' Hd. rewrite Hes in Hes'. injection Hes' as <-. f_equal. exact (src_dry fuel lc a en _ es0 S1 S2 S4 S3 Hb' Hfd _ _ Hrel Hd).
    - assert (Z : emitted (np + k) (l_w s) = []).
      { unfold emitted. destruct (filter (fun e => Nat.eqb (fst e) (np + k)) (w_emits (l_w s))) as [|[k' e] l] eqn:E; [reflexivity|].
        assert (Hin : In (k', e) (filter (fun e => Nat.eqb (fst e) (np + k)) (w_emits (l_w s)))) by (rewrite E; left; reflexivity).
        apply filter_In in Hin as [Hin He]. apply Nat.eqb_eq in He. cbn in He. subst k'. destruct (emit_src _ _ Hin) as (es1 & H1 & x & Hx).
        rewrite E0 in H1. injection H1 as <-. rewrite S4 in Hx. destruct Hx. }
      rewrite Z. cbn [map]. assert (N : forall l, map fst (flat_map (day_evs a en []) l) = []).
      { clear. induction l as [|d l IH]; [reflexivity|]. cbn [flat_map]. rewrite map_app, IH, app_nil_r. reflexivity. }
      rewrite N. split; [exists []; reflexivity|reflexivity].
  Qed.
End Runs.
