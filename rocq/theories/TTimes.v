(** C75: which times a task can be started with. *)
From Coq Require Import Permutation Sorted.
From Verif Require Import PyBase PyStr MTime MTimeExpr MEventSource MQueue MLoop MSched MBus MStrategy MProcess
  SEvent SExpr SStrategy SProcess STimes LStr LEventSource LEventSource2 LTimeExpr LStrategy LSched LSched2 LSched3 LLive LProcess.
Open Scope list_scope.
Open Scope Z_scope.

Lemma split_join (s : str) : forall l, split_on 58%N s = l -> Forall (fun x => has_char 58%N x = false) l /\
  match l with [] => False | x :: r => s = x ++ concat (map (fun y => 58%N :: y) r) end.
Proof.
  induction s as [|a s IH]; intros l E; cbn [split_on] in E.
  - subst l. split; [constructor; [reflexivity|constructor]|reflexivity].
  - destruct (IH _ eq_refl) as [H1 H2]. destruct (split_on 58%N s) as [|w ws]; [destruct H2|].
    destruct (N.eqb_spec a 58) as [->|Na]; subst l.
    + split; [constructor; [reflexivity|exact H1]|]. cbn [map concat app]. rewrite H2. reflexivity.
    + inversion H1 as [|? ? Hw Hws]; subst. split; [constructor; [|exact Hws]|cbn; reflexivity].
      unfold has_char in *. cbn [existsb]. destruct (N.eqb_spec 58 a); [congruence|]. exact Hw.
Qed.

Lemma mk_time_inv h m s v : mk_time h m s = Ok v -> 0 <= h < 24 /\ 0 <= m < 60 /\ 0 <= s < 60.
Proof.
  unfold mk_time. destruct ((0 <=? h) && (h <? 24) && (0 <=? m) && (m <? 60) && (0 <=? s) && (s <? 60)) eqn:E; [|discriminate].
  intros _. rewrite !andb_true_iff in E. lia.
Qed.

Lemma clock_passes t v : clock_time t = Ok v -> clock_loose t.
Proof.
  unfold clock_time. destruct (split_join t _ eq_refl) as [HF Ht].
  destruct (split_on 58%N t) as [|h [|m rest]]; try discriminate. inversion HF as [|? ? Hh HF1]; subst. inversion HF1 as [|? ? Hm HF2]; subst.
  destruct (py_int h) as [a|] eqn:Ea; [|discriminate]. destruct (py_int m) as [b|] eqn:Eb; [|discriminate].
  destruct rest as [|s r]; cbn [map concat]; intros H.
  - apply mk_time_inv in H. rewrite app_nil_r. apply (loose_hm h m a b); try assumption; lia.
  - inversion HF2; subst. destruct (py_int s) as [c|] eqn:Ec; [|discriminate]. apply mk_time_inv in H.
    change (58%N :: m) with (lit ":" ++ m). change (58%N :: s) with (lit ":" ++ s). rewrite <- !app_assoc.
    apply (loose_hms h m s _ a b c); try assumption; try lia.
    destruct r as [|x r]; [left; reflexivity|right]. eexists. reflexivity.
Qed.

Lemma offset_passes ps t v : expr_offset ps t = Ok v -> passable ps t.
Proof.
  unfold expr_offset. destruct (has_char 58%N t).
  - intros H. apply pass_clock. eapply clock_passes; exact H.
  - intros H. destruct (expr_complete _ _ _ H) as (s0 & v0 & H1 & H2 & _). eapply pass_rel; eassumption.
Qed.

Lemma dict_passes ps t : passable ps (time_dict t) -> passable ps t.
Proof.
  unfold time_dict. destruct (str_eqb_spec t (lit "open")) as [->|]; [intros _; apply pass_word; cbn; auto|].
  destruct (str_eqb_spec t (lit "close")) as [->|]; [intros _; apply pass_word; cbn; auto|].
  destruct (str_eqb_spec t (lit "before_open")) as [->|]; [intros _; apply pass_word; cbn; auto|].
  destruct (str_eqb_spec t (lit "after_close")) as [->|]; [intros _; apply pass_word; cbn; tauto|]. auto.
Qed.

(** a source that produced an event, or went looking for one, understood all its entries *)
Lemma peek_checked fuel cfg today st es r es2 : peek_next_event fuel cfg today es = GOk (r, es2) ->
  cf_hist cfg = false -> 0 < cf_count cfg -> es_end es = None -> es_start es = Some st -> es_need es = true ->
  forall e, In e (es_daily es) -> exists v, expr_offset (cf_mp cfg) (fst e) = Ok v.
Proof.
  intros Hp Hh Hc Hen Hst Hn. destruct (tasks_or_err (cf_mp cfg) (es_daily es)) as [[tasks Ht]|Hbad].
  - intros e He. unfold tasks_of in Ht. clear - Ht He. induction Ht as [|d t ds ts [H1 _] Ht IH]; [destruct He|].
    destruct He as [->|He]; [eauto|exact (IH He)].
  - exfalso. unfold peek_next_event, gen_events in Hp. rewrite (reset_fresh cfg today st es Hst Hn) in Hp. cbn [es_events es_set_gen] in Hp.
    assert (G : forall es0, es_start es0 = Some st -> es_daily es0 = es_daily es -> es_events es0 = [] -> es_days es0 <> [] ->
      match gen_loop fuel cfg today es0 with GOk _ => False | _ => True end).
    { intros es0 H1 H2 H3 H4. destruct fuel as [|f]; [exact I|]. cbn [gen_loop]. rewrite H3. destruct (es_days es0) as [|d ds]; [congruence|].
      destruct (add_daily_err cfg es0 d st (es_daily es0) H1) with (evs := @nil (Z * ecls)) as [x ->]; [rewrite H2; exact Hbad|exact I]. }
    match type of Hp with context [gen_loop fuel cfg today ?e] => specialize (G e) end.
    destruct (gen_loop fuel cfg today _) as [a|x|]; [|discriminate|discriminate]. apply G; [exact Hst|reflexivity|reflexivity|].
    cbn [es_days es_set_gen]. rewrite Hen. cbn [days_of]. rewrite Hh. intros E. apply (f_equal (@length Z)) in E. rewrite day_range_length in E. cbn in E. lia.
Qed.

(** A task that started was given passable times only (live mode).  Full statement: only
    proper ones; C75_refuted shows improper times that start. *)
Theorem C75_started_partial :
  forall fuel cfg sc tz st now calls ns dates s4 s0 ps,
    start fuel cfg sc tz st None now calls ns dates = Some (s4, s0) -> length dates = length (st_srcs s4) ->
    cf_hist cfg = false -> 0 < cf_count cfg -> (0 < fuel)%nat -> market_period sc s4 = raw_of ps ->
    forall n id t, In (n, id, t) (asked calls) -> passable ps t.
Proof.
  intros fuel cfg sc tz st now calls ns dates s4 s0 ps Hs Hl Hh Hc Hf Hmp n id t Hin.
  unfold start in Hs. destruct (setup fuel cfg sc st None now true calls None (strat_new ns)) as [[[]|x|] s5] eqn:Es; try discriminate.
  destruct (boot fuel (loop_cfg cfg sc s5) tz (st_srcs s5) dates) as [s0'|] eqn:Eb; [|discriminate].
  assert (E1 : s5 = s4 /\ s0' = s0).
  { clear - Hs. assert (G : forall A B (a a' : A) (b b' : B), Some (a, b) = Some (a', b') -> a = a' /\ b = b') by (intros ? ? ? ? ? ? H; injection H; auto). exact (G _ _ _ _ _ _ Hs). }
  destruct E1 as [-> ->]. clear Hs.
  destruct (setup_srcs fuel cfg sc st Hh now calls ns s4 Es) as (pre & ts & H1 & H2 & H3 & H4).
  apply In_nth_error in Hin as (k & Hk).
  assert (Hlt : (k < length ts)%nat) by (rewrite H2; apply nth_error_Some; congruence).
  destruct (nth_error ts k) as [es|] eqn:Ets; [|apply nth_error_None in Ets; lia].
  assert (Hsrc : nth_error (st_srcs s4) (length pre + k) = Some es) by (rewrite H1, nth_error_app2 by lia; replace (length pre + k - length pre)%nat with k by lia; exact Ets).
  destruct (nth_error dates (length pre + k)) as [d|] eqn:Ed.
  2:{ apply nth_error_None in Ed. rewrite Hl, H1, app_length in Ed. lia. }
  destruct (schedule_all_srcs fuel (loop_cfg cfg sc s4) tz Hf dates _ _ _ Eb) as [_ HB]. destruct (HB _ _ Ed) as (es' & r & es2 & E1 & E2 & _).
  cbn [plus l_init l_w w_srcs] in E1. rewrite Hsrc in E1. assert (es' = es) as -> by congruence.
  destruct (H4 k _ es Hk Ets) as (l & L1 & L2 & L3 & L4 & L5 & L6).
  unfold entries_of, desc_of in L1. cbn [d_time fst snd] in L1.
  destruct (str_eqb_spec (time_dict t) (lit "every_minute")) as [Ee|Ne].
  - apply dict_passes. rewrite Ee. apply pass_word. left. reflexivity.
  - assert (l = [time_dict t]) as -> by congruence. destruct L6 as [L6|L6]; [|discriminate].
    destruct (peek_checked _ _ _ _ _ _ _ E2 Hh Hc L3 L2 L6 (time_dict t, cls_of k (desc_of (n, id, t)))) as (v & Hv); [rewrite L5; left; reflexivity|].
    cbn [fst loop_cfg cf_mp] in Hv. rewrite Hmp, periods_of_raw in Hv. apply dict_passes. eapply offset_passes; exact Hv.
Qed.
Print Assumptions C75_started_partial.

(** ** proper times start *)
Lemma boot_peeks fuel cfg tz srcs dates : (0 < fuel)%nat -> length dates = length srcs ->
  (forall j es d, nth_error srcs j = Some es -> nth_error dates j = Some d -> exists r es2, peek_next_event fuel cfg d es = GOk (r, es2)) ->
  exists s, boot fuel cfg tz srcs dates = Some s.
Proof.
  intros Hf Hl Hp. unfold boot.
  assert (H : forall ds j s, BI fuel cfg tz srcs j s -> (j + length ds <= length srcs)%nat ->
    (forall i d, nth_error ds i = Some d -> nth_error dates (j + i) = Some d) -> exists s', schedule_all fuel cfg tz j ds s = Some s').
  { induction ds as [|d ds IH]; intros j s B Hle Hd; cbn [schedule_all]; [eexists; reflexivity|]. cbn [length] in Hle.
    assert (E : exists s1, schedule fuel cfg tz j d s = Some s1).
    { pose proof B as [B1 B2 B3 B4 B5 B6 B7 B8]. destruct (B8 j (le_n j)) as [_ Hj0].
      destruct (nth_error srcs j) as [es|] eqn:E0; [|apply nth_error_None in E0; lia].
      destruct (Hp j es d E0) as (r & es2 & Ep); [specialize (Hd 0%nat d eq_refl); rewrite Nat.add_0_r in Hd; exact Hd|].
      unfold schedule. cbn [w_srcs]. rewrite Hj0. unfold push_next. rewrite Ep.
      destruct r as [[dt c]|]; cbn [set_src w_hung]; rewrite B6; eexists; reflexivity. }
    destruct E as [s1 E]. rewrite E. apply IH; [eapply BI_schedule; eassumption|lia|].
    intros i d' Hi. replace (S j + i)%nat with (j + S i)%nat by lia. apply Hd. exact Hi. }
  apply (H dates 0%nat _ (BI_init fuel cfg tz srcs Hf)); [lia|]. intros i d Hi. exact Hi.
Qed.

Lemma peek_live fuel cfg today st es tasks : times_ok (cf_mp cfg) -> cf_hist cfg = false -> es_end es = None -> 8 <= cf_count cfg ->
  es_start es = Some st -> st < (today + 1) * DAY -> es_need es = true -> (Z.to_nat (cf_count cfg) < fuel)%nat ->
  tasks_of (cf_mp cfg) (es_daily es) tasks -> es_daily es <> [] ->
  exists r es2, peek_next_event fuel cfg today es = GOk (r, es2).
Proof.
  intros Hmp Hh Hen Hc Hst Hlt Hn Hf Ht Hd. unfold peek_next_event, gen_events. rewrite (reset_fresh cfg today st es Hst Hn). cbn [es_events es_set_gen].
  set (es1 := es_set_gen [] (days_of cfg today st (es_end es)) false true es).
  destruct (gen_loop_days cfg today st tasks (day_range today (cf_count cfg)) fuel es1) as (es2 & -> & _); [exact Hst|exact Ht|reflexivity| | | |eauto].
  - cbn [es1 es_days es_set_gen]. rewrite Hen. cbn [days_of]. rewrite Hh. reflexivity.
  - cbn [es1 es_end es_set_gen]. rewrite Hen. eapply window_nonempty; eassumption.
  - rewrite day_range_length. exact Hf.
Qed.

Definition no_account (c : ucall) : Prop := match c with UOpt k _ => so_use k = Some false | _ => True end.

Lemma uexec_no_account fuel sc st cs : Forall no_account cs -> forall s, st_srcs s = [] -> st_srcs (uexec fuel sc st None cs s) = [].
Proof.
  induction 1 as [|c cs Hc Hcs IH]; intros s Hs; [exact Hs|]. cbn [uexec]. apply IH. destruct c as [f t|k e|n o]; cbn [ustep].
  - unfold run_daily. destruct (f_name f); [|exact Hs]. destruct (negb (st_allowed s)); [exact Hs|]. destruct (negb (f_callable f)); exact Hs.
  - cbn [no_account] in Hc. unfold set_options. destruct (negb (st_allowed s)); [exact Hs|].
    destruct (parse_opts k) as [o|x] eqn:Ep; [|exact Hs]. destruct (e_dir e); [|exact Hs].
    assert (so_use o = Some false) as ->; [|exact Hs].
    revert Ep. unfold parse_opts. destruct (parse_opt (so_mp k)); [|discriminate]. cbn [rbind].
    destruct (match so_interval k with Some (Err e0) => _ | _ => _ end); [|discriminate]. cbn [rbind].
    destruct (parse_opt (so_period k)); [|discriminate]. cbn [rbind]. intros E. apply Ok_inj in E. subst o. exact Hc.
  - exact Hs.
Qed.

Lemma schedule_descs_go fuel cfg sc st now ps : cf_hist cfg = false ->
  forall ds s, market_period sc s = raw_of ps ->
  (forall d today, In d ds -> exists l, (if str_eqb (d_time d) (lit "every_minute") then periods_entries fuel MINUTE today (raw_of ps) else GOk [d_time d]) = GOk l) ->
  exists s', schedule_descs fuel cfg sc st None now ds s = GOk s'.
Proof.
  intros Hh. induction ds as [|d ds IH]; intros s Hmp Hd; [eexists; reflexivity|]. cbn [schedule_descs].
  assert (E : exists s1, schedule_one fuel cfg sc st None (now (st_count s)) d s = GOk s1).
  { unfold schedule_one. destruct (es_setup_live cfg (now (st_count s)) st Hh) as (es0 & -> & _).
    unfold market_period in Hmp. rewrite Hmp. destruct (Hd d (dt_date (now (st_count s))) (or_introl eq_refl)) as (l & ->). eexists; reflexivity. }
  destruct E as [s1 E]. rewrite E. apply IH; [|intros d' today Hin; apply Hd; right; exact Hin].
  destruct (schedule_one_frame _ _ _ _ _ _ _ _ _ E) as (_ & _ & _ & F & _). unfold market_period in *. rewrite F. exact Hmp.
Qed.

(** A process_initialize that does not enable the account and asks for proper times starts
    (live mode; at least eight days generated at a time; every_minute with at least one
    minute in the periods).  With the account enabled: C75_account_starts_partial in
    TTimes2.v; a sync timer without instants keeps start-up from ending (C11). *)
Theorem C75_proper_starts_partial :
  forall fuel cfg sc tz st now calls ns dates ps,
    cf_hist cfg = false -> 8 <= cf_count cfg -> (1441 <= fuel)%nat -> (Z.to_nat (cf_count cfg) < fuel)%nat ->
    Forall no_account calls ->
    market_period sc (snd (setup fuel cfg sc st None now true calls None (strat_new ns))) = raw_of ps ->
    ps <> [] -> Forall (fun p => tod_ok (fst p) /\ tod_ok (snd p)) ps -> Forall (fun p => fst p mod US = 0) ps ->
    Forall (fun a => exists offs, owes ps (snd a) offs /\ offs <> []) (asked calls) ->
    length dates = length (asked calls) -> (forall k d, nth_error dates k = Some d -> now k < (d + 1) * DAY) ->
    exists s4 s0, start fuel cfg sc tz st None now calls ns dates = Some (s4, s0) /\ length dates = length (st_srcs s4).
Proof.
  intros fuel cfg sc tz st now calls ns dates ps Hh Hc Hf1 Hf2 Hna Hmp Hne Hps Hw Hok Hl Hnow.
  assert (Hent : forall a today, In a (asked calls) -> exists l offs, (if str_eqb (d_time (desc_of a)) (lit "every_minute")
     then periods_entries fuel MINUTE today (raw_of ps) else GOk [d_time (desc_of a)]) = GOk l /\ entries_for ps l offs /\ offs <> []).
  { intros a today Ha. rewrite Forall_forall in Hok. destruct (Hok a Ha) as (offs & Ho & Hne').
    destruct (entry_meaning ps (snd a) offs fuel today Hne Hps Hw Hf1 Ho) as (l & H1 & H2). exists l, offs. split; [exact H1|auto]. }
  assert (Hset : exists s4, setup fuel cfg sc st None now true calls None (strat_new ns) = (GOk tt, s4)).
  { pose proof (setup_sched fuel cfg sc st None now calls None ns) as Hsc. revert Hmp Hsc. unfold setup, schedule_all_tasks.
    set (s3 := set_allowed false _). intros Hmp Hsc.
    destruct (schedule_descs_go fuel cfg sc st now ps Hh (st_sched s3) s3) as (s4 & E).
    - destruct (schedule_descs fuel cfg sc st None now (st_sched s3) s3) as [s5|x|] eqn:E5; cbn [snd] in Hmp; [|exact Hmp|exact Hmp].
      destruct (schedule_descs_frame _ _ _ _ _ _ _ _ _ E5) as (_ & _ & F & _). unfold market_period in *. rewrite <- F. exact Hmp.
    - intros d today Hd. assert (Es : st_sched s3 = map desc_of (asked calls)).
      { destruct (uexec_sched fuel sc st None calls (set_allowed true (make_apis sc (strat_new ns))) eq_refl) as [_ H]. exact H. }
      rewrite Es in Hd. apply in_map_iff in Hd as (a & <- & Ha). destruct (Hent a today Ha) as (l & offs & H & _). eauto.
    - rewrite E. eauto. }
  destruct Hset as (s4 & Es). rewrite Es in Hmp. cbn [snd] in Hmp. unfold start. rewrite Es.
  destruct (setup_srcs fuel cfg sc st Hh now calls ns s4 Es) as (pre & ts & H1 & H2 & H3 & H4).
  assert (Hpre : pre = []).
  { revert Es. unfold setup, schedule_all_tasks. set (s3 := set_allowed false _).
    destruct (schedule_descs fuel cfg sc st None now (st_sched s3) s3) as [s5|x|] eqn:E5; try discriminate.
    intros Es. assert (Ep : forall a b : gres unit * strat, a = b -> snd a = snd b) by (intros a b ->; reflexivity). apply Ep in Es. cbn [snd] in Es. subst s5. clear Ep.
    destruct (schedule_descs_tasks fuel cfg sc st Hh now (st_sched s3) s3 s4 E5) as (ts' & T1 & T2 & _).
    assert (S0 : st_srcs s3 = []) by (apply (uexec_no_account fuel sc st calls Hna); reflexivity). rewrite S0 in T1. cbn [app] in T1.
    assert (Es3 : st_sched s3 = map desc_of (asked calls)).
    { destruct (uexec_sched fuel sc st None calls (set_allowed true (make_apis sc (strat_new ns))) eq_refl) as [_ H]. exact H. }
    rewrite Es3, map_length in T2. apply (f_equal (@length esrc)) in H1. rewrite app_length, T1, T2, H2 in H1. destruct pre; [reflexivity|cbn in H1; lia]. }
  subst pre. cbn [app] in H1.
  assert (Hlen : length dates = length (st_srcs s4)) by (rewrite H1, H2; exact Hl).
  destruct (boot_peeks fuel (loop_cfg cfg sc s4) tz (st_srcs s4) dates) as (s0 & Eb); [lia|exact Hlen| |rewrite Eb; eauto].
  intros j es d Hj Hd. rewrite H1 in Hj.
  destruct (nth_error (asked calls) j) as [a|] eqn:Ea.
  2:{ apply nth_error_None in Ea. assert (nth_error dates j <> None) as Hx by congruence. apply nth_error_Some in Hx. lia. }
  destruct (H4 j a es Ea Hj) as (l & L1 & L2 & L3 & L4 & L5 & L6).
  destruct (Hent a (dt_date (now j)) (nth_error_In _ _ Ea)) as (l' & offs & L7 & L8 & L9).
  unfold entries_of in L1. rewrite Hmp in L1. rewrite L1 in L7. assert (l' = l) as -> by congruence.
  assert (Hl0 : l <> []) by (intros ->; inversion L8; subst; congruence).
  destruct L6 as [L6|L6]; [|congruence].
  apply (peek_live fuel (loop_cfg cfg sc s4) d (now j) es (map (fun o => (o, cls_of j (desc_of a))) offs)).
  - cbn [loop_cfg cf_mp]. rewrite Hmp, periods_of_raw. exact Hps.
  - exact Hh.
  - exact L3.
  - exact Hc.
  - exact L2.
  - apply Hnow. exact Hd.
  - exact L6.
  - exact Hf2.
  - cbn [loop_cfg cf_mp]. rewrite Hmp, periods_of_raw, L5. unfold tasks_of, entries_for in *. clear - L8.
    induction L8 as [|e o l offs H He IH]; cbn [map]; constructor; [cbn; auto|exact IH].
  - rewrite L5. destruct l; [congruence|discriminate].
Qed.
Print Assumptions C75_proper_starts_partial.

(** ** what is let through, and when a bad time is noticed *)
Lemma clock_parts t v : clock_text t v -> (length (split_on 58%N t) <= 3)%nat.
Proof.
  intros [h m Hh Hm H1 H2|h m s Hh Hm Hs H1 H2 H3].
  - destruct (num2_int h Hh) as (_ & _ & N1). destruct (num2_int m Hm) as (_ & _ & N2).
    change (lit ":" ++ m) with (58%N :: m). rewrite (split_on_app _ _ _ N1), (split_on_none _ _ N2). cbn. lia.
  - destruct (num2_int h Hh) as (_ & _ & N1). destruct (num2_int m Hm) as (_ & _ & N2). destruct (num2_int s Hs) as (_ & _ & N3).
    change (lit ":" ++ m ++ lit ":" ++ s) with (58%N :: m ++ 58%N :: s).
    rewrite (split_on_app _ _ _ N1), (split_on_app _ _ _ N2), (split_on_none _ _ N3). cbn. lia.
Qed.

Lemma four_parts_improper ps t : (3 < length (split_on 58%N t))%nat -> ~ proper ps t.
Proof.
  intros Hl Hp. destruct Hp as [t Hin|t v Hd|t v Hd].
  - cbn [In] in Hin. repeat (destruct Hin as [<-|Hin]; [vm_compute in Hl; lia|]). exact Hin.
  - rewrite (split_on_none 58%N t (denotes_no_colon _ _ _ _ Hd)) in Hl. cbn in Hl. lia.
  - apply clock_parts in Hd. lia.
Qed.

Definition t_cfg : escfg := ESCfg false 8 [].
Definition t_ps : list (Z * Z) := [(34200 * US, 41400 * US); (46800 * US, 54000 * US)].
Definition t_now : Z := 700000 * DAY + 32400 * US.
Definition t_fn (n : str) : fnobj := Fn 1 (Some n) true.

Definition only_proper_starts : Prop :=
  forall fuel cfg sc tz st now calls ns dates s4 s0 ps,
    start fuel cfg sc tz st None now calls ns dates = Some (s4, s0) -> length dates = length (st_srcs s4) ->
    cf_hist cfg = false -> 0 < cf_count cfg -> (0 < fuel)%nat -> market_period sc s4 = raw_of ps ->
    forall n id t, In (n, id, t) (asked calls) -> proper ps t.

Definition t_start (calls : list ucall) : option (strat * lstate scb sworld) :=
  start 20 t_cfg scfg_default 0 t_now None (fun _ => t_now) calls [(lit "f", OUser 1)] [700000].
Definition t_odd : list ucall := [URun (t_fn (lit "f")) (lit "9:30:00:xyz")].

Lemma t_odd_starts : option_map (fun x => (length (st_srcs (fst x)), so_mp (st_opts (fst x)), map (fun m => m_time (snd m)) (l_q (snd x)))) (t_start t_odd)
  = Some (1%nat, None, [dt_to_milliseconds 0 (700000 * DAY + 34200 * US)]).
Proof. vm_compute. reflexivity. Qed.

Theorem C75_refuted : ~ only_proper_starts.
Proof.
  intros H. pose proof t_odd_starts as E. destruct (t_start t_odd) as [[s4 s0]|] eqn:Es; [|discriminate E]. cbn [option_map fst snd] in E.
  assert (G : forall A B C (a a' : A) (b b' : B) (c c' : C), Some (a, b, c) = Some (a', b', c') -> a = a' /\ b = b') by (intros ? ? ? ? ? ? ? ? ? X; injection X; auto).
  apply G in E as [E1 E2].
  apply (four_parts_improper t_ps (lit "9:30:00:xyz")); [vm_compute; lia|].
  eapply (H 20%nat t_cfg scfg_default 0 t_now (fun _ => t_now) t_odd [(lit "f", OUser 1)] [700000] s4 s0 t_ps Es).
  - rewrite E1. reflexivity.
  - reflexivity.
  - reflexivity.
  - lia.
  - unfold market_period. rewrite E2. reflexivity.
  - left. reflexivity.
Qed.
Print Assumptions C75_refuted.

(** Full statement: run_daily refuses a time the task cannot be scheduled at. *)
Definition run_daily_checks : Prop :=
  forall f t s ps, fst (run_daily f t s) = Ok tt -> passable ps t.

(** a process_initialize that enables the account and gives run_daily the time "25:00" *)
Definition t_env : senv := SEnv (Ok tt) (Ok tt) (Ok tt) t_now.
Definition t_bad : list ucall := [UOpt (SOpts None (Some true) true (Some false) (Some false) None None) t_env; URun (t_fn (lit "f")) (lit "25:00")].

Lemma bad_not_passable ps : ~ passable ps (lit "25:00").
Proof.
  intros H. inversion H as [t Hin E|s v t Hd Ht E|t Hc E]; subst.
  - cbn in Hin. repeat (destruct Hin as [Hin|Hin]; [discriminate Hin|]). exact Hin.
  - assert (Hc : has_char 58%N s = false).
    { destruct Hd as [b w Hb|b w gs Hb Hg|b w gs Hb Hg]; [destruct Hb; reflexivity| |];
        rewrite !has_char_app, offset_no_colon by apply Hg; destruct Hb; reflexivity. }
    destruct Ht as [Ht|Ht].
    + rewrite <- Ht in Hc. discriminate Hc.
    + apply (f_equal (has_char 58%N)) in Ht. rewrite has_char_app, Hc in Ht. discriminate Ht.
  - inversion Hc as [h m a b N1 N2 P1 P2 B1 B2 E|h m s r a b c N1 N2 N3 P1 P2 P3 B1 B2 B3 Hr E].
    + apply (f_equal (split_on 58%N)) in E. change (lit ":" ++ m) with (58%N :: m) in E. rewrite (split_on_app _ _ _ N1), (split_on_none _ _ N2) in E.
      assert (Eh : h = lit "25") by (change (split_on 58%N (lit "25:00")) with [lit "25"; lit "00"] in E; congruence).
      subst h. change (py_int (lit "25")) with (Some 25) in P1. assert (a = 25) by congruence. lia.
    + apply (f_equal (split_on 58%N)) in E. change (lit ":" ++ m ++ lit ":" ++ s ++ r) with (58%N :: m ++ 58%N :: s ++ r) in E.
      rewrite (split_on_app _ _ _ N1), (split_on_app _ _ _ N2) in E.
      change (split_on 58%N (lit "25:00")) with [lit "25"; lit "00"] in E. assert (X : split_on 58%N (s ++ r) = []) by congruence.
      destruct (split_join _ _ X) as [_ F]. exact F.
Qed.

(** run_daily takes a time the task can never be scheduled at *)
Theorem C75_checks_refuted : ~ run_daily_checks.
Proof.
  intros H. apply (bad_not_passable []). apply (H (t_fn (lit "f")) (lit "25:00") (set_allowed true (strat_new [])) []). reflexivity.
Qed.
Print Assumptions C75_checks_refuted.

(** Full statement: a bad time is noticed before the account is set up. *)
Definition noticed_first : Prop :=
  forall fuel cfg sc tz st now calls ns dates ps, cf_hist cfg = false -> 0 < cf_count cfg ->
    start fuel cfg sc tz st None now calls ns dates = None -> (exists a, In a (asked calls) /\ ~ passable ps (snd a)) ->
    st_acc (snd (setup fuel cfg sc st None now true calls None (strat_new ns))) = None.

(** process_initialize runs to its end, the account is there, and only then start-up fails *)
Theorem C75_late_refuted : ~ noticed_first.
Proof.
  intros H. specialize (H 20%nat t_cfg scfg_default 0 t_now (fun _ => t_now) t_bad [(lit "f", OUser 1)] [700000] t_ps eq_refl eq_refl).
  assert (E : st_acc (snd (setup 20 t_cfg scfg_default t_now None (fun _ => t_now) true t_bad None (strat_new [(lit "f", OUser 1)]))) = Some 0%nat)
    by (vm_compute; reflexivity).
  rewrite H in E; [discriminate E|vm_compute; reflexivity|].
  exists (lit "f", 1%nat, lit "25:00"). split; [left; reflexivity|apply bad_not_passable].
Qed.
Print Assumptions C75_late_refuted.

(** C75_started_partial and C75_proper_starts_partial on a task with two entries *)
Definition t_good : list ucall := [URun (t_fn (lit "f")) (lit "9:31"); URun (t_fn (lit "f")) (lit "close-1h30m")].
Example C75_demo :
  asked t_good = [(lit "f", 1%nat, lit "9:31"); (lit "f", 1%nat, lit "close-1h30m")] /\
  Forall no_account t_good /\
  (exists offs, owes t_ps (lit "9:31") offs /\ offs <> []) /\ (exists offs, owes t_ps (lit "close-1h30m") offs /\ offs <> []) /\
  option_map (fun x => map (fun m => m_time (snd m)) (l_q (snd x)))
    (start 20 t_cfg scfg_default 0 t_now None (fun _ => t_now) t_good [(lit "f", OUser 1)] [700000; 700000]) =
    Some [dt_to_milliseconds 0 (700000 * DAY + 34260 * US); dt_to_milliseconds 0 (700000 * DAY + 48600 * US)].
Proof.
  split; [reflexivity|]. split; [repeat constructor|]. split; [|split].
  - exists [34260 * US]. split; [|discriminate]. apply owes_clock. apply (clock_hm (lit "9") (lit "31"));
      [split; [left; reflexivity|repeat constructor]|split; [right; reflexivity|repeat constructor]|reflexivity|reflexivity].
  - exists [48600 * US]. split; [|discriminate]. apply owes_rel.
    apply (dd_off (opening t_ps) (closing t_ps) (lit "close") (54000 * US) [Group (lit "1") 104; Group (lit "30") 109] false); [constructor| |].
    + split; [cbn; lia|]. constructor; [|constructor; [|constructor]]; (split; [cbn; lia|split; [repeat constructor|discriminate]]).
    + constructor; [intros [E|[]]; discriminate E|constructor; [intros []|constructor]].
  - vm_compute. reflexivity.
Qed.
