(** C75 with the account enabled. *)
From Coq Require Import Permutation Sorted.
From Verif Require Import PyBase PyStr MTime MTimeExpr MEventSource MQueue MLoop MSched MBus MStrategy MProcess
  SEvent SExpr SStrategy SProcess STimes STimes2 LStr LEventSource LEventSource2 LTimeExpr LStrategy LSched LSched2 LSched3 LLive LProcess TTimes.
Open Scope list_scope.
Open Scope Z_scope.

(** a sync timer source with instants *)
Definition timed (st : Z) (es : esrc) : Prop :=
  es_start es = Some st /\ es_end es = None /\ es_need es = true /\ es_daily es <> [] /\ Forall (fun de => exists dt, fst de = fmt_hms dt) (es_daily es).

Lemma step_first fuel step a b l : step_loop fuel step a b = Some l -> a <= b -> l <> [].
Proof.
  destruct fuel as [|f]; cbn [step_loop]; [discriminate|]. intros H Hab. apply Z.leb_le in Hab. rewrite Hab in H.
  destruct (step_loop f step (a + step) b); [|discriminate]. injection H as <-. discriminate.
Qed.
Lemma period_fmt fuel step today p l : period_entries fuel step today p = GOk l -> Forall (fun e => exists dt, e = fmt_hms dt) l.
Proof.
  unfold period_entries. destruct p as [|[a| |] [|[b| |] [|]]]; try discriminate. destruct (step_loop _ _ _ _) as [ts|]; [|discriminate].
  intro H. injection H as <-. apply Forall_forall. intros e He. apply in_map_iff in He as (dt & <- & _). eauto.
Qed.
Lemma periods_fmt fuel step today mp : forall l, periods_entries fuel step today mp = GOk l -> Forall (fun e => exists dt, e = fmt_hms dt) l.
Proof.
  induction mp as [|p mp IH]; intros l H; cbn [periods_entries] in H; [injection H as <-; constructor|].
  destruct (period_entries fuel step today p) as [l1|x|] eqn:E1; try discriminate. destruct (periods_entries fuel step today mp) as [l2|x|] eqn:E2; try discriminate.
  injection H as <-. apply Forall_app. split; [eapply period_fmt; exact E1|apply IH; reflexivity].
Qed.
(** what the timer sees of the periods *)
Definition seen_as (mp : rawmp) (l : list (Z * Z)) : Prop := Forall2 (fun raw ab => raw = [TTime (fst ab); TTime (snd ab)]) mp l.
Lemma parsed_seen mp l mp' : read_as mp l -> parse_periods mp = Ok mp' -> seen_as mp' l.
Proof.
  intro H. revert mp'. induction H as [|raw [a b] mp l (x & y & -> & Hx & Hy & _) _ IH]; intros mp' E; cbn [parse_periods] in E; [apply Ok_inj in E; subst; constructor|].
  rewrite Hx, Hy in E. cbn [rbind fst snd] in E. destruct (parse_periods mp) as [r|] eqn:Er; cbn [rbind] in E; [|discriminate]. apply Ok_inj in E. subst mp'.
  constructor; [reflexivity|apply IH; reflexivity].
Qed.
Lemma raw_seen fuel step today mp l es : read_as mp l -> periods_entries fuel step today mp = GOk es -> seen_as mp l.
Proof.
  intro H. revert es. induction H as [|raw [a b] mp l (x & y & -> & Hx & Hy & _) _ IH]; intros es E; [constructor|]. cbn [periods_entries] in E.
  destruct (period_entries fuel step today [x; y]) as [l1|e|] eqn:E1; try discriminate. destruct (periods_entries fuel step today mp) as [l2|e|] eqn:E2; try discriminate.
  constructor; [|eapply IH; reflexivity]. unfold period_entries in E1. destruct x as [u| |]; try discriminate. destruct y as [v| |]; try discriminate.
  cbn [parse_time] in Hx, Hy. apply Ok_inj in Hx. apply Ok_inj in Hy. subst. reflexivity.
Qed.
Lemma seen_room fuel step today mp l es a b : seen_as mp l -> In (a, b) l -> a <= b -> periods_entries fuel step today mp = GOk es -> es <> [].
Proof.
  intros H Hi Hab. revert es. induction H as [|raw [u v] mp l -> _ IH]; intros es E; [destruct Hi|]. cbn [periods_entries] in E.
  destruct (period_entries fuel step today [TTime u; TTime v]) as [l1|x|] eqn:E1; cbn [fst snd] in E; rewrite ?E1 in E; try discriminate.
  destruct (periods_entries fuel step today mp) as [l2|x|] eqn:E2; try discriminate. injection E as <-. intro X. apply app_eq_nil in X as [-> ->].
  destruct Hi as [Hi|Hi]; [|exact (IH Hi [] eq_refl eq_refl)]. injection Hi as -> ->. unfold period_entries in E1.
  destruct (step_loop fuel step (combine today a) (combine today b)) as [ts|] eqn:Et; [|discriminate]. injection E1 as E1. apply map_eq_nil in E1. subst ts.
  apply (step_first _ _ _ _ _ Et); [|reflexivity]. unfold combine. lia.
Qed.

Section Timed.
  Context (fuel : nat) (sc : scfg) (st : Z).

  Lemma sync_room k o e l : parse_opts k = Ok o -> roomy fuel sc (UOpt k e) -> so_use k <> Some false -> ~ (so_bal k = Some false /\ so_ord k = Some false) ->
    sync_entries fuel sc (e_now e) o = GOk l -> l <> [] /\ Forall (fun x => exists dt, x = fmt_hms dt) l.
  Proof.
    intros Hp [H|[H|(step & Hs & Hpos & Hfu & H)]] Hu Hb; [contradiction|contradiction|]. unfold sync_entries.
    assert (Ep : exists sp, so_interval o = so_interval k /\ so_period o = sp /\ parse_opt (so_period k) = Ok sp).
    { revert Hp. unfold parse_opts. destruct (parse_opt (so_mp k)) as [mp|]; [|discriminate]. cbn [rbind].
      destruct (so_interval k) as [[z|x]|]; cbn [rbind]; try discriminate; destruct (parse_opt (so_period k)) as [sp|]; try discriminate; cbn [rbind];
        intro E; apply Ok_inj in E; subst o; exists sp; auto. }
    destruct Ep as (sp & Ei & Es & Esp). unfold step_asked in Hs. rewrite Ei, Es, Hs. clear Es.
    intro E. destruct H as [(He & Hroom)|(pl & a & b & Hr & Hi & Hab)].
    - assert (Z0 : match sp with Some p => p | None => sc_period sc end = []).
      { unfold period_asked in He. destruct (so_period k) as [p|]; cbn [parse_opt] in Esp; [subst p; apply Ok_inj in Esp; subst sp; reflexivity|].
        apply Ok_inj in Esp. subst sp. exact He. }
      rewrite Z0 in E. destruct (step_loop _ _ _ _) as [ts|] eqn:Et; [|discriminate]. injection E as <-. split.
      + intro X. apply map_eq_nil in X. subst ts. apply (step_first _ _ _ _ _ Et); [|reflexivity]. unfold combine, dt_time.
        assert (e_now e mod DAY / US * US <= e_now e mod DAY) by (pose proof (Z.mul_div_le (e_now e mod DAY) US eq_refl); lia). lia.
      + apply Forall_forall. intros x Hx. apply in_map_iff in Hx as (dt & <- & _). eauto.
    - set (per := match sp with Some p => p | None => sc_period sc end) in *.
      assert (Hne : per <> [] /\ forall es, periods_entries fuel step (dt_date (e_now e)) per = GOk es -> seen_as per pl).
      { unfold period_asked in Hr. destruct (so_period k) as [[|p mp]|] eqn:Ek; cbn [parse_opt] in Esp.
        - inversion Hr; subst pl. destruct Hi.
        - destruct (parse_periods (p :: mp)) as [mp'|] eqn:Em; cbn [rbind] in Esp; [|discriminate]. apply Ok_inj in Esp. subst sp.
          pose proof (parsed_seen _ _ _ Hr Em) as S. split; [|intros _ _; exact S]. intro X. unfold per in X. subst mp'. inversion S; subst pl. destruct Hi.
        - apply Ok_inj in Esp. subst sp. split; [|intros es X; exact (raw_seen _ _ _ _ _ _ Hr X)]. intro X. unfold per in X. rewrite X in Hr. inversion Hr; subst pl. destruct Hi. }
      destruct Hne as [Hne Hseen].
      assert (E' : periods_entries fuel step (dt_date (e_now e)) per = GOk l) by (destruct per; [congruence|exact E]).
      split; [exact (seen_room _ _ _ _ _ _ _ _ (Hseen l E') Hi Hab E')|exact (periods_fmt _ _ _ _ _ E')].
  Qed.

  Lemma timer_src i now o s l : l <> [] -> Forall (fun x => exists dt, x = fmt_hms dt) l -> sync_entries fuel sc now o = GOk l ->
    Forall (timed st) (st_srcs s) -> Forall (timed st) (st_srcs (snd (setup_timer fuel sc st None i now o s))).
  Proof.
    intros Hl Hf E H. unfold setup_timer. rewrite E. cbn [snd add_src set_bus st_srcs]. apply Forall_app. split; [exact H|]. constructor; [|constructor].
    destruct (add_entries_fields sync_cls l (es_new (Some st) None)) as (F1 & F2 & F3 & F4 & F5). unfold timed.
    rewrite F1, F2, add_entries_daily. cbn [es_new es_daily app]. split; [reflexivity|]. split; [reflexivity|].
    split; [|split; [destruct l; [congruence|discriminate]|]].
    - destruct l as [|x l]; [congruence|]. clear. unfold add_entries. cbn [fold_left].
      assert (G : forall l es, es_need es = true -> es_need (fold_left (fun es e => es_add_daily sync_cls e es) l es) = true).
      { induction l0 as [|y l0 IH]; intros es He; [exact He|]. cbn [fold_left]. apply IH. reflexivity. }
      apply G. reflexivity.
    - apply Forall_forall. intros de Hde. apply in_map_iff in Hde as (x & <- & Hx). rewrite Forall_forall in Hf. exact (Hf x Hx).
  Qed.

  Lemma uexec_timed cs : Forall (roomy fuel sc) cs -> forall s, Forall (timed st) (st_srcs s) -> Forall (timed st) (st_srcs (uexec fuel sc st None cs s)).
  Proof.
    induction 1 as [|c cs Hc Hcs IH]; intros s Hs; [exact Hs|]. cbn [uexec]. apply IH. destruct c as [f t|k e|n o]; cbn [ustep].
    - unfold run_daily. destruct (f_name f); [|exact Hs]. destruct (negb (st_allowed s)); [exact Hs|]. destruct (negb (f_callable f)); exact Hs.
    - unfold set_options. destruct (negb (st_allowed s)); [exact Hs|]. destruct (parse_opts k) as [o|x] eqn:Ep; [|exact Hs]. destruct (e_dir e); [|exact Hs].
      assert (Ef : so_use o = so_use k /\ so_bal o = so_bal k /\ so_ord o = so_ord k).
      { revert Ep. unfold parse_opts. destruct (parse_opt (so_mp k)); [|discriminate]. cbn [rbind].
        destruct (match so_interval k with Some (Err e0) => _ | _ => _ end); [|discriminate]. cbn [rbind].
        destruct (parse_opt (so_period k)); [|discriminate]. cbn [rbind]. intros E. apply Ok_inj in E. subst o. auto. }
      destruct Ef as (Eu & Eb & Eo).
      destruct (match so_use o with Some b => b | None => sc_setup sc end) eqn:Euse; [|exact Hs].
      unfold setup_account. destruct (negb (so_acct o)); [exact Hs|]. destruct (e_load e); [|exact Hs]. destruct (e_gate e); [|exact Hs].
      destruct (need_bal sc o || need_ord sc o) eqn:En; [|exact Hs].
      destruct (sync_entries fuel sc (e_now e) o) as [l|x|] eqn:El; [|unfold setup_timer; rewrite El; exact Hs|unfold setup_timer; rewrite El; exact Hs].
      destruct (sync_room k o e l Ep Hc) as [Hl Hf]; [| |exact El|].
      + intro X. rewrite Eu, X in Euse. discriminate.
      + intros [X Y]. unfold need_bal, need_ord in En. rewrite Eb, Eo, X, Y in En. discriminate.
      + apply (timer_src _ _ _ _ l); assumption.
    - exact Hs.
  Qed.
End Timed.

Lemma timed_tasks mp st es : timed st es -> exists tasks, tasks_of mp (es_daily es) tasks.
Proof.
  intros (_ & _ & _ & _ & F). unfold tasks_of. induction F as [|[x c] l (dt & E) _ (ts & IH)]; [exists []; constructor|].
  exists ((dt_time dt / US * US, c) :: ts). constructor; [|exact IH]. cbn [fst snd] in *. subst x. split; [apply offset_fmt|reflexivity].
Qed.

(** A process_initialize that asks for proper times starts, with or without the account, if
    every sync timer it sets up has an instant (live mode; at least eight days generated at a
    time; every_minute with at least one minute in the periods; a clock that does not go back
    to an earlier day). *)
Theorem C75_account_starts_partial :
  forall fuel cfg sc tz st now calls ns dates ps,
    cf_hist cfg = false -> 8 <= cf_count cfg -> (1441 <= fuel)%nat -> (Z.to_nat (cf_count cfg) < fuel)%nat ->
    Forall (roomy fuel sc) calls ->
    let s := snd (setup fuel cfg sc st None now true calls None (strat_new ns)) in
    market_period sc s = raw_of ps ->
    ps <> [] -> Forall (fun p => tod_ok (fst p) /\ tod_ok (snd p)) ps -> Forall (fun p => fst p mod US = 0) ps ->
    Forall (fun a => exists offs, owes ps (snd a) offs /\ offs <> []) (asked calls) ->
    length dates = length (st_srcs s) -> (forall d, In d dates -> st < (d + 1) * DAY /\ forall k, now k < (d + 1) * DAY) ->
    exists s0, start fuel cfg sc tz st None now calls ns dates = Some (s, s0).
Proof.
  intros fuel cfg sc tz st now calls ns dates ps Hh Hc Hf1 Hf2 Hna s Hmp Hne Hps Hw Hok Hl Hnow.
  assert (Hent : forall a today, In a (asked calls) -> exists l offs, (if str_eqb (d_time (desc_of a)) (lit "every_minute")
     then periods_entries fuel MINUTE today (raw_of ps) else GOk [d_time (desc_of a)]) = GOk l /\ entries_for ps l offs /\ offs <> []).
  { intros a today Ha. rewrite Forall_forall in Hok. destruct (Hok a Ha) as (offs & Ho & Hne').
    destruct (entry_meaning ps (snd a) offs fuel today Hne Hps Hw Hf1 Ho) as (l & H1 & H2). exists l, offs. split; [exact H1|auto]. }
  assert (Hset : setup fuel cfg sc st None now true calls None (strat_new ns) = (GOk tt, s)).
  { unfold s in *. clear s Hl. pose proof (setup_sched fuel cfg sc st None now calls None ns) as Hsc. revert Hmp Hsc. unfold setup, schedule_all_tasks.
    set (s3 := set_allowed false _). intros Hmp Hsc.
    destruct (schedule_descs_go fuel cfg sc st now ps Hh (st_sched s3) s3) as (s4 & E).
    - destruct (schedule_descs fuel cfg sc st None now (st_sched s3) s3) as [s5|x|] eqn:E5; cbn [snd] in Hmp; [|exact Hmp|exact Hmp].
      destruct (schedule_descs_frame _ _ _ _ _ _ _ _ _ E5) as (_ & _ & F & _). unfold market_period in *. rewrite <- F. exact Hmp.
    - intros d today Hd. assert (Es : st_sched s3 = map desc_of (asked calls)).
      { destruct (uexec_sched fuel sc st None calls (set_allowed true (make_apis sc (strat_new ns))) eq_refl) as [_ H]. exact H. }
      rewrite Es in Hd. apply in_map_iff in Hd as (a & <- & Ha). destruct (Hent a today Ha) as (l & offs & H & _). eauto.
    - rewrite E. reflexivity. }
  clearbody s. unfold start. rewrite Hset.
  destruct (setup_srcs fuel cfg sc st Hh now calls ns s Hset) as (pre & ts & H1 & H2 & H3 & H4).
  assert (Hpre : Forall (timed st) pre).
  { revert Hset. unfold setup, schedule_all_tasks. set (s3 := set_allowed false _).
    destruct (schedule_descs fuel cfg sc st None now (st_sched s3) s3) as [s5|x|] eqn:E5; try discriminate.
    intros Es. assert (Ep : forall a b : gres unit * strat, a = b -> snd a = snd b) by (intros a b ->; reflexivity). apply Ep in Es. cbn [snd] in Es. subst s5. clear Ep.
    destruct (schedule_descs_tasks fuel cfg sc st Hh now (st_sched s3) s3 s E5) as (ts' & T1 & T2 & _).
    assert (Es3 : st_sched s3 = map desc_of (asked calls)).
    { destruct (uexec_sched fuel sc st None calls (set_allowed true (make_apis sc (strat_new ns))) eq_refl) as [_ H]. exact H. }
    assert (S0 : Forall (timed st) (st_srcs s3)) by (apply (uexec_timed fuel sc st calls Hna); constructor).
    rewrite Es3, map_length in T2. rewrite H1 in T1. assert (pre = st_srcs s3) as ->; [|exact S0].
    assert (Hlp : length pre = length (st_srcs s3)) by (apply (f_equal (@length esrc)) in T1; rewrite !app_length in T1; lia).
    clear - T1 Hlp. revert Hlp T1. generalize (st_srcs s3). induction pre as [|x pre IH]; intros [|y l] Hlp T1; try discriminate; [reflexivity|].
    cbn [app] in T1. injection T1 as <- T1. f_equal. apply IH; [cbn in Hlp; lia|exact T1]. }
  destruct (boot_peeks fuel (loop_cfg cfg sc s) tz (st_srcs s) dates) as (s0 & Eb); [lia|exact Hl| |rewrite Eb; eauto].
  intros j es d Hj Hd. rewrite H1 in Hj. destruct (Hnow d (nth_error_In _ _ Hd)) as [Hn1 Hn2].
  assert (Hmp2 : cf_mp (loop_cfg cfg sc s) = ps) by (cbn [loop_cfg cf_mp]; rewrite Hmp; apply periods_of_raw).
  assert (Hto : times_ok (cf_mp (loop_cfg cfg sc s))) by (rewrite Hmp2; exact Hps).
  destruct (Nat.lt_ge_cases j (length pre)) as [Hlt|Hge].
  - rewrite nth_error_app1 in Hj by exact Hlt. rewrite Forall_forall in Hpre. pose proof (Hpre es (nth_error_In _ _ Hj)) as T.
    destruct (timed_tasks (cf_mp (loop_cfg cfg sc s)) st es T) as (tasks & Ht). destruct T as (T1 & T2 & T3 & T4 & _).
    apply (peek_live fuel (loop_cfg cfg sc s) d st es tasks); auto.
  - rewrite nth_error_app2 in Hj by exact Hge. set (i := (j - length pre)%nat) in *.
    destruct (nth_error (asked calls) i) as [a|] eqn:Ea.
    2:{ apply nth_error_None in Ea. assert (nth_error ts i <> None) as Hx by congruence. apply nth_error_Some in Hx. lia. }
    destruct (H4 i a es Ea Hj) as (l & L1 & L2 & L3 & L4 & L5 & L6).
    destruct (Hent a (dt_date (now i)) (nth_error_In _ _ Ea)) as (l' & offs & L7 & L8 & L9).
    unfold entries_of in L1. rewrite Hmp in L1. rewrite L1 in L7. assert (l' = l) as -> by congruence.
    assert (Hl0 : l <> []) by (intros ->; inversion L8; subst; congruence).
    destruct L6 as [L6|L6]; [|congruence].
    apply (peek_live fuel (loop_cfg cfg sc s) d (now i) es (map (fun o => (o, cls_of i (desc_of a))) offs)); auto.
    + rewrite Hmp2, L5. unfold tasks_of, entries_for in *. clear - L8.
      induction L8 as [|e o l offs H He IH]; cbn [map]; constructor; [cbn; auto|exact IH].
    + rewrite L5. destruct l; [congruence|discriminate].
Qed.
Print Assumptions C75_account_starts_partial.

(** hourly syncs; and in two sync periods, one of them empty *)
Definition t_sync : list ucall := [UOpt (SOpts None (Some true) true None None (Some (Ok (3600 * US))) None) t_env; URun (t_fn (lit "f")) (lit "9:31")].
Definition t_sync2 : list ucall :=
  [UOpt (SOpts None None true None None None (Some [[TStr (lit "11:00:00"); TStr (lit "10:00:00")]; [TStr (lit "14:59:55"); TTime (54000 * US)]])) t_env; URun (t_fn (lit "f")) (lit "9:31")].
Example C75_account_demo :
  Forall (roomy 30 scfg_default) t_sync /\ Forall (roomy (Z.to_nat 20000) scfg_default) t_sync2 /\
  option_map (fun x => map (fun m => m_time (snd m)) (l_q (snd x)))
    (start 30 t_cfg scfg_default 0 t_now None (fun _ => t_now) t_sync [(lit "f", OUser 1)] [700000; 700000]) =
    Some [dt_to_milliseconds 0 (700000 * DAY + 34260 * US); dt_to_milliseconds 0 (700000 * DAY + 36000 * US)] /\
  option_map (fun x => map (fun m => m_time (snd m)) (l_q (snd x)))
    (start 30 t_cfg scfg_default 0 t_now None (fun _ => t_now) t_sync2 [(lit "f", OUser 1)] [700000; 700000]) =
    Some [dt_to_milliseconds 0 (700000 * DAY + 34260 * US); dt_to_milliseconds 0 (700000 * DAY + 53995 * US)].
Proof.
  split; [|split; [|split; vm_compute; reflexivity]].
  - constructor; [|repeat constructor]. right; right. exists (3600 * US). split; [reflexivity|]. split; [reflexivity|]. split; [vm_compute; reflexivity|].
    left. split; [reflexivity|]. vm_compute. discriminate.
  - constructor; [|repeat constructor]. right; right. exists (5 * US). split; [reflexivity|]. split; [reflexivity|]. split; [vm_compute; reflexivity|].
    right. exists [(39600 * US, 36000 * US); (53995 * US, 54000 * US)], (53995 * US), (54000 * US).
    split; [|split; [right; left; reflexivity|vm_compute; discriminate]].
    constructor; [|constructor; [|constructor]]; eexists _, _; (split; [reflexivity|]; split; [vm_compute; reflexivity|]; split; [vm_compute; reflexivity|]);
      split; split; vm_compute; congruence.
Qed.
