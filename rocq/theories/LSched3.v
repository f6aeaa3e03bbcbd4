(** The scheduler with bounded sources: nothing hangs, everything is dispatched (C03, C04, C08). *)
From Coq Require Import Permutation Sorted.
From Verif Require Import PyBase PyStr MTime MTimeExpr MEventSource MQueue MLoop MSched
  SQueue LQueue LLoop SEvent SSched LSort LEventSource LEventSource2 LSched LSched2.
Open Scope Z_scope.

Definition bstream (st e : Z) (tasks : list task) : list (Z * ecls) :=
  flat_map (day_evs st (Some e) tasks) (day_range (dt_date st) (dt_date e - dt_date st + 1)).

Lemma bounded_answers cfg es st e tasks fuel todays :
  bounded_src cfg es st e tasks -> (window_days st e < fuel)%nat ->
  exists es', get_events fuel cfg todays es = GOk (answers (length todays) (bstream st e tasks), es').
Proof.
  intros (Hst & Hen & Hn & Ht) Hf.
  destruct todays as [|t ts].
  { exists es. cbn. reflexivity. }
  pose proof (reset_fresh cfg t st es Hst Hn) as Hreset.
  rewrite (get_events_reset cfg t ts es _ fuel Hreset).
  set (es1 := es_set_gen _ _ _ _ es) in *.
  destruct (get_events_bounded cfg st tasks fuel (t :: ts) es1) as (es' & E).
  - repeat split; [exact Hst|exact Ht].
  - unfold bounded, es1; cbn. rewrite Hen. apply orb_true_r.
  - reflexivity.
  - unfold es1; cbn. rewrite Hen. cbn [days_of]. rewrite day_range_length. exact Hf.
  - exists es'. rewrite E.
    unfold pend, es1; cbn [es_events es_days es_end es_set_gen app]. rewrite Hen. reflexivity.
Qed.

Lemma answers_some n S rs : map Some rs = answers n S -> (n <= length S)%nat /\ rs = firstn n S.
Proof.
  intros H. unfold answers in H.
  assert (Hn : (n - length S = 0)%nat).
  { destruct (n - length S)%nat as [|d] eqn:E; [reflexivity|]. exfalso.
    assert (Hin : In None (map Some rs)) by (rewrite H; apply in_or_app; right; left; reflexivity).
    apply in_map_iff in Hin. destruct Hin as (x & Hx & _). discriminate. }
  split; [lia|]. rewrite Hn in H. cbn [repeat] in H. rewrite app_nil_r in H.
  clear Hn. revert H. generalize (firstn n S) as l. induction rs as [|r rs IH]; intros [|x l] H; try discriminate; [reflexivity|].
  cbn [map] in H. injection H as -> H. f_equal. apply IH; exact H.
Qed.

Lemma answers_split n m S : (n <= length S)%nat -> answers (n + m) S = map Some (firstn n S) ++ answers m (skipn n S).
Proof.
  intros Hn. unfold answers. rewrite app_assoc, <- map_app. f_equal.
  - f_equal. rewrite <- (firstn_skipn n S) at 1. rewrite firstn_app.
    assert (Hl : length (firstn n S) = n) by (rewrite firstn_length; lia). rewrite Hl.
    rewrite firstn_all2 by lia. replace (n + m - n)%nat with m by lia. reflexivity.
  - rewrite skipn_length. f_equal. lia.
Qed.

Lemma answers_length n S : length (answers n S) = n.
Proof. unfold answers. rewrite app_length, map_length, repeat_length, firstn_length. lia. Qed.

Lemma get_events_length fuel cfg dates : forall es rs es', get_events fuel cfg dates es = GOk (rs, es') -> length rs = length dates.
Proof.
  induction dates as [|d dates IH]; intros es rs es' H; cbn [get_events] in H.
  - injection H as <- _; reflexivity.
  - destruct (get_next_event fuel cfg d es) as [[r es1]| |]; try discriminate.
    destruct (get_events fuel cfg dates es1) as [[rs0 es2]| |] eqn:E; try discriminate.
    injection H as <- _. cbn. f_equal. eapply IH; exact E.
Qed.

Lemma get_events_app fuel cfg d1 : forall d2 es rs1 es1, get_events fuel cfg d1 es = GOk (rs1, es1) ->
  get_events fuel cfg (d1 ++ d2) es =
  match get_events fuel cfg d2 es1 with
  | GOk (rs2, es2) => GOk (rs1 ++ rs2, es2) | GErr e => GErr e | GFuel => GFuel end.
Proof.
  induction d1 as [|d d1 IH]; intros d2 es rs1 es1 H; cbn [get_events app] in H |- *.
  - injection H as <- <-. destruct (get_events fuel cfg d2 es) as [[]| |]; reflexivity.
  - destruct (get_next_event fuel cfg d es) as [[r esx]| |]; try discriminate.
    destruct (get_events fuel cfg d1 esx) as [[rs0 es2]| |] eqn:E; try discriminate.
    injection H as <- <-. rewrite (IH d2 _ _ _ E). destruct (get_events fuel cfg d2 es2) as [[]| |]; reflexivity.
Qed.

(** a bounded source that answered [em] goes on with the rest of its stream *)
Lemma rel_bounded fuel cfg es0 st e tasks em es :
  bounded_src cfg es0 st e tasks -> (window_days st e < fuel)%nat -> rel fuel cfg es0 em es ->
  (length em <= length (bstream st e tasks))%nat /\ em = firstn (length em) (bstream st e tasks) /\
  forall todays, exists es',
    get_events fuel cfg todays es = GOk (answers (length todays) (skipn (length em) (bstream st e tasks)), es').
Proof.
  intros Hb Hf (dates & esa & H1 & H2). set (S := bstream st e tasks).
  pose proof (get_events_length _ _ _ _ _ _ H1) as Hl. rewrite map_length in Hl.
  destruct (bounded_answers cfg es0 st e tasks fuel dates Hb Hf) as (es' & E).
  rewrite H1 in E. injection E as E _. apply answers_some in E. fold S in E. rewrite <- Hl in E. destruct E as [Hle Em].
  split; [exact Hle|]. split; [exact Em|].
  assert (Ha : forall todays, exists es', get_events fuel cfg todays esa = GOk (answers (length todays) (skipn (length em) S), es')).
  { intros todays. destruct (bounded_answers cfg es0 st e tasks fuel (dates ++ todays) Hb Hf) as (es2 & E2).
    fold S in E2. rewrite (get_events_app _ _ _ _ _ _ _ H1) in E2.
    rewrite app_length, <- Hl, answers_split in E2 by exact Hle. rewrite <- Em in E2.
    destruct (get_events fuel cfg todays esa) as [[rs2 es3]| |]; try discriminate.
    injection E2 as E2 _. apply app_inv_head in E2. rewrite E2. exists es3. reflexivity. }
  destruct H2 as [->|(t0 & r & Hp)]; [exact Ha|].
  intros [|t ts]; [exists es; reflexivity|].
  destruct (Ha (t0 :: ts)) as (es2 & E2). exists es2. cbn [get_events length] in E2 |- *.
  destruct (peek_preview _ _ _ _ _ _ Hp) as (_ & Hga & Hgb).
  destruct (Hgb fuel t ltac:(lia)) as [_ Hgc]. rewrite Hga in E2. rewrite Hgc. exact E2.
Qed.

Lemma get_peek fuel cfg t es r es' : get_next_event fuel cfg t es = GOk (r, es') ->
  exists es2, peek_next_event fuel cfg t es = GOk (r, es2).
Proof.
  unfold get_next_event, peek_next_event. destruct (gen_events fuel cfg t es) as [es1| |]; try discriminate.
  destruct (es_events es1) as [|x xs]; intros H; injection H as <- _; exists es1; reflexivity.
Qed.

Lemma rel_peeks fuel cfg es0 st e tasks em es t :
  bounded_src cfg es0 st e tasks -> (window_days st e < fuel)%nat -> rel fuel cfg es0 em es ->
  exists r es2, peek_next_event fuel cfg t es = GOk (r, es2).
Proof.
  intros Hb Hf Hr. destruct (rel_bounded _ _ _ _ _ _ _ _ Hb Hf Hr) as (_ & _ & H).
  destruct (H [t]) as (es' & E). cbn [get_events] in E.
  destruct (get_next_event fuel cfg t es) as [[r es1]| |] eqn:Eg; try discriminate.
  destruct (get_peek _ _ _ _ _ _ Eg) as (es2 & Hp). exists r, es2. exact Hp.
Qed.

Lemma step_w {C W O} (h : handler C W O) (s : lstate C W) l s' : l_step h s l = Some s' ->
  l_w s' = l_w s \/
  exists m o, l_mode s = Running m /\ l = LDone o /\ l_w s' = fst (fst (h (m_cb m) o (l_w s))).
Proof.
  assert (Hstop : forall s0 : lstate C W, l_w (do_stop s0) = l_w s0) by (intros s0; unfold do_stop; destruct (l_stop s0); reflexivity).
  assert (Hleave : forall s0 : lstate C W, l_w (leave s0) = l_w s0) by (intros s0; unfold leave; destruct (l_stop s0); reflexivity).
  assert (Hact : forall a (s0 : lstate C W), l_w (do_act a s0) = l_w s0) by (intros [t p c|] s0; [reflexivity|apply Hstop]).
  unfold l_step. destruct l as [ | | | |now ex| |o|a| ]; destruct (l_mode s) as [| |m|m|r] eqn:Hm; try discriminate.
  - destruct (l_async s); [|discriminate]. intros H; injection H as <-. left; reflexivity.
  - destruct (l_timer s); [|discriminate]. intros H; injection H as <-. left; reflexivity.
  - destruct (l_sig s); [|discriminate]. intros H; injection H as <-. left. rewrite Hstop. reflexivity.
  - intros H; injection H as <-. left; reflexivity.
  - intros H; injection H as <-. left; reflexivity.
  - intros H; injection H as <-. left; reflexivity.
  - intros H; injection H as <-. left; reflexivity.
  - intros H; injection H as <-. left. unfold check_turn. destruct (l_stop s); [apply Hleave|].
    destruct (q_pop (l_q s)) as [[m|] q']; [|rewrite Hleave; reflexivity].
    destruct (Z.ltb now (m_time m)); [|reflexivity]. destruct ex; [|reflexivity]. rewrite Hleave, Hstop. reflexivity.
  - intros H; injection H as <-. left. unfold arm. rewrite Hleave. reflexivity.
  - intros H; injection H as <-. right. exists m, o. split; [reflexivity|]. split; [reflexivity|].
    unfold finish. destruct (h (m_cb m) o (l_w s)) as [[w' acts] x]. cbn [fst].
    assert (Ef : forall acts (s3 : lstate C W), l_w (fold_left (fun st a => do_act a st) acts s3) = l_w s3).
    { clear - Hact. induction acts as [|a acts IH]; intros s3; [reflexivity|]. cbn [fold_left]. rewrite IH. apply Hact. }
    destruct x; cbn; [rewrite Hstop; cbn|]; rewrite Ef; reflexivity.
  - intros H; injection H as <-. left. apply Hact.
  - intros H; injection H as <-. left. apply Hact.
  - intros H; injection H as <-. left. apply Hact.
  - intros H; injection H as <-. left. apply Hact.
  - destruct (l_uvstop s); [|discriminate]. intros H; injection H as <-. left; reflexivity.
Qed.

(** events are emitted for existing sources only *)
Lemma emits_idx fuel cfg tz srcs0 (Hfuel : (0 < fuel)%nat) s : sreach fuel cfg tz srcs0 s ->
  forall k e, In (k, e) (w_emits (l_w s)) -> (k < length srcs0)%nat.
Proof.
  intros (dates & s0 & ls & Hl & Hb & Hok & Hex).
  assert (F0 : FI fuel cfg tz srcs0 s0).
  { apply FI_reach; [exact Hfuel|]. exists dates, s0, []. repeat split; try assumption. constructor. }
  assert (H0 : forall k e, In (k, e) (w_emits (l_w s0)) -> (k < length srcs0)%nat).
  { unfold boot in Hb. rewrite (b_emits _ _ _ _ _ _ (BI_all fuel cfg tz srcs0 Hfuel dates 0 _ _ (BI_init fuel cfg tz srcs0 Hfuel) Hb)). intros k e []. }
  clear Hb. revert s0 F0 H0 Hex. induction ls as [|l ls IH]; intros s0 F0 H0 Hex; cbn [l_exec] in Hex.
  - injection Hex as <-. exact H0.
  - inversion Hok as [|? ? Hl1 Hls]; subst. destruct (l_step _ s0 l) as [s1|] eqn:E; [|discriminate].
    apply (IH Hls s1); [eapply FI_step; eassumption| |exact Hex].
    destruct (step_w _ _ _ _ E) as [->|(m & o & Hm & _ & ->)]; [exact H0|].
    destruct (sched_handler fuel cfg tz (m_cb m) o (l_w s0)) as [[w' acts] x] eqn:Eh. cbn [fst].
    destruct (m_cb m) as [sid k|] eqn:Hcb; cbn [sched_handler] in Eh.
    + pose proof (f_SI _ _ _ _ _ F0) as HSI. unfold msgs, hand in HSI. rewrite Hm in HSI.
      destruct (SI_callback fuel cfg tz srcs0 Hfuel _ _ _ _ _ _ _ _ _ _ HSI Hcb Eh) as (_ & (dt & c & Eem & _) & _).
      intros k0 e Hin. rewrite Eem in Hin. apply in_app_or in Hin. destruct Hin as [Hin|[Hin|[]]]; [eapply H0; exact Hin|].
      injection Hin as <- _. destruct (s_msg _ _ _ _ _ _ _ HSI m sid k (or_introl eq_refl) Hcb) as (_ & es & Hk & _).
      rewrite <- (s_len _ _ _ _ _ _ _ HSI). apply nth_error_Some. congruence.
    + injection Eh as <- _ _. exact H0.
Qed.

Section S.
  Variables (fuel : nat) (cfg : escfg) (tz : Z) (srcs0 : list esrc).
  Hypothesis Hfuel : (0 < fuel)%nat.
  Hypothesis Hall : forall k es0, nth_error srcs0 k = Some es0 ->
    exists st e tasks, bounded_src cfg es0 st e tasks /\ (window_days st e < fuel)%nat.
  Implicit Types w : sworld.
  Implicit Types s : lstate scb sworld.
  Notation h := (sched_handler fuel cfg tz).

  Lemma callback_nohang w m ms stop sid k o w' acts x :
    SI fuel cfg tz srcs0 w (m :: ms) stop -> m_cb m = CSched sid k ->
    sched_callback fuel cfg tz sid k o w = (w', acts, x) ->
    w_hung w' = w_hung w /\ x = o_exn o.
  Proof.
    intros HSI Hcb Hstep. pose proof HSI as [H1 H2 H3 H4 H5].
    destruct (H3 m sid k (or_introl eq_refl) Hcb) as (Hreg & es & Hk & dt & c & rest & Hset & Hev & Hmt & Hmp).
    assert (Hklt : (k < length (w_srcs w))%nat) by (apply nth_error_Some; congruence).
    destruct (nth_error srcs0 k) as [es0|] eqn:Hk0; [|apply nth_error_None in Hk0; lia].
    unfold sched_callback in Hstep. rewrite Hreg, Hk in Hstep. cbn [negb] in Hstep.
    pose proof (settled_get fuel cfg Hfuel (o_date o) es (dt, c) rest Hset Hev) as Hget. rewrite Hget in Hstep.
    destruct (o_exn o) as [y|].
    - injection Hstep as <- _ <-. split; reflexivity.
    - pose proof (rel_get fuel cfg Hfuel _ _ _ _ _ _ (H2 k es0 es Hk0 Hk) Hget) as Hr.
      destruct (Hall k es0 Hk0) as (st & e & tasks & Hb & Hf).
      destruct (rel_peeks _ _ _ _ _ _ _ _ (o_date2 o) Hb Hf Hr) as (r & es2 & Hp).
      unfold push_next in Hstep. rewrite Hp in Hstep. destruct r as [[dt2 c2]|]; injection Hstep as <- _ <-; split; reflexivity.
  Qed.

  Lemma nohang_step s l s' : FI fuel cfg tz srcs0 s -> ok_label l -> l_step h s l = Some s' ->
    w_hung (l_w s) = false -> w_hung (l_w s') = false.
  Proof.
    intros F Hok Hstep Hh. destruct (step_w _ _ _ _ Hstep) as [->|(m & o & Hm & _ & ->)]; [exact Hh|].
    destruct (h (m_cb m) o (l_w s)) as [[w' acts] x] eqn:E. cbn [fst].
    destruct (m_cb m) as [sid k|] eqn:Hcb; cbn [sched_handler] in E.
    - pose proof (f_SI _ _ _ _ _ F) as HSI. unfold msgs, hand in HSI. rewrite Hm in HSI.
      destruct (callback_nohang _ _ _ _ _ _ _ _ _ _ HSI Hcb E) as [-> _]. exact Hh.
    - injection E as <- _ _. exact Hh.
  Qed.

  Lemma nohang_exec ls : forall s s', FI fuel cfg tz srcs0 s -> Forall ok_label ls -> l_exec h s ls = Some s' ->
    w_hung (l_w s) = false -> w_hung (l_w s') = false.
  Proof.
    induction ls as [|l ls IH]; intros s s' F Hok Hex Hh; cbn [l_exec] in Hex.
    - injection Hex as <-; exact Hh.
    - inversion Hok; subst. destruct (l_step h s l) as [s1|] eqn:E; [|discriminate].
      eapply IH; [eapply FI_step; eassumption|assumption|exact Hex|]. eapply nohang_step; eassumption.
  Qed.

  Lemma nohang s : sreach fuel cfg tz srcs0 s -> w_hung (l_w s) = false.
  Proof.
    intros (dates & s0 & ls & Hl & Hb & Hok & Hex).
    eapply nohang_exec; [|exact Hok|exact Hex|].
    - apply FI_reach; [exact Hfuel|]. exists dates, s0, []. repeat split; try assumption. constructor.
    - unfold boot in Hb. exact (b_hung _ _ _ _ _ _ (BI_all fuel cfg tz srcs0 Hfuel dates 0 _ _ (BI_init fuel cfg tz srcs0 Hfuel) Hb)).
  Qed.

  (** start-up succeeds *)
  Lemma schedule_ok j date s : BI fuel cfg tz srcs0 j s -> (j < length srcs0)%nat ->
    exists s', schedule fuel cfg tz j date s = Some s'.
  Proof.
    intros [B1 B2 B3 B4 B5 B6 B7 B8] Hj. destruct (B8 j (le_n j)) as [_ Hj0].
    destruct (nth_error srcs0 j) as [es0|] eqn:E0; [|apply nth_error_None in E0; lia].
    destruct (Hall j es0 E0) as (st & e & tasks & Hb & Hf).
    assert (Hr : rel fuel cfg es0 [] es0) by (exists [], es0; split; [reflexivity|left; reflexivity]).
    destruct (rel_peeks _ _ _ _ _ _ _ _ date Hb Hf Hr) as (r & es2 & Hp).
    unfold schedule. cbn [w_srcs]. rewrite Hj0. unfold push_next. rewrite Hp.
    destruct r as [[dt c]|]; cbn [set_src w_hung]; rewrite B6; eexists; reflexivity.
  Qed.

  Lemma boot_ok dates : length dates = length srcs0 -> exists s, boot fuel cfg tz srcs0 dates = Some s.
  Proof.
    intros Hl. unfold boot.
    assert (H : forall ds j s, BI fuel cfg tz srcs0 j s -> (j + length ds <= length srcs0)%nat ->
              exists s', schedule_all fuel cfg tz j ds s = Some s').
    { induction ds as [|d ds IH]; intros j s B Hle; cbn [schedule_all]; [eexists; reflexivity|].
      cbn [length] in Hle. destruct (schedule_ok j d s B ltac:(lia)) as [s1 E]. rewrite E.
      apply IH; [eapply BI_schedule; eassumption|lia]. }
    apply (H dates 0%nat _ (BI_init fuel cfg tz srcs0 Hfuel)). cbn. lia.
  Qed.

  Lemma all_dispatched s k es0 st e tasks : sreach fuel cfg tz srcs0 s ->
    nth_error srcs0 k = Some es0 -> bounded_src cfg es0 st e tasks -> (window_days st e < fuel)%nat ->
    l_mode s = Checking -> l_stop s = false -> l_q s = [] ->
    emitted k (l_w s) = bstream st e tasks.
  Proof.
    intros Hr Hk Hb Hf Hm Hst Hq.
    destruct (emitted_prefix fuel cfg tz srcs0 Hfuel s k es0 Hr Hk) as (es & Hes & Hrel).
    destruct (empty_all_done fuel cfg tz srcs0 Hfuel s k es Hr Hm Hst Hq (nohang s Hr) Hes) as [Hset Hev].
    destruct (rel_bounded _ _ _ _ _ _ _ _ Hb Hf Hrel) as (Hle & Em & Hrest).
    destruct (Hrest [0]) as (es' & E). cbn [get_events length] in E.
    unfold get_next_event in E. rewrite (settled_gen cfg 0 fuel es Hset Hfuel), Hev in E.
    destruct (skipn (length (emitted k (l_w s))) (bstream st e tasks)) as [|x xs] eqn:Es; [|discriminate].
    rewrite Em. assert (Hlen : length (skipn (length (emitted k (l_w s))) (bstream st e tasks)) = 0%nat) by (rewrite Es; reflexivity).
    rewrite skipn_length in Hlen. apply firstn_all2. lia.
  Qed.
End S.

(** C04 *)
Lemma exactly_once fuel cfg tz srcs s k es0 st e tasks :
  sreach fuel cfg tz srcs s -> nth_error srcs k = Some es0 -> bounded_src cfg es0 st e tasks ->
  (window_days st e < fuel)%nat ->
  exists S es, stream_ok st (Some e) tasks (dt_date st) (dt_date e) S /\
    nth_error (w_srcs (l_w s)) k = Some es /\
    emitted k (l_w s) = firstn (length (emitted k (l_w s))) S /\
    (forall todays, exists es', get_events fuel cfg todays es =
       GOk (answers (length todays) (skipn (length (emitted k (l_w s))) S), es')).
Proof.
  intros Hr Hk Hb Hf. exists (bstream st e tasks).
  destruct (emitted_prefix fuel cfg tz srcs ltac:(lia) s k es0 Hr Hk) as (es & Hes & Hrel). exists es.
  destruct (rel_bounded _ _ _ _ _ _ _ _ Hb Hf Hrel) as (Hle & Em & Hrest).
  split; [apply stream_of_days|]. split; [exact Hes|]. split; [exact Em|exact Hrest].
Qed.

Lemma complete fuel cfg tz srcs s k es0 st e tasks :
  (forall es, In es srcs -> exists st' e' tasks', bounded_src cfg es st' e' tasks' /\ (window_days st' e' < fuel)%nat) ->
  sreach fuel cfg tz srcs s -> nth_error srcs k = Some es0 -> bounded_src cfg es0 st e tasks ->
  l_mode s = Checking -> l_stop s = false -> l_q s = [] ->
  stream_ok st (Some e) tasks (dt_date st) (dt_date e) (emitted k (l_w s)).
Proof.
  intros Hall Hr Hk Hb Hm Hst Hq.
  assert (Hf : (window_days st e < fuel)%nat).
  { destruct (Hall es0 (nth_error_In _ _ Hk)) as (st' & e' & tasks' & (H1 & H2 & _) & Hf).
    destruct Hb as (H3 & H4 & _). rewrite H3 in H1. rewrite H4 in H2. injection H1 as <-. injection H2 as <-. exact Hf. }
  rewrite (all_dispatched fuel cfg tz srcs ltac:(lia)) with (es0 := es0) (st := st) (e := e) (tasks := tasks); try assumption.
  - apply stream_of_days.
  - intros j es Hj. apply Hall. eapply nth_error_In; exact Hj.
Qed.

Lemma boot_starts fuel cfg tz srcs dates :
  (forall es, In es srcs -> exists st' e' tasks', bounded_src cfg es st' e' tasks' /\ (window_days st' e' < fuel)%nat) ->
  length dates = length srcs -> exists s, boot fuel cfg tz srcs dates = Some s.
Proof.
  intros Hall Hl. destruct srcs as [|es0 srcs'].
  - destruct dates; [|discriminate]. eexists; reflexivity.
  - destruct (Hall es0 (or_introl eq_refl)) as (? & ? & ? & _ & Hf).
    apply boot_ok; [lia| |exact Hl]. intros j es Hj. apply Hall. eapply nth_error_In; exact Hj.
Qed.

Lemma complete_loop_ended fuel cfg tz srcs s s' now ex :
  (forall es, In es srcs -> exists st' e' tasks', bounded_src cfg es st' e' tasks' /\ (window_days st' e' < fuel)%nat) ->
  sreach fuel cfg tz srcs s -> l_mode s = Checking -> l_stop s = false -> l_q s = [] ->
  l_step (sched_handler fuel cfg tz) s (LTurn now ex) = Some s' -> l_stop s' = true /\ l_w s' = l_w s.
Proof.
  intros _ _ Hm Hst Hq H. unfold l_step in H. rewrite Hm in H. injection H as <-. unfold check_turn. rewrite Hst, Hq.
  cbn. unfold leave; cbn. split; reflexivity.
Qed.

(** C03 *)
Lemma ms_lt_whole tz a b : tz mod US = 0 -> a mod US = 0 -> b mod US = 0 ->
  (dt_to_milliseconds tz a < dt_to_milliseconds tz b <-> a < b) /\
  (dt_to_milliseconds tz a = dt_to_milliseconds tz b <-> a = b).
Proof.
  intros Ht Ha Hb.
  destruct (ms_whole tz a Ht Ha) as [Ea Ra]. destruct (ms_whole tz b Ht Hb) as [Eb Rb].
  unfold milliseconds_to_dt in Ra, Rb. lia.
Qed.

Lemma before_le_ev tz a b : tz mod US = 0 -> fst a mod US = 0 -> fst b mod US = 0 ->
  before a b <-> le_ev tz a b.
Proof.
  intros Ht Ha Hb. unfold before, le_ev, le_key. destruct (ms_lt_whole tz _ _ Ht Ha Hb) as [H1 H2]. rewrite H1, H2. reflexivity.
Qed.

Lemma StronglySorted_mono {A} (R Q : A -> A -> Prop) l :
  (forall a b, In a l -> In b l -> R a b -> Q a b) -> StronglySorted R l -> StronglySorted Q l.
Proof.
  induction l as [|x l IH]; intros H Hs; [constructor|]. inversion Hs as [|? ? Hs' Hf]; subst. constructor.
  - apply IH; [|exact Hs']. intros a b Ha Hb. apply H; right; assumption.
  - apply Forall_forall. intros y Hy. rewrite Forall_forall in Hf. apply H; [left; reflexivity|right; exact Hy|apply Hf, Hy].
Qed.

Lemma dispatch_order fuel cfg tz srcs s :
  (0 < fuel)%nat -> sreach fuel cfg tz srcs s -> tz mod US = 0 ->
  (forall k e, In (k, e) (w_emits (l_w s)) -> fst e mod US = 0) ->
  (forall k, StronglySorted before (emitted k (l_w s))) ->
  StronglySorted before (map snd (w_emits (l_w s))).
Proof.
  intros Hf Hr Ht Hw Hs.
  assert (Hwe : forall e, In e (map snd (w_emits (l_w s))) -> fst e mod US = 0).
  { intros e He. apply in_map_iff in He. destruct He as ([k e'] & <- & He). apply (Hw k). exact He. }
  eapply StronglySorted_mono; [|apply (dispatch_sorted fuel cfg tz srcs Hf s Hr)].
  - intros a b Ha Hb. apply before_le_ev; auto.
  - intros k. eapply StronglySorted_mono; [|apply Hs].
    assert (Hin : forall e, In e (emitted k (l_w s)) -> fst e mod US = 0).
    { intros e He. apply Hwe. unfold emitted in He. apply in_map_iff in He. destruct He as (x & <- & He).
      apply filter_In in He. apply in_map. apply He. }
    intros a b Ha Hb. apply before_le_ev; auto.
Qed.

Lemma stream_elem st en tasks lo hi S x : stream_ok st en tasks lo hi S -> In x S ->
  exists d t, In t tasks /\ x = (d * DAY + fst t, snd t).
Proof.
  intros (days & ls & _ & Hf & ->) Hin. apply in_concat in Hin. destruct Hin as (l & Hl & Hx).
  induction Hf as [|d l0 days ls Hd Hf IH]; [destruct Hl|]. destruct Hl as [->|Hl]; [|apply IH; exact Hl].
  destruct Hd as [Hp _]. apply (Permutation_in _ Hp) in Hx. unfold day_instants in Hx. apply filter_In in Hx. destruct Hx as [Hx _].
  apply in_map_iff in Hx. destruct Hx as (t & <- & Ht). exists d, t. split; [exact Ht|reflexivity].
Qed.

Lemma StronglySorted_app_intro {A} (R : A -> A -> Prop) l1 l2 :
  StronglySorted R l1 -> StronglySorted R l2 -> (forall a b, In a l1 -> In b l2 -> R a b) -> StronglySorted R (l1 ++ l2).
Proof.
  induction 1 as [|x l Hs IH Hf]; intros H2 Hx; cbn [app]; [exact H2|]. constructor.
  - apply IH; [exact H2|]. intros a b Ha Hb. apply Hx; [right; exact Ha|exact Hb].
  - apply Forall_app. split; [exact Hf|]. apply Forall_forall. intros b Hb. apply Hx; [left; reflexivity|exact Hb].
Qed.

Lemma stream_sorted st en tasks lo hi S : plain_tasks tasks -> stream_ok st en tasks lo hi S -> StronglySorted before S.
Proof.
  intros [p Hp] (days & ls & [_ Hss] & Hf & ->). rewrite Forall_forall in Hp.
  assert (Hel : forall d l x, day_ok st en tasks d l -> In x l -> exists t, In t tasks /\ x = (d * DAY + fst t, snd t)).
  { intros d l x [Hpm _] Hx. apply (Permutation_in _ Hpm) in Hx. unfold day_instants in Hx. apply filter_In in Hx. destruct Hx as [Hx _].
    apply in_map_iff in Hx. destruct Hx as (t & <- & Ht). exists t. split; [exact Ht|reflexivity]. }
  induction Hf as [|d l days ls Hd Hf IH]; [constructor|]. cbn [concat]. inversion Hss as [|? ? Hs' Hlt]; subst.
  apply StronglySorted_app_intro; [|apply IH; exact Hs'|].
  - destruct Hd as (Hpm & Hs & Hst). eapply StronglySorted_mono; [|exact Hs].
    intros a b Ha Hb Hle. cbn in Hle.
    destruct (Hel d l a (conj Hpm (conj Hs Hst)) Ha) as (ta & Hta & ->).
    destruct (Hel d l b (conj Hpm (conj Hs Hst)) Hb) as (tb & Htb & ->).
    destruct (Hp _ Hta) as (_ & _ & E1). destruct (Hp _ Htb) as (_ & _ & E2). unfold before. cbn [fst snd] in *. lia.
  - intros a b Ha Hb. destruct (Hel d l a Hd Ha) as (ta & Hta & ->).
    apply in_concat in Hb. destruct Hb as (lb & Hlb & Hb).
    assert (Hdb : exists d', In d' days /\ day_ok st en tasks d' lb).
    { clear - Hf Hlb. induction Hf as [|d l days ls Hd Hf IH]; [destruct Hlb|]. destruct Hlb as [->|Hlb].
      - exists d. split; [left; reflexivity|exact Hd].
      - destruct (IH Hlb) as (d' & H1 & H2). exists d'. split; [right; exact H1|exact H2]. }
    destruct Hdb as (d' & Hd' & Hok'). destruct (Hel d' lb b Hok' Hb) as (tb & Htb & ->).
    destruct (Hp _ Hta) as (Ra & _). destruct (Hp _ Htb) as (Rb & _).
    rewrite Forall_forall in Hlt. pose proof (Hlt _ Hd'). left. cbn [fst]. unfold DAY in *. lia.
Qed.

Lemma firstn_sorted {A} (R : A -> A -> Prop) n l : StronglySorted R l -> StronglySorted R (firstn n l).
Proof. intros H. rewrite <- (firstn_skipn n l) in H. eapply StronglySorted_app_l; exact H. Qed.

Lemma in_firstn {A} n (l : list A) x : In x (firstn n l) -> In x l.
Proof. intros H. rewrite <- (firstn_skipn n l). apply in_or_app. left; exact H. Qed.

Lemma dispatch_order_bounded fuel cfg tz srcs s :
  (forall es, In es srcs -> exists st e tasks, bounded_src cfg es st e tasks /\ (window_days st e < fuel)%nat /\ plain_tasks tasks) ->
  (0 < fuel)%nat -> tz mod US = 0 -> sreach fuel cfg tz srcs s ->
  StronglySorted before (map snd (w_emits (l_w s))).
Proof.
  intros Hall Hf0 Ht Hr.
  assert (Hk : forall k es0, nth_error srcs k = Some es0 -> exists S st e tasks,
             stream_ok st (Some e) tasks (dt_date st) (dt_date e) S /\ plain_tasks tasks /\
             emitted k (l_w s) = firstn (length (emitted k (l_w s))) S).
  { intros k es0 Hk. destruct (Hall es0 (nth_error_In _ _ Hk)) as (st & e & tasks & Hb & Hf & Hp).
    destruct (exactly_once fuel cfg tz srcs s k es0 st e tasks Hr Hk Hb Hf) as (S & es & Hs & _ & Em & _).
    exists S, st, e, tasks. auto. }
  apply (dispatch_order fuel cfg tz srcs s Hf0 Hr Ht).
  - intros k e Hin. pose proof (emits_idx fuel cfg tz srcs Hf0 s Hr k e Hin) as Hlt.
    destruct (nth_error srcs k) as [es0|] eqn:E; [|apply nth_error_None in E; lia].
    destruct (Hk k es0 E) as (S & st & en & tasks & Hs & [p Hp] & Em).
    assert (He : In e (emitted k (l_w s))).
    { unfold emitted. apply in_map_iff. exists (k, e). split; [reflexivity|]. apply filter_In. split; [exact Hin|apply Nat.eqb_refl]. }
    rewrite Em in He. apply in_firstn in He. destruct (stream_elem _ _ _ _ _ _ _ Hs He) as (d & t & Ht' & ->).
    rewrite Forall_forall in Hp. destruct (Hp t Ht') as (_ & Hm & _). cbn [fst].
    rewrite <- Zplus_mod_idemp_r, Hm. rewrite Z.add_0_r. unfold DAY, US.
    replace (d * 86400000000) with (d * 86400 * 1000000) by lia. apply Z_mod_mult.
  - intros k. destruct (nth_error srcs k) as [es0|] eqn:E.
    + destruct (Hk k es0 E) as (S & st & en & tasks & Hs & Hp & Em). rewrite Em. apply firstn_sorted. eapply stream_sorted; eassumption.
    + assert (En : emitted k (l_w s) = []).
      { unfold emitted. destruct (filter _ (w_emits (l_w s))) as [|[k' e'] rest] eqn:Ef; [reflexivity|]. exfalso.
        assert (Hin : In (k', e') (filter (fun e => Nat.eqb (fst e) k) (w_emits (l_w s)))) by (rewrite Ef; left; reflexivity).
        apply filter_In in Hin. destruct Hin as [Hin Heq]. cbn in Heq. apply Nat.eqb_eq in Heq. subst k'.
        pose proof (emits_idx fuel cfg tz srcs Hf0 s Hr k e' Hin). apply nth_error_None in E. lia. }
      rewrite En. constructor.
Qed.

(** C08 *)
Lemma strategy_dt_ok fuel cfg tz srcs s m sid k :
  (0 < fuel)%nat -> sreach fuel cfg tz srcs s -> l_mode s = Running m -> m_cb m = CSched sid k ->
  exists dt c,
    (forall o s', l_step (sched_handler fuel cfg tz) s (LDone o) = Some s' ->
       w_emits (l_w s') = w_emits (l_w s) ++ [(k, (dt, c))]) /\
    (tz mod US = 0 -> dt mod US = 0 -> dt <> tz -> strategy_dt tz s = Some dt).
Proof.
  intros Hf Hr Hm Hcb. pose proof (FI_reach fuel cfg tz srcs Hf s Hr) as F.
  pose proof (f_SI _ _ _ _ _ F) as HSI. unfold msgs, hand in HSI. rewrite Hm in HSI.
  destruct (s_msg _ _ _ _ _ _ _ HSI m sid k (or_introl eq_refl) Hcb) as (Hreg & es & Hk & dt & c & rest & Hset & Hev & Hmt & Hmp).
  exists dt, c. split.
  - intros o s' Hstep. destruct (step_w _ _ _ _ Hstep) as [Ew|(m0 & o0 & Hm0 & Ho & Ew)].
    + exfalso. unfold l_step in Hstep. rewrite Hm in Hstep. injection Hstep as <-.
      destruct (sched_handler fuel cfg tz (m_cb m) o (l_w s)) as [[w' acts] x] eqn:Eh.
      destruct (finish_shape fuel cfg tz srcs s m o w' acts x F Hm Eh) as (_ & _ & _ & Ew' & _). rewrite Ew in Ew'. subst w'.
      rewrite Hcb in Eh. cbn [sched_handler] in Eh.
      destruct (SI_callback fuel cfg tz srcs Hf _ _ _ _ _ _ _ _ _ _ HSI Hcb Eh) as (_ & (dt' & c' & Eem & _) & _).
      apply (f_equal (@length _)) in Eem. rewrite app_length in Eem. cbn in Eem. lia.
    + rewrite Hm in Hm0. injection Hm0 as <-. injection Ho as <-. rewrite Ew, Hcb. cbn [sched_handler].
      unfold sched_callback. rewrite Hreg, Hk. cbn [negb].
      rewrite (settled_get fuel cfg Hf (o_date o) es (dt, c) rest Hset Hev).
      destruct (o_exn o); [reflexivity|]. unfold push_next.
      destruct (peek_next_event fuel cfg (o_date2 o) (es_drop_first es)) as [[[[dt2 c2]|] es2]|y|]; reflexivity.
  - intros Ht Hd Hne. unfold strategy_dt. pose proof (i_running _ (f_inv _ _ _ _ _ F) m Hm) as Est. destruct Est as [Est _]. rewrite Est, Hmt.
    destruct (ms_whole tz dt Ht Hd) as [E1 E2]. rewrite E2.
    destruct (Z.eqb_spec (dt_to_milliseconds tz dt) 0) as [E0|]; [|reflexivity].
    exfalso. apply Hne. rewrite <- E2, E0. unfold milliseconds_to_dt. lia.
Qed.

(** witnesses: market period opening at 9:30:00.5, tasks at "open" and 9:30:01 *)
Definition cfg_sub : escfg := ESCfg false 365 [(34200 * US + 999000, 41400 * US)].
Definition srcs_sub : list esrc :=
  [src1 (lit "open") (10 * DAY) (Some (11 * DAY - 1)); src1 (lit "9:30:01") (10 * DAY) (Some (11 * DAY - 1))].
Definition out0 : sout := SOut 10 10 [] None.
Definition late : Z := 11 * DAY / 1000.

Definition run_sub (ls : list (label scb sout)) : option (lstate scb sworld) :=
  match boot 10 cfg_sub 0 srcs_sub [10; 10] with
  | Some s0 => l_exec (sched_handler 10 cfg_sub 0) s0 ls
  | None => None
  end.

Lemma run_sub_reach ls s : Forall ok_label ls -> run_sub ls = Some s -> sreach 10 cfg_sub 0 srcs_sub s.
Proof.
  intros Hok H. unfold run_sub in H. destruct (boot 10 cfg_sub 0 srcs_sub [10; 10]) as [s0|] eqn:E; [|discriminate].
  exists [10; 10], s0, ls. repeat split; assumption.
Qed.

Definition order_check : bool :=
  match run_sub [LAsync; LTurn late false; LDone out0; LTurn late false; LDone out0] with
  | Some s => match w_emits (l_w s) with
              | [(1%nat, (b, _)); (0%nat, (a, _))] => (a =? 10 * DAY + 34200 * US + 999000) && (b =? 10 * DAY + 34201 * US)
              | _ => false
              end
  | None => false
  end.

Lemma order_check_true : order_check = true.
Proof. vm_compute. reflexivity. Qed.

Lemma order_witness :
  exists fuel cfg tz srcs s, (0 < fuel)%nat /\ tz mod US = 0 /\ sreach fuel cfg tz srcs s /\
    (forall k, StronglySorted before (emitted k (l_w s))) /\
    ~ StronglySorted before (map snd (w_emits (l_w s))).
Proof.
  pose proof order_check_true as H. unfold order_check in H.
  destruct (run_sub [LAsync; LTurn late false; LDone out0; LTurn late false; LDone out0]) as [s|] eqn:E; [|discriminate].
  apply run_sub_reach in E; [|repeat constructor].
  exists 10%nat, cfg_sub, 0, srcs_sub, s. split; [lia|]. split; [reflexivity|]. split; [exact E|]. clear E.
  unfold emitted. destruct (w_emits (l_w s)) as [|[[|[|]] [b cb]] [|[[|] [a ca]] [|]]]; try discriminate.
  apply andb_prop in H. destruct H as [Ha Hb]. apply Z.eqb_eq in Ha, Hb. subst a b. split.
  - intros k. cbn [filter fst]. destruct (Nat.eqb 1 k) eqn:E1; destruct (Nat.eqb 0 k) eqn:E0; cbn [map snd]; try (repeat constructor).
    apply Nat.eqb_eq in E1, E0. congruence.
  - cbn [map snd]. intros Hs. inversion Hs as [|? ? _ Hf]; subst. inversion Hf as [|? ? Hb _]; subst. unfold before in Hb. cbn [fst] in Hb. lia.
Qed.

Definition sdt_check : bool :=
  match run_sub [LAsync; LTurn late false; LDone out0; LTurn late false] with
  | Some s => match l_mode s, strategy_dt 0 s with
              | Running m, Some d =>
                  match m_cb m, l_step (sched_handler 10 cfg_sub 0) s (LDone out0) with
                  | CSched 1 0%nat, Some s' =>
                      match w_emits (l_w s') with
                      | [_; (0%nat, (a, _))] => (a =? 10 * DAY + 34200 * US + 999000) && (d =? a + 999000)
                      | _ => false
                      end
                  | _, _ => false
                  end
              | _, _ => false
              end
  | None => false
  end.

Lemma sdt_check_true : sdt_check = true.
Proof. vm_compute. reflexivity. Qed.

Lemma strategy_dt_witness :
  exists fuel cfg tz srcs s m sid k s' e0 dt c,
    sreach fuel cfg tz srcs s /\ l_mode s = Running m /\ m_cb m = CSched sid k /\
    l_step (sched_handler fuel cfg tz) s (LDone out0) = Some s' /\
    w_emits (l_w s') = [e0; (k, (dt, c))] /\ strategy_dt tz s = Some (dt + 999000).
Proof.
  pose proof sdt_check_true as H. unfold sdt_check in H.
  destruct (run_sub [LAsync; LTurn late false; LDone out0; LTurn late false]) as [s|] eqn:E; [|discriminate].
  apply run_sub_reach in E; [|repeat constructor].
  destruct (l_mode s) as [| |m|m|r] eqn:Hm; try discriminate.
  destruct (strategy_dt 0 s) as [d|] eqn:Hd; [|discriminate].
  destruct (m_cb m) as [[|[]|] [|]|] eqn:Hcb; try discriminate.
  destruct (l_step (sched_handler 10 cfg_sub 0) s (LDone out0)) as [s'|] eqn:Hs; [|discriminate].
  destruct (w_emits (l_w s')) as [|e0 [|[[|] [a c]] [|]]] eqn:He; try discriminate.
  apply andb_prop in H. destruct H as [Ha Hb]. apply Z.eqb_eq in Hb.
  exists 10%nat, cfg_sub, 0, srcs_sub, s, m, 1, 0%nat, s', e0, a, c. repeat split; try assumption. congruence.
Qed.
