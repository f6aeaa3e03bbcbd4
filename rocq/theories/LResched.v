(** Lemmas about re-scheduling (C17). *)
From Verif Require Import PyBase PyStr MTime MTimeExpr MEventSource MQueue MLoop MSched MResched
  LSched LEventSource2.
Open Scope Z_scope.

Lemma gen_loop_cbs cfg today : forall fuel es es2, gen_loop fuel cfg today es = GOk es2 -> es_cbs es2 = es_cbs es.
Proof.
  induction fuel as [|f IH]; intros es es2; cbn [gen_loop]; [discriminate|].
  destruct (es_events es) as [|e evs]; [|intros H; injection H as <-; reflexivity].
  destruct (match es_days es with [] => get_days cfg today es | _ => Ok (es_days es, es_his es) end) as [[days his]|x]; [|discriminate].
  destruct days as [|d ds]; [intros H; injection H as <-; reflexivity|].
  destruct (add_daily_events cfg es d (es_daily es) []) as [evs|x]; [|discriminate].
  intros H. apply IH in H. exact H.
Qed.

Lemma gen_cbs cfg today fuel es es1 : gen_events fuel cfg today es = GOk es1 -> es_cbs es1 = es_cbs es.
Proof.
  unfold gen_events. destruct (reset_if_needed cfg today es) as [es0|] eqn:Er; [|discriminate].
  assert (E0 : es_cbs es0 = es_cbs es).
  { unfold reset_if_needed in Er. destruct (es_need es); [|injection Er as <-; reflexivity].
    destruct (get_days cfg today _) as [[days his]|]; [|discriminate]. cbn in Er. injection Er as <-. reflexivity. }
  destruct (es_events es0); [|intros H; injection H as <-; exact E0].
  destruct (gen_loop fuel cfg today es0) as [es2| |] eqn:Eg; try discriminate.
  intros H; injection H as <-. cbn. rewrite (gen_loop_cbs _ _ _ _ _ Eg). exact E0.
Qed.

Section S.
  Variables (fuel : nat) (cfg : escfg) (tz : Z).
  Implicit Types s : lstate scb sworld.

  Lemma schedule_cbs k date s s' es : schedule fuel cfg tz k date s = Some s' ->
    nth_error (w_srcs (l_w s)) k = Some es ->
    exists es', nth_error (w_srcs (l_w s')) k = Some es' /\ es_cbs es' = es_cbs es.
  Proof.
    intros Hs Hk. unfold schedule in Hs. cbn [w_srcs] in Hs. rewrite Hk in Hs.
    assert (Hlt : (k < length (w_srcs (l_w s)))%nat) by (apply nth_error_Some; congruence).
    unfold push_next in Hs. destruct (peek_next_event fuel cfg date es) as [[r es2]|x|] eqn:Ep; [|discriminate|cbn in Hs; discriminate].
    assert (Ec : es_cbs es2 = es_cbs es).
    { unfold peek_next_event in Ep. destruct (gen_events fuel cfg date es) as [es1| |] eqn:Eg; try discriminate.
      injection Ep as _ <-. eapply gen_cbs; exact Eg. }
    exists es2. split; [|exact Ec].
    destruct r as [[dt c]|]; cbn [w_hung set_src] in Hs; destruct (w_hung (l_w s)); try discriminate; injection Hs as <-; cbn;
      apply nth_lset_same; exact Hlt.
  Qed.

  Lemma fire_never_returns : forall n k i dates s es,
    nth_error (w_srcs (l_w s)) k = Some es -> (i < length (es_cbs es))%nat ->
    forall s', fire_changed fuel cfg tz n k i dates s <> RRet s'.
  Proof.
    induction n as [|n IH]; intros k i dates s es Hk Hi s'; cbn [fire_changed]; [discriminate|].
    rewrite Hk. destruct (nth_error (es_cbs es) i) as [sid|] eqn:Ei; [|apply nth_error_None in Ei; lia].
    destruct (schedule_cb fuel cfg tz k (dates i) (unschedule sid s)) as [s1|] eqn:E; [|discriminate].
    unfold schedule_cb in E. cbn [unschedule set_w l_w w_srcs] in E. rewrite Hk in E.
    assert (Hlt : (k < length (w_srcs (l_w s)))%nat) by (apply nth_error_Some; congruence).
    destruct (schedule_cbs _ _ _ _ (es_add_cb (w_sid (l_w s) + 1) es) E) as (es1 & Hk1 & Hc1).
    { cbn. apply nth_lset_same. exact Hlt. }
    apply (IH _ _ _ _ es1 Hk1). rewrite Hc1. cbn. rewrite app_length. cbn. lia.
  Qed.

  Lemma daily_never_returns n k c expr dates s es s' :
    nth_error (w_srcs (l_w s)) k = Some es -> es_cbs es <> [] ->
    daily fuel cfg tz n k c expr dates s <> RRet s'.
  Proof.
    intros Hk Hc. unfold daily. rewrite Hk.
    assert (Hlt : (k < length (w_srcs (l_w s)))%nat) by (apply nth_error_Some; congruence).
    eapply fire_never_returns; [cbn; apply nth_lset_same; exact Hlt|]. cbn. destruct (es_cbs es); [congruence|cbn; lia].
  Qed.

  Lemma scheduled_has_cb k date s s' : schedule_cb fuel cfg tz k date s = Some s' ->
    exists es, nth_error (w_srcs (l_w s')) k = Some es /\ es_cbs es <> [].
  Proof.
    unfold schedule_cb. destruct (nth_error (w_srcs (l_w s)) k) as [es|] eqn:Hk; [|discriminate]. intros Hs.
    assert (Hlt : (k < length (w_srcs (l_w s)))%nat) by (apply nth_error_Some; congruence).
    destruct (schedule_cbs _ _ _ _ (es_add_cb (w_sid (l_w s) + 1) es) Hs) as (es1 & Hk1 & Hc1).
    { cbn. apply nth_lset_same. exact Hlt. }
    exists es1. split; [exact Hk1|]. rewrite Hc1. cbn. destruct (es_cbs es); discriminate.
  Qed.

  Lemma daily_after_schedule k date s s' : schedule_cb fuel cfg tz k date s = Some s' ->
    forall n c expr dates s2, daily fuel cfg tz n k c expr dates s' <> RRet s2.
  Proof. intros Hs n c expr dates s2. destruct (scheduled_has_cb _ _ _ _ Hs) as (es & H1 & H2). eapply daily_never_returns; eassumption. Qed.

  Lemma daily_unscheduled n k c expr dates s es :
    nth_error (w_srcs (l_w s)) k = Some es -> es_cbs es = [] ->
    exists s', daily fuel cfg tz (S n) k c expr dates s = RRet s' /\ l_q s' = l_q s /\ w_reg (l_w s') = w_reg (l_w s) /\
      exists es', nth_error (w_srcs (l_w s')) k = Some es' /\ es_need es' = true /\ es_daily es' = es_daily es ++ [(expr, c)].
  Proof.
    intros Hk Hc. unfold daily. rewrite Hk.
    assert (Hlt : (k < length (w_srcs (l_w s)))%nat) by (apply nth_error_Some; congruence).
    cbn [fire_changed set_w l_w set_src w_srcs]. rewrite nth_lset_same by exact Hlt. cbn [es_add_daily es_cbs]. rewrite Hc. cbn [nth_error].
    eexists. split; [reflexivity|]. split; [reflexivity|]. split; [reflexivity|]. cbn.
    eexists. split; [apply nth_lset_same; exact Hlt|]. split; reflexivity.
  Qed.

  Lemma retired_inert sid k o (w : sworld) : dmem sid (w_reg w) = false ->
    sched_handler fuel cfg tz (CSched sid k) o w = (w, [], None).
  Proof. intros H. cbn [sched_handler]. unfold sched_callback. rewrite H. reflexivity. Qed.

  Lemma unschedule_gone sid s : NoDup (dkeys (w_reg (l_w s))) -> dmem sid (w_reg (l_w (unschedule sid s))) = false.
  Proof. intros H. unfold dmem. cbn. rewrite dget_dpop by exact H. rewrite eqb_refl. reflexivity. Qed.
End S.
