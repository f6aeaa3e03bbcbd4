(** Lemmas on the event loop with errors that leave check_queue (C128). *)
From Coq Require Import Permutation.
From Verif Require Import PyBase PyStr MTime MTimeExpr MEventSource MQueue MLoop MSched MEscape
  SQueue LQueue LLoop LSched LSched2.
Open Scope Z_scope.

Section E.
  Context {C W O : Type}.
  Implicit Types s : lstate C W.

  (** what an escape spoils is the wake-up only: with a notification the state is as good
      as any *)
  Definition einv s : Prop := inv (set_async true s).

  Lemma inv_async s : inv s -> einv s.
  Proof.
    intros [Hh Hk Hl Hs Hn Hi Ha Hr Hu Hru Hre]. constructor; cbn; try assumption.
    - intros _ _ _. left. reflexivity.
    - intros m _. left. reflexivity.
  Qed.

  Lemma async_twice s : set_async true (set_async true s) = set_async true s.
  Proof. reflexivity. Qed.

  Lemma act_async a s : do_act a (set_async true s) = set_async true (do_act a s).
  Proof. destruct a; [reflexivity|]. cbn. unfold do_stop. cbn. destruct (l_stop s); reflexivity. Qed.
  Lemma acts_async acts : forall s,
    fold_left (fun st a => do_act a st) acts (set_async true s) =
    set_async true (fold_left (fun st a => do_act a st) acts s).
  Proof. induction acts as [|a acts IH]; intros s; cbn [fold_left]; [reflexivity|]. rewrite act_async. apply IH. Qed.

  Lemma leave_async s : leave (set_async true s) = set_async true (leave s).
  Proof. unfold leave. cbn. destruct (l_stop s); reflexivity. Qed.

  Lemma step_async (h : handler C W O) s l s' : l_step h s l = Some s' ->
    exists s'', l_step h (set_async true s) l = Some s'' /\ set_async true s'' = set_async true s'.
  Proof.
    intros H. unfold l_step in *.
    change (l_mode (set_async true s)) with (l_mode s).
    destruct l as [ | | | |now ex| |o|a| ]; destruct (l_mode s) as [| |m|m|r] eqn:Hm; try discriminate.
    - destruct (l_async s) eqn:Ea; [|discriminate]. injection H as <-. eexists. split; [reflexivity|]. reflexivity.
    - change (l_timer (set_async true s)) with (l_timer s). destruct (l_timer s); [|discriminate]. injection H as <-. eexists. split; [reflexivity|]. reflexivity.
    - change (l_sig (set_async true s)) with (l_sig s). destruct (l_sig s); [|discriminate]. injection H as <-. eexists. split; [reflexivity|].
      unfold do_stop. cbn. destruct (l_stop s); reflexivity.
    - injection H as <-. eexists. split; reflexivity.
    - injection H as <-. eexists. split; reflexivity.
    - injection H as <-. eexists. split; reflexivity.
    - injection H as <-. eexists. split; reflexivity.
    - injection H as <-. eexists. split; [reflexivity|]. unfold check_turn. cbn [set_async l_stop l_q].
      destruct (l_stop s) eqn:Es; [unfold leave; cbn; rewrite Es; reflexivity|].
      destruct (q_pop (l_q s)) as [[m'|e] q']; [|reflexivity].
      destruct (now <? m_time m'); [|reflexivity]. destruct ex; [|reflexivity].
      unfold do_stop, leave. cbn. rewrite Es. reflexivity.
    - injection H as <-. eexists. split; [reflexivity|]. unfold arm, push_msg, leave. cbn. destruct (l_stop s); reflexivity.
    - injection H as <-. eexists. split; [reflexivity|]. unfold finish. change (l_w (set_async true s)) with (l_w s).
      destruct (h (m_cb m) o (l_w s)) as [[w' acts] e].
      change (set_w w' (set_async true s)) with (set_async true (set_w w' s)).
      rewrite acts_async. destruct e; [|reflexivity]. unfold do_stop. cbn.
      destruct (l_stop _); reflexivity.
    - injection H as <-. eexists. split; [reflexivity|]. rewrite act_async. reflexivity.
    - injection H as <-. eexists. split; [reflexivity|]. rewrite act_async. reflexivity.
    - injection H as <-. eexists. split; [reflexivity|]. rewrite act_async. reflexivity.
    - injection H as <-. eexists. split; [reflexivity|]. rewrite act_async. reflexivity.
    - change (l_uvstop (set_async true s)) with (l_uvstop s). destruct (l_uvstop s); [|discriminate]. injection H as <-. eexists. split; reflexivity.
  Qed.

  Lemma escape_einv (h : handler C W O) m o s s' : einv s -> l_mode s = Running m -> escape h m o s = Some s' -> einv s'.
  Proof.
    intros Hinv Hm H. unfold escape in H. destruct (h (m_cb m) o (l_w s)) as [[w' acts] [x|]]; [|discriminate].
    injection H as <-.
    assert (Hw : inv (set_async true (set_w w' s))).
    { exact (inv_set_w w' _ Hinv). }
    destruct (inv_acts acts (set_async true (set_w w' s)) ltac:(intros r; cbn; rewrite Hm; discriminate) Hw) as (H1 & H2 & _). rewrite acts_async in H1, H2.
    set (s1 := fold_left _ acts _) in *. cbn in H2. rewrite Hm in H2.
    destruct H1 as [Hh Hk Hl Hs Hn Hi Ha Hr Hu Hru Hre]. unfold einv. constructor; cbn in *; try assumption; try discriminate.
    - unfold held, in_hand in *. cbn in *. rewrite H2 in Hs. exact Hs.
    - unfold held, in_hand in *. cbn in *. rewrite H2 in Hn. exact Hn.
    - intros _ _ _. left. reflexivity.
    - destruct Hr as [Hr|(e & _ & _ & _ & G4)]; [left; exact Hr|]. exfalso. apply (G4 m). exact H2.
  Qed.

  Lemma einv_step (h : handler C W O) s l s' : einv s -> e_step h s l = Some s' -> einv s'.
  Proof.
    intros Hinv H. destruct l as [l|o]; cbn [e_step] in H.
    - destruct (step_async h s l s' H) as (s'' & H1 & H2). unfold einv. rewrite <- H2. apply inv_async.
      eapply inv_step; [exact Hinv|exact H1].
    - destruct (l_mode s) eqn:Hm; try discriminate. eapply escape_einv; eassumption.
  Qed.

  Lemma einv_exec (h : handler C W O) ls : forall s s', einv s -> e_exec h s ls = Some s' -> einv s'.
  Proof.
    induction ls as [|l ls IH]; intros s s' Hinv H; cbn [e_exec] in H.
    - injection H as <-. exact Hinv.
    - destruct (e_step h s l) as [s1|] eqn:E; [|discriminate]. eapply IH; [eapply einv_step; eassumption|exact H].
  Qed.

  Lemma einv_heap s : einv s -> qinv (l_q s) /\ (forall k m, In (k, m) (l_q s) -> k = sort_key m).
  Proof. intros [Hh Hk _ _ _ _ _ _ _ _ _]. split; assumption. Qed.
End E.

Section P.
  Variables (fuel : nat) (cfg : escfg) (tz : Z).
  Notation h := (sched_handler fuel cfg tz).
  Implicit Types s : lstate scb sworld.

  (** the sources of pushed messages *)
  Definition psrc (a : act scb) : list nat :=
    match a with APush _ _ (CSched _ k) => [k] | _ => [] end.

  Lemma defers_plain l : flat_map psrc (map (fun p : Z * Z => APush (fst p) (snd p) COther) l) = [] /\
    Forall (fun a : act scb => a <> AStop) (map (fun p : Z * Z => APush (fst p) (snd p) COther) l).
  Proof. induction l as [|p l [H1 H2]]; cbn; split; auto. constructor; [discriminate|exact H2]. Qed.

  Lemma handler_shape cb o w w' acts x : h cb o w = (w', acts, x) ->
    Forall (fun a => a <> AStop) acts /\
    (flat_map psrc acts = [] \/ exists sid k, cb = CSched sid k /\ x = None /\ flat_map psrc acts = [k]) /\
    (w_emits w' = w_emits w \/ exists sid k e, cb = CSched sid k /\ w_emits w' = w_emits w ++ [(k, e)]).
  Proof.
    destruct (defers_plain (o_defer o)) as [D1 D2].
    destruct cb as [sid k|]; cbn [sched_handler].
    2:{ intros H. injection H as <- <- <-. split; [exact D2|]. split; left; [exact D1|reflexivity]. }
    unfold sched_callback. destruct (negb (dmem sid (w_reg w))).
    { intros H. injection H as <- <- <-. split; [constructor|]. split; left; reflexivity. }
    destruct (nth_error (w_srcs w) k) as [es|].
    2:{ intros H. injection H as <- <- <-. split; [constructor|]. split; left; reflexivity. }
    destruct (get_next_event fuel cfg (o_date o) es) as [[[e|] es1]|ex|].
    2,3,4: intros H; injection H as <- <- <-; (split; [constructor|]; split; left; reflexivity).
    destruct (o_exn o) as [xe|].
    { intros H. injection H as <- <- <-. split; [exact D2|]. split; [left; exact D1|].
      right. exists sid, k, e. split; reflexivity. }
    unfold push_next. destruct (peek_next_event fuel cfg (o_date2 o) es1) as [[[[dt c]|] es2]|ex|];
      intros H; injection H as <- <- <-.
    - split; [apply Forall_app; split; [exact D2|constructor; [discriminate|constructor]]|].
      rewrite flat_map_app, D1. split; right; [exists sid, k|exists sid, k, e]; repeat split; reflexivity.
    - rewrite app_nil_r. split; [exact D2|]. split; [left; exact D1|]. right. exists sid, k, e. split; reflexivity.
    - rewrite app_nil_r. split; [exact D2|]. split; [left; exact D1|]. right. exists sid, k, e. split; reflexivity.
    - rewrite app_nil_r. split; [exact D2|]. split; [left; exact D1|]. right. exists sid, k, e. split; reflexivity.
  Qed.

  Lemma srcs_app a b : srcs_of (a ++ b) = srcs_of a ++ srcs_of b.
  Proof. apply flat_map_app. Qed.

  Lemma srcs_pushed new acts : map (fun m => APush (m_time m) (m_prio m) (m_cb m)) new = acts ->
    srcs_of new = flat_map psrc acts.
  Proof.
    intros <-. induction new as [|m new IH]; [reflexivity|]. cbn [map flat_map psrc]. rewrite <- IH.
    unfold srcs_of. cbn [flat_map]. unfold src_of at 1. destruct (m_cb m); reflexivity.
  Qed.

  Lemma queued_async s b : queued (set_async b s) = queued s.
  Proof. reflexivity. Qed.

  (** the running callback has ended, one way or the other *)
  Lemma ended_srcs s m o w' acts x : einv s -> l_mode s = Running m -> h (m_cb m) o (l_w s) = (w', acts, x) ->
    Permutation (srcs_of (queued (fold_left (fun st a => do_act a st) acts (set_w w' s))))
                (flat_map psrc acts ++ srcs_of (queued s)) /\
    l_w (fold_left (fun st a => do_act a st) acts (set_w w' s)) = w'.
  Proof.
    intros Hinv Hm Hh. destruct (handler_shape _ _ _ _ _ _ Hh) as (Hf & _ & _).
    assert (Hw : inv (set_async true (set_w w' s))).
    { exact (inv_set_w w' _ Hinv). }
    destruct (do_push_msgs acts _ Hw ltac:(intros r; cbn; rewrite Hm; discriminate) Hf) as (new & En & Hp & _ & Ew & _).
    rewrite acts_async in Hp, Ew. split; [|exact Ew].
    rewrite queued_async in Hp. apply Permutation_srcs in Hp. rewrite Hp, srcs_app.
    apply Permutation_app; [|reflexivity]. rewrite <- (srcs_pushed new acts En). apply Permutation_srcs.
    symmetry. apply Permutation_rev.
  Qed.

  Definition ok_elabel (l : elabel scb sout) : Prop := match l with ELoop l => ok_label l | EEscape _ => True end.

  Lemma stop_msgs s : queued (do_stop s) = queued s /\ hand (do_stop s) = hand s /\ l_w (do_stop s) = l_w s.
  Proof. unfold do_stop. destruct (l_stop s); repeat split. Qed.

  (** [k] is not, or only once, among the sources with a message *)
  Lemma step_srcs s l s' : einv s -> ok_elabel l -> e_step h s l = Some s' ->
    (exists dropped, Permutation (srcs_of (msgs s)) (dropped ++ srcs_of (msgs s'))) /\
    (forall k, ~ In k (srcs_of (msgs s)) -> emitted k (l_w s') = emitted k (l_w s)).
  Proof.
    intros Hinv Hok H. destruct (einv_heap s Hinv) as [Hq Hk].
    assert (Same : forall t, msgs t = msgs s -> l_w t = l_w s ->
      (exists dropped, Permutation (srcs_of (msgs s)) (dropped ++ srcs_of (msgs t))) /\
      (forall k, ~ In k (srcs_of (msgs s)) -> emitted k (l_w t) = emitted k (l_w s))).
    { intros t Em Ew. rewrite Em, Ew. split; [exists []; reflexivity|reflexivity]. }
    assert (End : forall m o w' acts x t, l_mode s = Running m -> h (m_cb m) o (l_w s) = (w', acts, x) ->
      queued t = queued (fold_left (fun st a => do_act a st) acts (set_w w' s)) -> hand t = [] ->
      l_w t = w' ->
      (exists dropped, Permutation (srcs_of (msgs s)) (dropped ++ srcs_of (msgs t))) /\
      (forall k, ~ In k (srcs_of (msgs s)) -> emitted k (l_w t) = emitted k (l_w s))).
    { intros m o w' acts x t Hm Hh Et Eh Ew. destruct (ended_srcs s m o w' acts x Hinv Hm Hh) as [Hp _].
      destruct (handler_shape _ _ _ _ _ _ Hh) as (_ & Hs & He).
      unfold msgs. rewrite Eh, Et, Ew. cbn [app]. unfold hand. rewrite Hm. cbn [app].
      change (m :: queued s) with ([m] ++ queued s). rewrite srcs_app. split.
      - destruct Hs as [Hs|(sid & k & Hc & _ & Hs)].
        + exists (srcs_of [m]). apply Permutation_app_head. rewrite Hs in Hp. cbn [app] in Hp. symmetry. exact Hp.
        + exists []. rewrite Hs in Hp. rewrite Hp. cbn [app]. unfold srcs_of at 1. cbn [flat_map]. unfold src_of. rewrite Hc. reflexivity.
      - intros k Hn. destruct He as [He|(sid & j & e & Hc & He)]; unfold emitted; rewrite He; [reflexivity|].
        rewrite filter_app. cbn [filter fst]. destruct (Nat.eqb_spec j k) as [->|Hne]; [|rewrite app_nil_r; reflexivity].
        exfalso. apply Hn. apply in_or_app. left. unfold srcs_of. cbn [flat_map]. unfold src_of. rewrite Hc. left. reflexivity. }
    assert (Push : forall a, ok_label (@LOther scb sout a) ->
      (exists dropped, Permutation (srcs_of (msgs s)) (dropped ++ srcs_of (msgs (do_act a s)))) /\
      (forall k, ~ In k (srcs_of (msgs s)) -> emitted k (l_w (do_act a s)) = emitted k (l_w s))).
    { intros [t p cb|] Ha.
      - destruct cb as [sid k|]; [destruct Ha|].
        destruct (push_q_ok (l_q s) (Msg t p (l_seq s + 1) COther) Hq Hk) as (_ & _ & Hp).
        split; [|reflexivity]. exists []. cbn [app]. unfold msgs. rewrite !srcs_app.
        apply Permutation_app; [reflexivity|]. apply Permutation_srcs in Hp. symmetry. exact Hp.
      - destruct (stop_msgs s) as (E1 & E2 & E3). apply Same; [|exact E3].
        unfold msgs. cbn [do_act]. rewrite E1, E2. reflexivity. }
    destruct l as [l|o]; cbn [e_step ok_elabel] in *.
    2:{ destruct (l_mode s) eqn:Hm; try discriminate. unfold escape in H.
        destruct (h (m_cb m) o (l_w s)) as [[w' acts] [x|]] eqn:Hh; [|discriminate]. injection H as <-.
        destruct (ended_srcs s m o w' acts _ Hinv Hm Hh) as [_ Ew].
        apply (End m o w' acts (Some x)); auto. }
    unfold l_step in H.
    destruct l as [ | | | |now ex| |o|a| ]; destruct (l_mode s) as [| |m|m|r] eqn:Hm; try discriminate.
    - destruct (l_async s); [|discriminate]. injection H as <-. apply Same; [|reflexivity]. unfold msgs, hand. rewrite Hm. reflexivity.
    - destruct (l_timer s); [|discriminate]. injection H as <-. apply Same; [|reflexivity]. unfold msgs, hand. rewrite Hm. reflexivity.
    - destruct (l_sig s); [|discriminate]. injection H as <-. destruct (stop_msgs (set_sig false s)) as (E1 & E2 & E3).
      apply Same; [|exact E3]. unfold msgs. rewrite E1, E2. reflexivity.
    - injection H as <-. apply Same; reflexivity.
    - injection H as <-. apply Same; reflexivity.
    - injection H as <-. apply Same; reflexivity.
    - injection H as <-. apply Same; reflexivity.
    - injection H as <-. unfold check_turn. destruct (l_stop s) eqn:Es.
      { apply Same; unfold leave; rewrite Es; [|reflexivity]. unfold msgs, hand. rewrite Hm. reflexivity. }
      destruct (pop_q_ok (l_q s) Hq Hk) as [[Eq Ep]|(m & q' & Ep & _ & _ & Hp & _)]; rewrite Ep.
      { apply Same; unfold leave; cbn; [|reflexivity]. unfold msgs, hand. rewrite Hm. reflexivity. }
      assert (Hms : Permutation (srcs_of (msgs s)) (srcs_of [m] ++ srcs_of (map snd q'))).
      { unfold msgs, hand. rewrite Hm. cbn [app]. unfold queued. apply Permutation_srcs in Hp. rewrite Hp.
        change (m :: map snd q') with ([m] ++ map snd q'). rewrite srcs_app. reflexivity. }
      destruct (now <? m_time m); [destruct ex|].
      + split.
        * exists (srcs_of [m]). rewrite Hms. unfold do_stop, leave, msgs, hand, queued. cbn. rewrite Es. cbn. reflexivity.
        * intros k _. unfold do_stop, leave. cbn. rewrite Es. reflexivity.
      + split; [|reflexivity]. exists []. rewrite Hms. unfold msgs, hand, queued. cbn [app set_mode set_q l_mode l_q].
        change (m :: map snd q') with ([m] ++ map snd q'). rewrite srcs_app. reflexivity.
      + split; [|reflexivity]. exists []. rewrite Hms. unfold msgs, hand, queued. cbn [app set_mode set_q set_st add_log l_mode l_q].
        change (m :: map snd q') with ([m] ++ map snd q'). rewrite srcs_app. reflexivity.
    - injection H as <-. destruct (push_q_ok (l_q s) m Hq Hk) as (_ & _ & Hp).
      split; [|intros k _; unfold arm, push_msg, leave; cbn; destruct (l_stop s); reflexivity].
      exists []. cbn [app]. apply Permutation_srcs. unfold msgs, hand. rewrite Hm. cbn [app].
      unfold arm, push_msg, leave. cbn. destruct (l_stop s); cbn; unfold queued; cbn; symmetry; exact Hp.
    - injection H as <-. unfold finish. destruct (h (m_cb m) o (l_w s)) as [[w' acts] x] eqn:Hh.
      destruct (ended_srcs s m o w' acts _ Hinv Hm Hh) as [_ Ew].
      set (s1 := fold_left _ acts _) in *. destruct (stop_msgs (set_exc x (match x with Some e => add_raised e s1 | None => s1 end))) as (Q1 & Q2 & Q3).
      apply (End m o w' acts x); auto; fold s1; destruct x as [e|]; try reflexivity; try exact Ew.
      + exact Q1.
      + transitivity (l_w (do_stop (set_exc (Some e) (add_raised e s1)))); [reflexivity|]. rewrite Q3. exact Ew.
    - injection H as <-. apply Push, Hok.
    - injection H as <-. apply Push, Hok.
    - injection H as <-. apply Push, Hok.
    - injection H as <-. apply Push, Hok.
    - destruct (l_uvstop s); [|discriminate]. injection H as <-. apply Same; [|reflexivity]. unfold msgs, hand. rewrite Hm. reflexivity.
  Qed.

  Lemma exec_srcs ls : forall s s', einv s -> Forall ok_elabel ls -> e_exec h s ls = Some s' ->
    (exists dropped, Permutation (srcs_of (msgs s)) (dropped ++ srcs_of (msgs s'))) /\
    (forall k, ~ In k (srcs_of (msgs s)) -> emitted k (l_w s') = emitted k (l_w s)).
  Proof.
    induction ls as [|l ls IH]; intros s s' Hinv Hok H; cbn [e_exec] in H.
    - injection H as <-. split; [exists []; reflexivity|reflexivity].
    - inversion Hok as [|? ? Ho Hok']; subst. destruct (e_step h s l) as [s1|] eqn:E; [|discriminate].
      destruct (step_srcs s l s1 Hinv Ho E) as [(d1 & P1) E1].
      destruct (IH s1 s' (einv_step h s l s1 Hinv E) Hok' H) as [(d2 & P2) E2]. split.
      + exists (d1 ++ d2). rewrite P1, P2, app_assoc. reflexivity.
      + intros k Hn. rewrite E2; [apply E1; exact Hn|]. intros Hin. apply Hn. rewrite P1. apply in_or_app. right. exact Hin.
  Qed.
End P.
