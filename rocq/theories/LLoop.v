(** Invariants of the event loop model (C02, C05, C06, C07). *)
From Coq Require Import Permutation.
From Verif Require Import PyBase PyHeap MQueue SQueue LQueue MLoop.

Lemma NoDup_app_r {A} (a b : list A) : NoDup (a ++ b) -> NoDup b.
Proof. induction a as [|x a IH]; cbn; [auto|]. intros H; inversion H; auto. Qed.

Section L.
  Context {C W O : Type}.
  Implicit Types s : lstate C W.

  (** messages held by the loop: the queue plus the one in its hands *)
  Definition in_hand s : list (msg C) :=
    match l_mode s with Arming m => [m] | _ => [] end.
  Definition held s : list (msg C) := in_hand s ++ queued s.

  Definition wake s : Prop :=
    l_async s = true \/
    exists d, l_timer s = Some d /\ forall m, In m (queued s) -> (d <= m_time m)%Z.

  Record inv s : Prop := {
    i_heap : qinv (l_q s);
    i_keys : forall k m, In (k, m) (l_q s) -> k = sort_key m;
    i_log : forall m now, In (m, now) (l_log s) -> (m_time m <= now)%Z;
    i_seq : forall m, In m (held s) -> (m_seq m <= l_seq s)%Z;
    i_nodup : NoDup (map m_seq (held s));
    i_idle : l_mode s = Idle -> l_stop s = false -> queued s <> [] -> wake s;
    i_arming : forall m, l_mode s = Arming m ->
                 l_async s = true \/ forall m', In m' (queued s) -> (m_time m <= m_time m')%Z;
    i_raised : (l_raised s = [] /\ l_exc s = None) \/
               (exists e, l_raised s = [e] /\ l_exc s = Some e /\ l_stop s = true /\
                          forall m, l_mode s <> Running m);
    i_uvstop : l_uvstop s = true -> l_stop s = true;
    i_running : forall m, l_mode s = Running m -> l_st s = Some (m_time m) /\
                  exists l now, l_log s = l ++ [(m, now)];
    i_returned : forall r, l_mode s = Returned r -> r = l_exc s /\ l_stop s = true
  }.

  Lemma inv_init w : inv (@l_init C W w).
  Proof.
    constructor; cbn; try easy.
    - constructor.
    - left; split; reflexivity.
  Qed.

  Lemma push_q_ok (q : queue (msg C)) m : qinv q -> (forall k x, In (k, x) q -> k = sort_key x) ->
    qinv (q_push q m (sort_key m)) /\
    (forall k x, In (k, x) (q_push q m (sort_key m)) -> k = sort_key x) /\
    Permutation (map snd (q_push q m (sort_key m))) (m :: map snd q).
  Proof.
    intros Hq Hk. destruct (q_push_ok q m (sort_key m) Hq) as [H1 H2].
    split; [exact H1|]. split.
    - intros k x Hin. rewrite H2 in Hin. destruct Hin as [Heq|Hin]; [congruence|auto].
    - rewrite H2. reflexivity.
  Qed.

  Lemma pop_q_ok (q : queue (msg C)) : qinv q -> (forall k x, In (k, x) q -> k = sort_key x) ->
    (q = [] /\ q_pop q = (Err QueueEmptyError, [])) \/
    exists m q', q_pop q = (Ok m, q') /\ qinv q' /\
      (forall k x, In (k, x) q' -> k = sort_key x) /\
      Permutation (map snd q) (m :: map snd q') /\
      (forall m', In m' (map snd q) -> ~ key_lt (sort_key m') (sort_key m)).
  Proof.
    intros Hq Hk. destruct q as [|e q0] eqn:Eq; [left; split; reflexivity|right].
    rewrite <- Eq in *. destruct (q_pop_nonempty q Hq) as (k & m & q' & E & H1 & H2 & H3 & _); [congruence|].
    exists m, q'. split; [exact E|]. split; [exact H1|].
    assert (Hkm : k = sort_key m). { apply Hk. rewrite H2. left; reflexivity. }
    repeat split.
    - intros k' x Hin. apply Hk. rewrite H2. right; exact Hin.
    - rewrite H2. reflexivity.
    - intros m' Hin. apply in_map_iff in Hin. destruct Hin as ([k' x'] & Hs & Hin). cbn in Hs; subst x'.
      pose proof (H3 _ _ Hin) as Hmin. rewrite <- (Hk _ _ Hin), <- Hkm. exact Hmin.
  Qed.

  Lemma key_nlt_time (m m' : msg C) : ~ key_lt (sort_key m') (sort_key m) -> (m_time m <= m_time m')%Z.
  Proof. unfold key_lt, sort_key; cbn; lia. Qed.

  Lemma inv_do_stop s : inv s -> inv (do_stop s).
  Proof.
    intros [Hh Hk Hl Hs Hn Hi Ha Hr Hu Hru Hre]. unfold do_stop.
    destruct (l_stop s) eqn:Est; [constructor; try assumption; try congruence; intros; rewrite Est in *; auto|].
    constructor; cbn; try assumption; auto.
    - intros; discriminate.
    - destruct Hr as [[H1 H2]|(e & H1 & H2 & H3 & H4)]; [left; auto|congruence].
    - intros r Hr0. destruct (Hre r Hr0) as [H1 H2]. auto.
  Qed.

  Lemma inv_push_new s time prio cb : (forall r, l_mode s <> Returned r) -> inv s -> inv (do_act (APush time prio cb) s).
  Proof.
    intros Hret [Hh Hk Hl Hs Hn Hi Ha Hr Hu Hru Hre]. cbn [do_act new_msg].
    set (m := Msg time prio (l_seq s + 1) cb).
    destruct (push_q_ok (l_q s) m Hh Hk) as (H1 & H2 & H3).
    assert (Hheld : forall s', l_mode s' = l_mode s -> l_q s' = q_push (l_q s) m (sort_key m) ->
                    Permutation (held s') (m :: held s)).
    { intros s' Em Eq. unfold held, in_hand, queued. rewrite Em, Eq.
      rewrite H3. symmetry. apply Permutation_middle. }
    unfold push_msg. constructor; cbn [set_async set_q set_seq l_q l_seq l_async l_timer l_stop l_exc l_st l_uvstop l_sig l_mode l_w l_log l_raised]; try assumption.
    - intros m' Hin. rewrite Hheld in Hin by reflexivity. destruct Hin as [<-|Hin]; [cbn; lia|].
      specialize (Hs _ Hin). cbn. lia.
    - match goal with |- NoDup (map m_seq (held ?s')) =>
        apply (Permutation_NoDup (l := map m_seq (m :: held s)));
        [apply Permutation_map; symmetry; apply Hheld; reflexivity|] end.
      cbn [map]. constructor; [|exact Hn].
      intros Hin. apply in_map_iff in Hin. destruct Hin as (x & Hx & Hin). specialize (Hs _ Hin).
      cbn in Hx; lia.
    - intros; left; reflexivity.
    - intros; left; reflexivity.
  Qed.

  Lemma mode_do_act a s : l_mode (do_act a s) = l_mode s.
  Proof. destruct a; cbn; [reflexivity|]. unfold do_stop; destruct (l_stop s); reflexivity. Qed.
  Lemma log_do_act a s : l_log (do_act a s) = l_log s.
  Proof. destruct a; cbn; [reflexivity|]. unfold do_stop; destruct (l_stop s); reflexivity. Qed.
  Lemma st_do_act a s : l_st (do_act a s) = l_st s.
  Proof. destruct a; cbn; [reflexivity|]. unfold do_stop; destruct (l_stop s); reflexivity. Qed.
  Lemma stop_do_act a s : l_stop s = true -> l_stop (do_act a s) = true.
  Proof. destruct a; cbn; [auto|]. unfold do_stop; destruct (l_stop s) eqn:E; [auto|discriminate]. Qed.

  Lemma inv_do_act a s : (forall r, l_mode s <> Returned r) -> inv s -> inv (do_act a s).
  Proof. destruct a; [apply inv_push_new|intros _; apply inv_do_stop]. Qed.

  Lemma inv_acts acts : forall s, (forall r, l_mode s <> Returned r) -> inv s ->
    let s' := fold_left (fun st a => do_act a st) acts s in
    inv s' /\ l_mode s' = l_mode s /\ l_log s' = l_log s /\ l_st s' = l_st s /\ (l_stop s = true -> l_stop s' = true).
  Proof.
    induction acts as [|a acts IH]; intros s Hm Hi; cbn [fold_left]; [auto|].
    destruct (IH (do_act a s)) as (H1 & H2 & H3 & H4 & H5).
    - intros r; rewrite mode_do_act; apply Hm.
    - apply inv_do_act; assumption.
    - split; [exact H1|]. split; [rewrite H2; apply mode_do_act|].
      split; [rewrite H3; apply log_do_act|]. split; [rewrite H4; apply st_do_act|].
      intros Hs; apply H5, stop_do_act, Hs.
  Qed.

  (** leaving check_queue with the stop flag set, or with a wake-up outstanding *)
  Lemma inv_leave s : inv s -> (forall r, l_mode s <> Returned r) -> in_hand s = [] ->
    (l_stop s = false -> queued s <> [] -> wake s) -> inv (leave s).
  Proof.
    intros [Hh Hk Hl Hs Hn Hi Ha Hr Hu Hru Hre] Hm Hhand Hw. unfold leave.
    assert (Hheld : held s = queued s) by (unfold held; rewrite Hhand; reflexivity).
    destruct (l_stop s) eqn:Est; constructor; cbn; try assumption; try discriminate; try easy; try congruence.
    all: try (unfold held, in_hand; cbn; rewrite Hheld in Hs, Hn; first [exact Hs|exact Hn]).
    - destruct Hr as [Hr|(e & H1 & H2 & H3 & H4)]; [left; exact Hr|].
      right; exists e; repeat split; try assumption. discriminate.
    - intros _ _ Hq. apply Hw; auto.
    - destruct Hr as [Hr|(e & H1 & H2 & H3 & H4)]; [left; exact Hr|congruence].
    - intros Hu1; specialize (Hu Hu1); congruence.
  Qed.

  Lemma inv_weaken_mode s v : inv s -> l_mode s = Idle \/ (exists m, l_mode s = Running m) \/ l_mode s = Checking ->
    v = Checking -> inv (set_mode v s).
  Proof.
    intros [Hh Hk Hl Hs Hn Hi Ha Hr Hu Hru Hre] Hm ->.
    assert (Hhand : in_hand s = []) by (unfold in_hand; destruct Hm as [->|[[m ->]| ->]]; reflexivity).
    assert (Hheld : held s = queued s) by (unfold held; rewrite Hhand; reflexivity).
    constructor; cbn; try assumption; try discriminate.
    all: try (unfold held, in_hand; cbn; rewrite Hheld in Hs, Hn; first [exact Hs|exact Hn]).
    destruct Hr as [Hr|(e & H1 & H2 & H3 & H4)]; [left; exact Hr|].
    right; exists e; repeat split; try assumption. discriminate.
  Qed.

  Lemma inv_turn now ex s : inv s -> l_mode s = Checking -> inv (check_turn now ex s).
  Proof.
    intros Hinv Hm. unfold check_turn.
    assert (Hhand : in_hand s = []) by (unfold in_hand; rewrite Hm; reflexivity).
    destruct (l_stop s) eqn:Est.
    { apply inv_leave; [exact Hinv|congruence|exact Hhand|congruence]. }
    pose proof Hinv as [Hh Hk Hl Hs Hn Hi Ha Hr Hu Hru Hre].
    assert (Hheld : held s = queued s) by (unfold held; rewrite Hhand; reflexivity).
    destruct Hr as [[Hr1 Hr2]|(e & H1 & H2 & H3 & H4)]; [|congruence].
    assert (Huv : l_uvstop s = false) by (destruct (l_uvstop s); [specialize (Hu eq_refl); congruence|reflexivity]).
    destruct (pop_q_ok (l_q s) Hh Hk) as [[Eq Ep]|(m & q' & Ep & Hh' & Hk' & Hperm & Hmin)]; rewrite Ep.
    - apply inv_leave.
      + constructor; cbn; try assumption; try discriminate; try congruence; auto.
      + intros r; cbn; congruence.
      + unfold in_hand; cbn; rewrite Hm; reflexivity.
      + cbn; discriminate.
    - assert (Hmt : forall m', In m' (map snd q') -> (m_time m <= m_time m')%Z).
      { intros m' Hin. apply key_nlt_time, Hmin. rewrite Hperm; right; exact Hin. }
      assert (Hperm2 : Permutation (held s) (m :: map snd q')) by (rewrite Hheld; exact Hperm).
      assert (Hs' : forall m', In m' (m :: map snd q') -> (m_seq m' <= l_seq s)%Z).
      { intros m' Hin; apply Hs; rewrite Hperm2; exact Hin. }
      assert (Hn' : NoDup (map m_seq (m :: map snd q'))).
      { apply (Permutation_NoDup (l := map m_seq (held s))); [apply Permutation_map; exact Hperm2|exact Hn]. }
      assert (Hn'' : NoDup (map m_seq (map snd q'))) by (cbn [map] in Hn'; inversion Hn'; assumption).
      assert (Hpopped : inv (set_q q' s)).
      { constructor; cbn; try assumption; try discriminate; try congruence.
        - unfold held, in_hand, queued; cbn. rewrite Hm; cbn. intros m' Hin; apply Hs'; right; exact Hin.
        - unfold held, in_hand, queued; cbn. rewrite Hm; cbn. exact Hn''.
        - left; auto. }
      destruct (Z.ltb_spec now (m_time m)) as [Hlt|Hge].
      + destruct ex.
        * apply inv_leave.
          -- apply inv_do_stop; exact Hpopped.
          -- intros r. unfold do_stop; cbn. destruct (l_stop s); cbn; congruence.
          -- unfold in_hand, do_stop; cbn. destruct (l_stop s); cbn; rewrite Hm; reflexivity.
          -- unfold do_stop; cbn. rewrite Est. cbn. discriminate.
        * constructor; cbn; try assumption; try discriminate; try congruence.
          -- intros m0 Heq; injection Heq as <-. right. exact Hmt.
          -- left; auto.
      + constructor; cbn; try assumption; try discriminate; try congruence.
        * intros m0 now0 Hin. apply in_app_or in Hin. destruct Hin as [Hin|[Heq|[]]]; [eapply Hl; exact Hin|].
          injection Heq as <- <-; exact Hge.
        * intros m' Hin; apply Hs'; right; exact Hin.
        * left; auto.
        * intros m0 Heq; injection Heq as <-. split; [reflexivity|]. exists (l_log s), now; reflexivity.
  Qed.

  Lemma inv_arm m s : inv s -> l_mode s = Arming m -> inv (arm m s).
  Proof.
    intros [Hh Hk Hl Hs Hn Hi Ha Hr Hu Hru Hre] Hm. unfold arm, push_msg.
    destruct (push_q_ok (l_q s) m Hh Hk) as (H1 & H2 & H3).
    set (s1 := set_q _ _).
    assert (Hheld : held s = m :: queued s) by (unfold held, in_hand; rewrite Hm; reflexivity).
    assert (Hq1 : Permutation (queued s1) (held s)).
    { rewrite Hheld. unfold s1, queued; cbn. exact H3. }
    unfold leave. cbn [s1 set_q set_timer l_stop].
    assert (Hbase : forall u, (u = true -> l_stop s = true) -> inv (set_uvstop u (set_mode Idle s1))).
    { intros u Hus. constructor; cbn; try assumption; try discriminate; try congruence.
      - unfold held, in_hand; cbn. intros m' Hin. apply Hs. rewrite <- Hq1. exact Hin.
      - unfold held, in_hand; cbn. apply (Permutation_NoDup (l := map m_seq (held s))); [|exact Hn].
        apply Permutation_map. symmetry. exact Hq1.
      - intros _ _ _. unfold wake; cbn. destruct (Ha m Hm) as [Hasy|Hmin]; [left; exact Hasy|right].
        exists (m_time m). split; [reflexivity|]. intros m' Hin.
        assert (Hin' : In m' (held s)) by (rewrite <- Hq1; exact Hin).
        rewrite Hheld in Hin'. destruct Hin' as [<-|Hin']; [lia|apply Hmin; exact Hin'].
      - destruct Hr as [Hr|(e & G1 & G2 & G3 & G4)]; [left; exact Hr|].
        right; exists e; repeat split; try assumption. discriminate. }
    destruct (l_stop s) eqn:Est.
    - exact (Hbase true (fun _ => eq_refl)).
    - apply (Hbase (l_uvstop s)). intros Huv; specialize (Hu Huv); congruence.
  Qed.

  Lemma inv_finish h m o s : inv s -> l_mode s = Running m -> inv (@finish C W O h m o s).
  Proof.
    intros Hinv Hm. unfold finish. destruct (h (m_cb m) o (l_w s)) as [[w' acts] e].
    assert (Hw : inv (set_w w' s)).
    { destruct Hinv as [Hh Hk Hl Hs Hn Hi Ha Hr Hu Hru Hre]. constructor; cbn; try assumption. }
    destruct (inv_acts acts (set_w w' s)) as (H1 & H2 & H3 & H4 & H5); [cbn; congruence|exact Hw|].
    set (s1 := fold_left _ acts _) in *. cbn in H2. rewrite Hm in H2.
    destruct e as [x|]; [|apply inv_weaken_mode; [exact H1|right; left; exists m; exact H2|reflexivity]].
    destruct H1 as [Hh Hk Hl Hs Hn Hi Ha Hr Hu Hru Hre].
    assert (Hr' : l_raised s1 = [] /\ l_exc s1 = None).
    { destruct Hr as [Hr|(e0 & _ & _ & _ & G4)]; [exact Hr|]. exfalso; apply (G4 m); exact H2. }
    assert (Hheld : held s1 = queued s1) by (unfold held, in_hand; rewrite H2; reflexivity).
    unfold do_stop; cbn.
    destruct (l_stop s1) eqn:Est; cbn; constructor; cbn; try assumption; try discriminate.
    all: try (unfold held, in_hand; cbn; rewrite Hheld in Hs, Hn; first [exact Hs|exact Hn]).
    all: try (destruct Hr' as [Hr1 Hr2]; right; exists x; rewrite Hr1; repeat split; try assumption; discriminate).
    all: auto.
  Qed.

  Lemma inv_step h s l s' : inv s -> @l_step C W O h s l = Some s' -> inv s'.
  Proof.
    intros Hinv Hstep. unfold l_step in Hstep.
    destruct l as [ | | | |now ex| |o|a| ]; destruct (l_mode s) as [| |m|m|r] eqn:Hm; try discriminate.
    - destruct (l_async s) eqn:Ea; [|discriminate]. injection Hstep as <-.
      destruct Hinv as [Hh Hk Hl Hs Hn Hi Ha Hr Hu Hru Hre].
      assert (Hheld : held s = queued s) by (unfold held, in_hand; rewrite Hm; reflexivity).
      constructor; cbn; try assumption; try discriminate.
      all: try (unfold held, in_hand; cbn; rewrite Hheld in Hs, Hn; first [exact Hs|exact Hn]).
      destruct Hr as [Hr|(e & G1 & G2 & G3 & G4)]; [left; exact Hr|].
      right; exists e; repeat split; try assumption; discriminate.
    - destruct (l_timer s) eqn:Ea; [|discriminate]. injection Hstep as <-.
      destruct Hinv as [Hh Hk Hl Hs Hn Hi Ha Hr Hu Hru Hre].
      assert (Hheld : held s = queued s) by (unfold held, in_hand; rewrite Hm; reflexivity).
      constructor; cbn; try assumption; try discriminate.
      all: try (unfold held, in_hand; cbn; rewrite Hheld in Hs, Hn; first [exact Hs|exact Hn]).
      destruct Hr as [Hr|(e & G1 & G2 & G3 & G4)]; [left; exact Hr|].
      right; exists e; repeat split; try assumption; discriminate.
    - destruct (l_sig s) eqn:Ea; [|discriminate]. injection Hstep as <-.
      apply inv_do_stop. destruct Hinv as [Hh Hk Hl Hs Hn Hi Ha Hr Hu Hru Hre].
      constructor; cbn; try assumption.
    - injection Hstep as <-. destruct Hinv; constructor; cbn; assumption.
    - injection Hstep as <-. destruct Hinv; constructor; cbn; assumption.
    - injection Hstep as <-. destruct Hinv; constructor; cbn; assumption.
    - injection Hstep as <-. destruct Hinv; constructor; cbn; assumption.
    - injection Hstep as <-. apply inv_turn; assumption.
    - injection Hstep as <-. apply inv_arm; assumption.
    - injection Hstep as <-. apply inv_finish; assumption.
    - injection Hstep as <-. apply inv_do_act; [congruence|exact Hinv].
    - injection Hstep as <-. apply inv_do_act; [congruence|exact Hinv].
    - injection Hstep as <-. apply inv_do_act; [congruence|exact Hinv].
    - injection Hstep as <-. apply inv_do_act; [congruence|exact Hinv].
    - destruct (l_uvstop s) eqn:Eu; [|discriminate]. injection Hstep as <-.
      destruct Hinv as [Hh Hk Hl Hs Hn Hi Ha Hr Hu Hru Hre].
      assert (Hheld : held s = queued s) by (unfold held, in_hand; rewrite Hm; reflexivity).
      constructor; cbn; try assumption; try discriminate.
      all: try (unfold held, in_hand; cbn; rewrite Hheld in Hs, Hn; first [exact Hs|exact Hn]).
      + destruct Hr as [Hr|(e & G1 & G2 & G3 & G4)]; [left; exact Hr|].
        right; exists e; repeat split; try assumption; discriminate.
      + intros r Heq; injection Heq as <-. auto.
  Qed.

  Lemma inv_exec h ls : forall s s', inv s -> @l_exec C W O h s ls = Some s' -> inv s'.
  Proof.
    induction ls as [|l ls IH]; intros s s' Hinv Hex; cbn [l_exec] in Hex.
    - injection Hex as <-; exact Hinv.
    - destruct (l_step h s l) as [s1|] eqn:E; [|discriminate].
      eapply IH; [eapply inv_step; eassumption|exact Hex].
  Qed.

  Lemma inv_reachable h w s : @reachable C W O h w s -> inv s.
  Proof. intros [ls Hex]. eapply inv_exec; [apply inv_init|exact Hex]. Qed.

  (** C02 *)
  Lemma not_early h w s : @reachable C W O h w s ->
    forall m now, In (m, now) (l_log s) -> (m_time m <= now)%Z.
  Proof. intros Hr. apply i_log. eapply inv_reachable; exact Hr. Qed.

  (** two messages of the loop never have the same sort key (used by MQueue) *)
  Lemma keys_nodup h w s : @reachable C W O h w s -> NoDup (map fst (l_q s)).
  Proof.
    intros Hr. pose proof (inv_reachable h w s Hr) as [Hh Hk Hl Hs Hn _ _ _ _ _ _].
    unfold held in Hn. rewrite map_app in Hn. apply NoDup_app_r in Hn.
    unfold queued in Hn. rewrite map_map in Hn.
    assert (E : map (fun x => m_seq (snd x)) (l_q s) = map k_seq (map fst (l_q s))).
    { rewrite map_map. apply map_ext_in. intros [k m] Hin. cbn. rewrite (Hk _ _ Hin). reflexivity. }
    rewrite E in Hn. eapply NoDup_map_inv; exact Hn.
  Qed.

  (** C05 *)
  Lemma no_lost_wakeup h w s : @reachable C W O h w s ->
    l_mode s = Idle -> l_stop s = false -> queued s <> [] ->
    l_async s = true \/
    exists d, l_timer s = Some d /\ forall m, In m (queued s) -> (d <= m_time m)%Z.
  Proof. intros Hr. apply i_idle. eapply inv_reachable; exact Hr. Qed.

  (** when that wake-up is served and the clock has reached the earliest message,
      that message is the next callback *)
  Lemma wakeup_dispatches h w s l s1 now ex : @reachable C W O h w s ->
    l_mode s = Idle -> l_stop s = false ->
    (l = LAsync \/ l = LTimer) -> l_step h s l = Some s1 ->
    (exists m, In m (queued s) /\ (m_time m <= now)%Z) ->
    exists m s2, l_step h s1 (LTurn now ex) = Some s2 /\ l_mode s2 = Running m /\
      In m (queued s) /\ l_log s2 = l_log s ++ [(m, now)] /\
      (forall m', In m' (queued s) -> (m_time m <= m_time m')%Z).
  Proof.
    intros Hr Hm Hst Hl Hstep (m0 & Hin0 & Hle0).
    pose proof (inv_reachable h w s Hr) as Hinv.
    assert (H1 : l_mode s1 = Checking /\ l_q s1 = l_q s /\ l_stop s1 = false /\ l_log s1 = l_log s).
    { destruct Hl as [-> | ->]; cbn in Hstep; rewrite Hm in Hstep.
      - destruct (l_async s); [|discriminate]. injection Hstep as <-. cbn; auto.
      - destruct (l_timer s); [|discriminate]. injection Hstep as <-. cbn; auto. }
    destruct H1 as (Hm1 & Hq1 & Hs1 & Hl1).
    cbn [l_step]. rewrite Hm1. unfold check_turn. rewrite Hs1, Hq1.
    destruct (pop_q_ok (l_q s) (i_heap _ Hinv) (i_keys _ Hinv)) as [[Eq Ep]|(m & q' & Ep & _ & _ & Hperm & Hmin)].
    - unfold queued in Hin0. rewrite Eq in Hin0. destruct Hin0.
    - rewrite Ep.
      assert (Hall : forall m', In m' (queued s) -> (m_time m <= m_time m')%Z).
      { intros m' Hin; apply key_nlt_time, Hmin; exact Hin. }
      destruct (Z.ltb_spec now (m_time m)) as [Hlt|Hge].
      + specialize (Hall _ Hin0); lia.
      + eexists m, _. split; [reflexivity|]. cbn. rewrite Hl1.
        repeat split; try assumption.
        unfold queued; rewrite Hperm; left; reflexivity.
  Qed.

  (** C06 *)
  Lemma stopped_step h s l s' : @l_step C W O h s l = Some s' -> l_stop s = true ->
    l_stop s' = true /\ l_log s' = l_log s.
  Proof.
    intros Hstep Hst. unfold l_step in Hstep.
    assert (Hds : forall t : lstate C W, l_stop t = true -> do_stop t = t) by (intros t Ht; unfold do_stop; rewrite Ht; reflexivity).
    destruct l as [ | | | |now ex| |o|a| ]; destruct (l_mode s) as [| |m|m|r] eqn:Hm; try discriminate.
    all: try (destruct (l_async s); [|discriminate]).
    all: try (destruct (l_timer s); [|discriminate]).
    all: try (destruct (l_sig s); [|discriminate]).
    all: try (destruct (l_uvstop s); [|discriminate]).
    all: injection Hstep as <-.
    all: try (split; [exact Hst|reflexivity]).
    all: try (split; [apply stop_do_act; exact Hst|apply log_do_act]).
    - rewrite Hds by exact Hst. split; [exact Hst|reflexivity].
    - unfold check_turn. rewrite Hst. unfold leave. rewrite Hst. split; [exact Hst|reflexivity].
    - unfold arm, leave, push_msg. cbn. rewrite Hst. split; [exact Hst|reflexivity].
    - unfold finish. destruct (h (m_cb m) o (l_w s)) as [[w' acts] e].
      assert (Hacts : forall t : lstate C W, l_stop t = true ->
        l_stop (fold_left (fun st a => do_act a st) acts t) = true /\
        l_log (fold_left (fun st a => do_act a st) acts t) = l_log t).
      { induction acts as [|a acts IH]; intros t Ht; cbn [fold_left]; [auto|].
        destruct (IH (do_act a t)) as [G1 G2]; [apply stop_do_act; exact Ht|].
        split; [exact G1|]. rewrite G2. apply log_do_act. }
      destruct (Hacts (set_w w' s) Hst) as [G1 G2]. destruct e as [x|]; cbn.
      + rewrite Hds by exact G1. cbn. split; [exact G1|exact G2].
      + split; [exact G1|exact G2].
  Qed.

  Lemma stopped_exec h ls : forall s s', @l_exec C W O h s ls = Some s' -> l_stop s = true ->
    l_stop s' = true /\ l_log s' = l_log s.
  Proof.
    induction ls as [|l ls IH]; intros s s' Hex Hst; cbn [l_exec] in Hex.
    - injection Hex as <-; auto.
    - destruct (l_step h s l) as [s1|] eqn:E; [|discriminate].
      destruct (stopped_step _ _ _ _ E Hst) as [H1 H2]. destruct (IH _ _ Hex H1) as [H3 H4].
      split; [exact H3|congruence].
  Qed.

  Lemma run_result h w s r : @reachable C W O h w s -> l_mode s = Returned r -> r = hd_error (l_raised s).
  Proof.
    intros Hr Hm. pose proof (inv_reachable h w s Hr) as Hinv.
    destruct (i_returned _ Hinv r Hm) as [-> _].
    destruct (i_raised _ Hinv) as [[-> ->]|(e & -> & -> & _)]; reflexivity.
  Qed.

  (** an escaping exception stops the loop at once *)
  Lemma raise_stops h w s m o s' x w' acts : @reachable C W O h w s ->
    l_mode s = Running m -> h (m_cb m) o (l_w s) = (w', acts, Some x) ->
    l_step h s (LDone o) = Some s' ->
    l_stop s' = true /\ l_raised s' = [x] /\ l_exc s' = Some x.
  Proof.
    intros Hr Hm Hh Hstep. pose proof (inv_reachable h w s Hr) as Hinv.
    assert (Hr' : reachable h w s').
    { destruct Hr as [ls Hex]. exists (ls ++ [LDone o]).
      revert Hex. generalize (@l_init C W w). induction ls as [|l ls IH]; intros t Hex; cbn [app l_exec] in *.
      - injection Hex as ->. rewrite Hstep. reflexivity.
      - destruct (l_step h t l); [apply IH; exact Hex|discriminate]. }
    pose proof (inv_reachable h w s' Hr') as Hinv'.
    cbn in Hstep. rewrite Hm in Hstep. injection Hstep as <-.
    unfold finish in *. rewrite Hh in *. revert Hinv'. set (s1 := fold_left _ acts _). intros Hinv'.
    assert (Hex : l_exc (set_mode Checking (do_stop (set_exc (Some x) (add_raised x s1)))) = Some x).
    { unfold do_stop; cbn; destruct (l_stop s1); reflexivity. }
    destruct (i_raised _ Hinv') as [[G1 G2]|(e & G1 & G2 & G3 & _)].
    - congruence.
    - assert (e = x) by congruence. subst e. auto.
  Qed.

  (** every stop cause sets the stop flag *)
  Lemma signal_stops h s s' : @l_step C W O h s LSignal = Some s' -> l_stop s' = true.
  Proof.
    cbn. destruct (l_mode s); try discriminate. destruct (l_sig s); [|discriminate].
    intros Heq; injection Heq as <-. unfold do_stop; cbn. destruct (l_stop s) eqn:E; [exact E|reflexivity].
  Qed.
  Lemma empty_stops h s now ex s' : l_q s = [] -> @l_step C W O h s (LTurn now ex) = Some s' -> l_stop s' = true.
  Proof.
    intros Hq. cbn. destruct (l_mode s); try discriminate. intros Heq; injection Heq as <-.
    unfold check_turn, leave. destruct (l_stop s) eqn:E; [cbn; exact E|]. rewrite Hq. reflexivity.
  Qed.
End L.
