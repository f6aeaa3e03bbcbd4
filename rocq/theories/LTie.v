(** Lemmas for C61: events of two sources that fall on the same instants with the same
    priority are delivered in the order of the sources. *)
From Coq Require Import Permutation Sorted Lia.
From Verif Require Import PyBase PyStr MTime MTimeExpr MEventSource MQueue MLoop MSched SQueue LQueue LLoop LSched LEventSource2 LSched2 LSched3 LLive.
Open Scope Z_scope.

(** messages pushed later have larger sequence numbers *)
Lemma acts_seq {C W} (acts : list (act C)) : forall s : lstate C W,
  inv s -> (forall r, l_mode s <> Returned r) -> forall m,
  In m (queued (fold_left (fun st a => do_act a st) acts s)) ->
  In m (queued s) \/ (l_seq s < m_seq m /\ In (APush (m_time m) (m_prio m) (m_cb m)) acts).
Proof.
  induction acts as [|a acts IH]; intros s Hi Hm m; cbn [fold_left]; [auto|]. intros Hin.
  destruct (IH (do_act a s)) with (m := m) as [H|[H1 H2]]; [apply inv_do_act; assumption|intros r; rewrite mode_do_act; apply Hm|exact Hin| |].
  - destruct a as [t p cb|].
    + cbn [do_act new_msg] in H. unfold queued, push_msg in H. cbn [set_async set_q set_seq l_q] in H.
      destruct (push_q_ok (l_q s) (Msg t p (l_seq s + 1) cb) (i_heap _ Hi) (i_keys _ Hi)) as (_ & _ & G).
      apply (Permutation_in _ G) in H. destruct H as [<-|H]; [right; cbn; split; [lia|left; reflexivity]|left; exact H].
    + cbn [do_act] in H. left. unfold do_stop in H. destruct (l_stop s); exact H.
  - right. split; [|right; exact H2].
    destruct a as [t p cb|]; cbn [do_act] in H1; [cbn in H1; lia|]. unfold do_stop in H1. destruct (l_stop s); exact H1.
Qed.

Lemma hand_src_old {C W} (s : lstate C W) : inv s -> forall m, In m (queued s) -> m_seq m <= l_seq s.
Proof. intros Hi m Hm. apply (i_seq _ Hi). unfold held. apply in_or_app. right; exact Hm. Qed.

Section Tie.
  Variables (fuel : nat) (cfg : escfg) (tz : Z) (srcs1 : list esrc) (Ss : nat -> list (Z * ecls)).
  Hypothesis Hfuel : (0 < fuel)%nat.
  Hypothesis Hgood : forall k es, nth_error srcs1 k = Some es -> good fuel cfg es (Ss k).
  Variables (i j : nat).
  Hypothesis Hij : (i < j)%nat.
  Hypothesis Hj : (j < length srcs1)%nat.
  Definition ekey (e : Z * ecls) : Z * Z := (dt_to_milliseconds tz (fst e), ec_prio (snd e)).
  Hypothesis Hkeys : map ekey (Ss i) = map ekey (Ss j).
  Implicit Types w : sworld.
  Implicit Types s : lstate scb sworld.
  Notation h := (sched_handler fuel cfg tz).
  Notation FI := (FI fuel cfg tz srcs1).
  Notation cnt k s := (length (emitted k (l_w s))).
  Notation N := (length (Ss j)).

  Lemma len_eq : length (Ss i) = N.
  Proof. rewrite <- (map_length ekey (Ss i)), Hkeys. apply map_length. Qed.

  Definition apart (ms : list (msg scb)) : Prop := forall mi mj, In mi ms -> In mj ms ->
    src_of mi = Some i -> src_of mj = Some j -> m_seq mi < m_seq mj.

  Record TI s : Prop := {
    t_le : (cnt j s < N)%nat -> (cnt j s <= cnt i s)%nat;
    t_seq : (cnt j s < N)%nat -> cnt i s = cnt j s -> apart (msgs s);
    t_all : (N <= cnt j s)%nat -> (N <= cnt i s)%nat;
    t_run : forall m, l_mode s = Running m -> src_of m = Some j -> (cnt j s < N)%nat -> (cnt j s < cnt i s)%nat
  }.

  Lemma TI_keep s s' : TI s -> l_w s' = l_w s -> (forall m, In m (msgs s') -> src_of m <> None -> In m (msgs s)) ->
    (forall m, l_mode s' = Running m -> src_of m <> None -> l_mode s = Running m) -> TI s'.
  Proof.
    intros [T1 T2 T3 T4] Ew Hm Hr. constructor; rewrite Ew; try assumption.
    - intros H1 H2 mi mj Hi Hj' Si Sj. apply (T2 H1 H2); [apply Hm; [exact Hi|congruence]|apply Hm; [exact Hj'|congruence]|exact Si|exact Sj].
    - intros m Hm' Hs. apply (T4 m); [apply Hr; [exact Hm'|congruence]|exact Hs].
  Qed.

  (** the message of a source still inside its stretch carries the next key of it *)
  Lemma msg_key s k m y : FI s -> In m (msgs s) -> src_of m = Some k -> nth_error (Ss k) (cnt k s) = Some y ->
    (m_time m, m_prio m) = ekey y.
  Proof.
    intros F Hin Hs Hy. pose proof (f_SI _ _ _ _ _ F) as [G1 G2 G3 G4 G5]. unfold src_of in Hs.
    destruct (m_cb m) as [sid k0|] eqn:Hcb; [|discriminate]. injection Hs as ->.
    destruct (G3 m sid k Hin Hcb) as (_ & es & Ek & dt & c & rest & Hset & Hev & Hmt & Hmp).
    assert (Hk : (k < length srcs1)%nat) by (rewrite <- G1; apply nth_error_Some; congruence).
    destruct (nth_error srcs1 k) as [es0|] eqn:Ek0; [|apply nth_error_None in Ek0; lia].
    destruct (rel_head fuel cfg es0 (Ss k) _ es y Hfuel (Hgood k es0 Ek0) (G2 k es0 es Ek0 Ek) Hy Hset) as (rest' & Hev').
    rewrite Hev in Hev'. injection Hev' as <- _. unfold ekey. cbn [fst snd]. congruence.
  Qed.

  Lemma msg_there s k y : FI s -> l_stop s = false -> w_hung (l_w s) = false -> (k < length srcs1)%nat ->
    nth_error (Ss k) (cnt k s) = Some y -> exists m, In m (msgs s) /\ src_of m = Some k.
  Proof.
    intros F Est Hh Hk Hy. pose proof (f_SI _ _ _ _ _ F) as [G1 G2 G3 G4 G5].
    destruct (nth_error (w_srcs (l_w s)) k) as [es|] eqn:Ek; [|apply nth_error_None in Ek; lia].
    destruct (nth_error srcs1 k) as [es0|] eqn:Ek0; [|apply nth_error_None in Ek0; lia].
    destruct (G5 Est Hh k es Ek) as [Hin|[Hset Hev]]; [apply srcs_of_In; exact Hin|].
    destruct (rel_head fuel cfg es0 (Ss k) _ es y Hfuel (Hgood k es0 Ek0) (G2 k es0 es Ek0 Ek) Hy Hset) as (rest' & Hev'). congruence.
  Qed.

  Lemma TI_turn now ex s : FI s -> TI s -> l_mode s = Checking -> w_hung (l_w s) = false -> TI (check_turn now ex s).
  Proof.
    intros F T Hm Hh.
    assert (Hw : l_w (check_turn now ex s) = l_w s).
    { destruct (step_w h s (LTurn now ex) (check_turn now ex s)) as [E|(m & o & E & _)]; [|exact E|congruence].
      unfold l_step. rewrite Hm. reflexivity. }
    assert (Emsgs : msgs s = queued s) by (unfold msgs, hand; rewrite Hm; reflexivity).
    revert Hw. unfold check_turn. destruct (l_stop s) eqn:Est.
    { intros Hw. destruct (leave_fields s) as (_ & E2 & E3 & _). apply (TI_keep s); [exact T|exact Hw| |].
      - intros m. unfold msgs, hand. rewrite E2, E3, Hm. auto.
      - rewrite E3. discriminate. }
    destruct (pop_q_ok (l_q s) (i_heap _ (f_inv _ _ _ _ _ F)) (i_keys _ (f_inv _ _ _ _ _ F))) as [[Eq Ep']|(m' & q'' & Ep' & Hh' & Hk' & Hperm & Hmin)]; rewrite Ep'.
    { intros Hw. destruct (leave_fields (set_stop true s)) as (_ & E2 & E3 & _). apply (TI_keep s); [exact T|exact Hw| |].
      - intros m. unfold msgs, hand. rewrite E2, E3, Hm. auto.
      - rewrite E3. discriminate. }
    assert (Hsub : forall m, In m (m' :: map snd q'') -> In m (msgs s)).
    { intros m Hin. rewrite Emsgs. unfold queued. apply (Permutation_in _ (Permutation_sym Hperm)). exact Hin. }
    destruct (Z.ltb now (m_time m')).
    - destruct ex; intros Hw.
      + destruct (leave_fields (do_stop (set_q q'' s))) as (_ & E2 & E3 & _). destruct (do_stop_fields (set_q q'' s)) as (_ & D2 & _).
        apply (TI_keep s); [exact T|exact Hw| |].
        * intros m Hin _. apply Hsub. right. unfold msgs, hand in Hin. rewrite E2, E3, D2 in Hin. exact Hin.
        * rewrite E3. discriminate.
      + apply (TI_keep s); [exact T|exact Hw| |discriminate]. intros m Hin _. apply Hsub. exact Hin.
    - intros Hw. destruct T as [T1 T2 T3 T4]. constructor; try assumption.
      + intros H1 H2 mi mj Hi Hj'. apply (T2 H1 H2); apply Hsub; assumption.
      + cbn [l_mode set_mode]. intros m E. injection E as <-. intros Hs Hb.
        change (l_w _) with (l_w s) in *. destruct (Nat.eq_dec (cnt i s) (cnt j s)) as [E|Hne]; [exfalso|specialize (T1 Hb); lia].
        destruct (nth_error (Ss j) (cnt j s)) as [yj|] eqn:Eyj; [|apply nth_error_None in Eyj; lia].
        destruct (nth_error (Ss i) (cnt i s)) as [yi|] eqn:Eyi; [|apply nth_error_None in Eyi; rewrite len_eq in Eyi; lia].
        assert (Hjin : In m' (msgs s)) by (apply Hsub; left; reflexivity).
        destruct (msg_there s i yi F Est Hh ltac:(lia) Eyi) as (mi & Hi & Si).
        pose proof (msg_key s i mi yi F Hi Si Eyi) as Ki. pose proof (msg_key s j m' yj F Hjin Hs Eyj) as Kj.
        assert (Ek : ekey yi = ekey yj).
        { assert (E1 : nth_error (map ekey (Ss i)) (cnt i s) = Some (ekey yi)) by (rewrite nth_error_map, Eyi; reflexivity).
          rewrite Hkeys, E, nth_error_map, Eyj in E1. cbn [option_map] in E1. congruence. }
        pose proof (T2 Hb E mi m' Hi Hjin Si Hs) as Hseq.
        rewrite Emsgs in Hi. apply (Hmin mi Hi). rewrite <- Ki, <- Kj in Ek. injection Ek as E1 E2.
        unfold key_lt, sort_key. cbn. rewrite E1, E2. lia.
  Qed.

  Lemma TI_finish m o s : FI s -> TI s -> l_mode s = Running m -> w_hung (l_w (finish h m o s)) = false -> TI (finish h m o s).
  Proof.
    intros F T Hm Hhung. pose proof T as [T1 T2 T3 T4].
    destruct (h (m_cb m) o (l_w s)) as [[w' acts] x] eqn:Hh.
    destruct (finish_shape fuel cfg tz srcs1 s m o w' acts x F Hm Hh) as (_ & _ & _ & Ew & _ & Emode).
    assert (Emsgs : msgs s = m :: queued s) by (unfold msgs, hand; rewrite Hm; reflexivity).
    assert (Hnew : forall m', In m' (msgs (finish h m o s)) -> In m' (queued s) \/
      (l_seq s < m_seq m' /\ In (APush (m_time m') (m_prio m') (m_cb m')) acts)).
    { intros m' Hin. apply (acts_seq acts (set_w w' s)).
      - apply inv_set_w. exact (f_inv _ _ _ _ _ F).
      - cbn. congruence.
      - unfold msgs, hand in Hin. rewrite Emode in Hin. cbn [app] in Hin. unfold finish in Hin. rewrite Hh in Hin.
        destruct x as [x|]; [|exact Hin].
        match type of Hin with In _ (queued (set_mode Checking (do_stop ?t))) => change (In m' (queued (do_stop t))) in Hin; destruct (do_stop_fields t) as (_ & D2 & _) end.
        rewrite D2 in Hin. exact Hin. }
    destruct (m_cb m) as [sid k|] eqn:Hcb.
    - cbn [sched_handler] in Hh. pose proof (f_SI _ _ _ _ _ F) as HSI. rewrite Emsgs in HSI.
      destruct (SI_callback fuel cfg tz srcs1 Hfuel (l_w s) m (queued s) (l_stop s) sid k o w' acts x HSI Hcb Hh)
        as (_ & (dt & c & Eem & Hmt & Hmp & _ & Hpush) & _).
      pose proof (emitted_fold_w _ _ _ _ Eem) as Ej.
      assert (Hsrc : src_of m = Some k) by (unfold src_of; rewrite Hcb; reflexivity).
      assert (Hnew' : forall m' k', In m' (msgs (finish h m o s)) -> src_of m' = Some k' -> (k' <> k /\ In m' (queued s)) \/ (k' = k /\ l_seq s < m_seq m')).
      { intros m' k' Hin Hs'. destruct (Hnew m' Hin) as [Hold|[Hseq Hact]].
        - left. split; [|exact Hold]. intros ->. pose proof (s_uniq _ _ _ _ _ _ _ HSI) as Hu.
          unfold srcs_of in Hu. cbn [flat_map] in Hu. rewrite Hsrc in Hu. cbn [app] in Hu. inversion Hu as [|? ? Hn _]. apply Hn.
          apply srcs_of_In. exists m'. auto.
        - right. split; [|exact Hseq]. unfold src_of in Hs'. destruct (m_cb m') as [sid' k0|] eqn:Hcb'; [|discriminate]. injection Hs' as ->.
          destruct (Hpush _ _ _ Hact) as (? & ? & ? & ? & _ & _ & ? & _ & Ec & _); [discriminate|]. injection Ec as _ <-. reflexivity. }
      assert (Ec : forall q, cnt q (finish h m o s) = (cnt q s + (if Nat.eqb k q then 1 else 0))%nat).
      { intros q. rewrite Ew, Ej, app_length. destruct (Nat.eqb k q); reflexivity. }
      constructor; rewrite ?Ec.
      + destruct (Nat.eqb_spec k i), (Nat.eqb_spec k j); subst; try lia.
        intros Hb. pose proof (T4 m Hm Hsrc ltac:(lia)). lia.
      + intros Hb E mi mj Hi Hj' Si Sj.
        destruct (Hnew' mi i Hi Si) as [[Ni Oi]|[Ni Oi]]; destruct (Hnew' mj j Hj' Sj) as [[Nj Oj]|[Nj Oj]].
        * destruct (Nat.eqb_spec k i), (Nat.eqb_spec k j); try lia.
          apply T2; rewrite ?Emsgs; try lia; try assumption; right; assumption.
        * pose proof (hand_src_old s (f_inv _ _ _ _ _ F) mi Oi). lia.
        * subst k. exfalso. rewrite Nat.eqb_refl in E. destruct (Nat.eqb_spec i j); [lia|]. lia.
        * lia.
      + intros Hb. destruct (Nat.eqb_spec k i), (Nat.eqb_spec k j); subst; try lia.
        destruct (Nat.lt_ge_cases (cnt j s) N) as [Hlt|Hge]; [|specialize (T3 Hge); lia].
        pose proof (T4 m Hm Hsrc Hlt). lia.
      + rewrite Emode. discriminate.
    - cbn [sched_handler] in Hh. injection Hh as <- <- _. apply (TI_keep s); [exact T|exact Ew| |rewrite Emode; discriminate].
      intros m' Hin Hs'. rewrite Emsgs. right. destruct (Hnew m' Hin) as [Hold|[_ Hact]]; [exact Hold|].
      apply in_map_iff in Hact as (p & Ep & _). injection Ep as _ _ Ec. exfalso. apply Hs'. unfold src_of. rewrite <- Ec. reflexivity.
  Qed.

  Lemma hung_step s l s' : l_step h s l = Some s' -> w_hung (l_w s') = false -> w_hung (l_w s) = false.
  Proof.
    intros Hs Hh. destruct (step_w h s l s' Hs) as [E|(m & o & Hm & _ & E)]; [congruence|].
    destruct (h (m_cb m) o (l_w s)) as [[w' acts] x] eqn:He. cbn [fst] in E. rewrite E in Hh. eapply hung_mono; eassumption.
  Qed.

  Lemma TI_step s l s' : FI s -> TI s -> ok_label l -> l_step h s l = Some s' -> w_hung (l_w s') = false -> TI s'.
  Proof.
    intros F T Hok Hstep Hh'. pose proof (hung_step _ _ _ Hstep Hh') as Hh. pose proof (step_w h s l s' Hstep) as Hw. unfold l_step in Hstep.
    assert (Hother : forall a, ok_label (LOther (O := sout) a) -> (forall r, l_mode s <> Returned r) -> TI (do_act a s)).
    { intros a Ha Hnr.
      assert (Hwa : l_w (do_act a s) = l_w s) by (destruct a; [reflexivity|cbn; unfold do_stop; destruct (l_stop s); reflexivity]).
      apply (TI_keep s); [exact T|exact Hwa| |intros m0; rewrite mode_do_act; auto].
      intros m Hin Hs. unfold msgs, hand in *. rewrite mode_do_act in Hin. apply in_app_or in Hin as [Hin|Hin]; apply in_or_app; [left; exact Hin|right].
      destruct (acts_seq [a] s (f_inv _ _ _ _ _ F) Hnr m Hin) as [H|[_ [Ha'|[]]]]; [exact H|]. subst a.
      exfalso. unfold src_of in Hs. cbn in Ha. destruct (m_cb m); [exact Ha|apply Hs; reflexivity]. }
    destruct l as [ | | | |now ex| |o|a| ]; destruct (l_mode s) as [| |m|m|r] eqn:Hm; try discriminate.
    - destruct (l_async s); [|discriminate]. injection Hstep as <-. apply (TI_keep s); [exact T|reflexivity| |discriminate].
      intros m. unfold msgs, hand. rewrite Hm. cbn. auto.
    - destruct (l_timer s); [|discriminate]. injection Hstep as <-. apply (TI_keep s); [exact T|reflexivity| |discriminate].
      intros m. unfold msgs, hand. rewrite Hm. cbn. auto.
    - destruct (l_sig s); [|discriminate]. injection Hstep as <-. destruct Hw as [Hw|(m0 & o0 & E & _)]; [|congruence].
      match goal with |- TI (do_stop ?t) => destruct (do_stop_fields t) as (_ & D2 & D3 & _) end.
      apply (TI_keep s); [exact T|exact Hw| |].
      + intros m. unfold msgs, hand. rewrite D3, D2. cbn. rewrite Hm. auto.
      + intros m. rewrite D3. cbn. auto.
    - injection Hstep as <-. apply (TI_keep s); [exact T|reflexivity|auto|cbn; auto].
    - injection Hstep as <-. apply (TI_keep s); [exact T|reflexivity|auto|cbn; auto].
    - injection Hstep as <-. apply (TI_keep s); [exact T|reflexivity|auto|cbn; auto].
    - injection Hstep as <-. apply (TI_keep s); [exact T|reflexivity|auto|cbn; auto].
    - injection Hstep as <-. apply TI_turn; assumption.
    - injection Hstep as <-. destruct Hw as [Hw|(m0 & o0 & E & _)]; [|congruence].
      unfold arm in *. destruct (leave_fields (push_msg m false (set_timer (Some (m_time m)) s))) as (_ & E2 & E3 & _).
      apply (TI_keep s); [exact T|exact Hw| |rewrite E3; discriminate].
      intros m0. unfold msgs, hand. rewrite E2, E3, Hm. cbn [app]. intros Hin _.
      unfold queued, push_msg in Hin. cbn [set_q set_timer l_q] in Hin.
      destruct (push_q_ok (l_q s) m (i_heap _ (f_inv _ _ _ _ _ F)) (i_keys _ (f_inv _ _ _ _ _ F))) as (_ & _ & G).
      apply (Permutation_in _ G) in Hin. exact Hin.
    - injection Hstep as <-. apply TI_finish; assumption.
    - injection Hstep as <-. apply Hother; [exact Hok|congruence].
    - injection Hstep as <-. apply Hother; [exact Hok|congruence].
    - injection Hstep as <-. apply Hother; [exact Hok|congruence].
    - injection Hstep as <-. apply Hother; [exact Hok|congruence].
    - destruct (l_uvstop s); [|discriminate]. injection Hstep as <-. apply (TI_keep s); [exact T|reflexivity| |discriminate].
      intros m. unfold msgs, hand. cbn. rewrite Hm. auto.
  Qed.

  Lemma hung_exec ls : forall s s', l_exec h s ls = Some s' -> w_hung (l_w s') = false -> w_hung (l_w s) = false.
  Proof.
    induction ls as [|l ls IH]; intros s s' Hex Hh; cbn [l_exec] in Hex; [injection Hex as <-; exact Hh|].
    destruct (l_step h s l) as [s1|] eqn:E; [|discriminate]. eapply hung_step; [exact E|]. eapply IH; eassumption.
  Qed.

  Lemma TI_exec ls : forall s s', FI s -> TI s -> Forall (ok_label) ls -> l_exec h s ls = Some s' -> w_hung (l_w s') = false -> TI s'.
  Proof.
    induction ls as [|l ls IH]; intros s s' F T Hok Hex Hh; cbn [l_exec] in Hex.
    - injection Hex as <-; auto.
    - inversion Hok; subst. destruct (l_step h s l) as [s1|] eqn:E; [|discriminate].
      eapply IH; [eapply FI_step; eassumption|eapply TI_step; try eassumption; eapply hung_exec; eassumption|assumption|exact Hex|exact Hh].
  Qed.
End Tie.

(** ** start-up: the messages of the sources are numbered in their order *)
Section BootTie.
  Variables (fuel : nat) (cfg : escfg) (tz : Z) (srcs : list esrc).
  Hypothesis Hfuel : (0 < fuel)%nat.

  Definition ordered (s : lstate scb sworld) : Prop := forall i j mi mj, (i < j)%nat -> In mi (msgs s) -> In mj (msgs s) ->
    src_of mi = Some i -> src_of mj = Some j -> m_seq mi < m_seq mj.

  Lemma schedule_ordered k d s s' : BI fuel cfg tz srcs k s -> ordered s -> schedule fuel cfg tz k d s = Some s' -> ordered s'.
  Proof.
    intros B O Hs. pose proof (BI_schedule fuel cfg tz srcs Hfuel k d s s' B Hs) as B'.
    assert (Em : forall z : lstate scb sworld, l_mode z = Idle -> msgs z = queued z) by (intros z Hz; unfold msgs, hand; rewrite Hz; reflexivity).
    pose proof (b_mode _ _ _ _ _ _ B) as Hm. pose proof (b_mode _ _ _ _ _ _ B') as Hm'.
    assert (Hn : forall m q, In m (msgs s') -> src_of m = Some q -> In m (queued s) \/ (q = k /\ l_seq s < m_seq m)).
    { rewrite (Em s' Hm'). unfold schedule in Hs. cbn [w_srcs] in Hs. destruct (nth_error (w_srcs (l_w s)) k) as [es|]; [|discriminate].
      unfold push_next in Hs. destruct (peek_next_event fuel cfg d es) as [[[[dt c]|] es2]|x|]; try discriminate.
      - destruct (w_hung _); [discriminate|]. apply (f_equal (fun z => match z with Some y => y | None => s end)) in Hs. cbv beta iota in Hs. subst s'. intros m q Hin Hq.
        match type of Hin with In _ (queued (fold_left _ ?acts ?z)) => destruct (acts_seq acts z) with (m := m) as [H|[H1 [H2|[]]]] end.
        + apply inv_set_w. exact (b_inv _ _ _ _ _ _ B).
        + cbn. rewrite Hm. discriminate.
        + exact Hin.
        + left; exact H.
        + right. injection H2 as _ _ Ec. unfold src_of in Hq. rewrite <- Ec in Hq. injection Hq as <-. split; [reflexivity|exact H1].
      - destruct (w_hung _); [discriminate|]. injection Hs as <-. intros m q Hin Hq. left. exact Hin. }
    assert (Hold : forall m q, In m (queued s) -> src_of m = Some q -> (q < k)%nat).
    { intros m q Hin Hq. destruct (Nat.lt_ge_cases q k) as [H|H]; [exact H|]. exfalso.
      apply (proj1 (b_todo _ _ _ _ _ _ B q H)). apply srcs_of_In. exists m. rewrite (Em s Hm). auto. }
    intros i j mi mj Hij Hi Hj Si Sj.
    destruct (Hn mi i Hi Si) as [Oi|[-> Oi]]; destruct (Hn mj j Hj Sj) as [Oj|[-> Oj]].
    - apply (O i j); rewrite ?(Em s Hm); assumption.
    - pose proof (hand_src_old s (b_inv _ _ _ _ _ _ B) mi Oi). lia.
    - pose proof (Hold mj j Oj Sj). lia.
    - lia.
  Qed.

  Lemma schedule_all_ordered dates : forall k s s', BI fuel cfg tz srcs k s -> ordered s -> schedule_all fuel cfg tz k dates s = Some s' -> ordered s'.
  Proof.
    induction dates as [|d dates IH]; intros k s s' B O Hs; cbn [schedule_all] in Hs; [injection Hs as <-; exact O|].
    destruct (schedule fuel cfg tz k d s) as [s1|] eqn:E; [|discriminate].
    eapply IH; [eapply BI_schedule; eassumption|eapply schedule_ordered; eassumption|exact Hs].
  Qed.

  Lemma boot_ordered dates s0 : boot fuel cfg tz srcs dates = Some s0 -> ordered s0.
  Proof.
    intros Hb. eapply schedule_all_ordered; [apply BI_init; exact Hfuel| |exact Hb]. intros i j mi mj _ [].
  Qed.
End BootTie.

(** two sources of a run *)
Section Two.
  Variables (fuel : nat) (cfg : escfg) (tz : Z) (srcs : list esrc) (dates : list Z) (s0 : lstate scb sworld).
  Hypothesis Hfuel : (0 < fuel)%nat.
  Hypothesis Hlen : length dates = length srcs.
  Hypothesis Hboot : boot fuel cfg tz srcs dates = Some s0.
  Variables (ls : list (label scb sout)) (s : lstate scb sworld).
  Hypothesis Hok : Forall ok_label ls.
  Hypothesis Hex : l_exec (sched_handler fuel cfg tz) s0 ls = Some s.

  Variables (i j : nat) (Si Sj : list (Z * ecls)).
  Hypothesis Hij : (i < j)%nat.
  Hypothesis Hj : (j < length srcs)%nat.
  Hypothesis HSi : forall es, nth_error (w_srcs (l_w s0)) i = Some es -> good fuel cfg es Si.
  Hypothesis HSj : forall es, nth_error (w_srcs (l_w s0)) j = Some es -> good fuel cfg es Sj.
  Hypothesis Hkeys : map (ekey tz) Si = map (ekey tz) Sj.

  Lemma two_order : w_hung (l_w s) = false ->
    (Nat.min (length (emitted j (l_w s))) (length Sj) <= length (emitted i (l_w s)))%nat.
  Proof.
    intros Hh. destruct (boot_FI fuel cfg tz Hfuel srcs dates s0 Hboot Hlen) as (F & He & Hl).
    set (Ss k := if Nat.eqb k i then Si else if Nat.eqb k j then Sj else []).
    assert (Ei : Ss i = Si) by (unfold Ss; rewrite Nat.eqb_refl; reflexivity).
    assert (Ej : Ss j = Sj).
    { unfold Ss. destruct (Nat.eqb_spec j i); [lia|]. rewrite Nat.eqb_refl; reflexivity. }
    assert (Hg : forall k es, nth_error (w_srcs (l_w s0)) k = Some es -> good fuel cfg es (Ss k)).
    { intros k es Hk. unfold Ss. destruct (Nat.eqb_spec k i) as [->|]; [apply HSi; exact Hk|]. destruct (Nat.eqb_spec k j) as [->|]; [apply HSj; exact Hk|].
      intros [|? ?] Hd; [|cbn in Hd; lia]. exists es. reflexivity. }
    assert (T0 : TI Ss i j s0).
    { assert (Ec : forall k, emitted k (l_w s0) = []) by (intros k; unfold emitted; rewrite He; reflexivity).
      constructor; rewrite ?Ec; cbn [length].
      - lia.
      - intros _ _ mi mj H1 H2 H3 H4. eapply (boot_ordered fuel cfg tz srcs Hfuel dates s0 Hboot i j); eassumption.
      - auto.
      - pose proof (BI_all fuel cfg tz srcs Hfuel dates 0 _ _ (BI_init fuel cfg tz srcs Hfuel) Hboot) as B.
        intros m Hm. rewrite (b_mode _ _ _ _ _ _ B) in Hm. discriminate. }
    assert (Hk' : map (ekey tz) (Ss i) = map (ekey tz) (Ss j)) by (rewrite Ei, Ej; exact Hkeys).
    destruct (TI_exec fuel cfg tz _ Ss Hfuel Hg i j Hij ltac:(lia) Hk' ls s0 s F T0 Hok Hex Hh) as [T1 _ T3 _].
    rewrite Ej in *. destruct (Nat.lt_ge_cases (length (emitted j (l_w s))) (length Sj)) as [H|H]; [specialize (T1 H)|specialize (T3 H)]; lia.
  Qed.
End Two.
