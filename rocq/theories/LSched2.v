(** Invariants of the scheduler on the event loop, whole executions (C03, C04, C08). *)
From Coq Require Import Permutation Sorted.
From Verif Require Import PyBase PyStr MTime MTimeExpr MEventSource MQueue MLoop MSched
  SQueue LQueue LLoop SEvent LSort LEventSource LEventSource2 LSched.
Open Scope Z_scope.

Section S.
  Variables (fuel : nat) (cfg : escfg) (tz : Z) (srcs0 : list esrc).
  Hypothesis Hfuel : (0 < fuel)%nat.
  Implicit Types w : sworld.
  Implicit Types s : lstate scb sworld.
  Notation ms_of := (dt_to_milliseconds tz).
  Notation h := (sched_handler fuel cfg tz).
  Notation SI := (SI fuel cfg tz srcs0).

  (** order of dispatch: earlier first, higher priority first at the same time *)
  Definition le_key (t1 p1 t2 p2 : Z) : Prop := t1 < t2 \/ (t1 = t2 /\ p2 <= p1).
  Definition le_ev (a b : Z * ecls) : Prop :=
    le_key (ms_of (fst a)) (ec_prio (snd a)) (ms_of (fst b)) (ec_prio (snd b)).
  Definition le_em (e : Z * ecls) (m : msg scb) : Prop :=
    le_key (ms_of (fst e)) (ec_prio (snd e)) (m_time m) (m_prio m).
  Definition le_mm (m m' : msg scb) : Prop := le_key (m_time m) (m_prio m) (m_time m') (m_prio m').

  (** every source's own events came in order *)
  Definition psorted w : Prop := forall k, StronglySorted le_ev (emitted k w).

  Record OI w (ms : list (msg scb)) : Prop := {
    o_sorted : StronglySorted le_ev (map snd (w_emits w));
    o_le : forall k e m k', In (k, e) (w_emits w) -> In m ms -> src_of m = Some k' ->
             (forall e', In e' (emitted k' w) -> le_em e' m) -> le_em e m
  }.

  Record FI s : Prop := {
    f_inv : inv s;
    f_SI : SI (l_w s) (msgs s) (l_stop s);
    f_ord : psorted (l_w s) -> OI (l_w s) (msgs s);
    f_run : forall m, l_mode s = Running m -> forall m', In m' (queued s) -> src_of m' <> None -> le_mm m m'
  }.

  Lemma OI_sub w ms ms' : (forall m, In m ms' -> src_of m <> None -> In m ms) -> OI w ms -> OI w ms'.
  Proof. intros Hs [H1 H2]. constructor; [exact H1|]. intros k e m k' He Hm Hn. apply (H2 k e m k'); auto. apply Hs; congruence. Qed.

  Lemma StronglySorted_snoc {A} (R : A -> A -> Prop) l x :
    StronglySorted R l -> (forall y, In y l -> R y x) -> StronglySorted R (l ++ [x]).
  Proof.
    induction 1 as [|a l Hs IH Hf]; intros Hx; cbn [app]; [repeat constructor|].
    constructor; [apply IH; intros y Hy; apply Hx; right; exact Hy|].
    apply Forall_app. split; [exact Hf|]. constructor; [apply Hx; left; reflexivity|constructor].
  Qed.

  Lemma StronglySorted_app_l {A} (R : A -> A -> Prop) l l' :
    StronglySorted R (l ++ l') -> StronglySorted R l.
  Proof.
    induction l as [|a l IH]; cbn [app]; [constructor|]. intros H. inversion H as [|? ? Hs Hf]; subst.
    constructor; [apply IH; exact Hs|]. apply Forall_app in Hf. apply Hf.
  Qed.

  Lemma StronglySorted_last {A} (R : A -> A -> Prop) l x :
    StronglySorted R (l ++ [x]) -> forall y, In y l -> R y x.
  Proof.
    induction l as [|a l IH]; cbn [app]; intros H y []; inversion H as [|? ? Hs Hf]; subst.
    - rewrite Forall_forall in Hf. apply Hf. apply in_or_app; right; left; reflexivity.
    - apply IH; assumption.
  Qed.

  Lemma le_key_trans a b c d e f : le_key a b c d -> le_key c d e f -> le_key a b e f.
  Proof. unfold le_key; lia. Qed.

  (** steps that keep world and messages *)
  Lemma FI_same s s' : FI s -> inv s' -> l_w s' = l_w s -> Permutation (msgs s) (msgs s') ->
    (l_stop s' = false -> l_stop s = false) ->
    (forall m, l_mode s' = Running m -> l_mode s = Running m /\ queued s' = queued s) -> FI s'.
  Proof.
    intros [F1 F2 F3 F4] Hinv Ew Hp Hst Hr. constructor.
    - exact Hinv.
    - rewrite Ew. eapply SI_perm; [exact Hp|]. eapply SI_stop; [exact Hst|exact F2].
    - intros Hm. rewrite Ew in Hm |- *. eapply OI_sub; [|exact (F3 Hm)]. intros m Hin _.
      apply (Permutation_in _ (Permutation_sym Hp)). exact Hin.
    - intros m Hm m' Hin. destruct (Hr m Hm) as [E1 E2]. rewrite E2 in Hin. eapply F4; eassumption.
  Qed.

  Lemma FI_do_stop s : FI s -> FI (do_stop s).
  Proof.
    intros F. unfold do_stop. pose proof (inv_do_stop s (f_inv _ F)) as Hi. unfold do_stop in Hi.
    destruct (l_stop s) eqn:E; [exact F|].
    apply (FI_same s); [exact F|exact Hi|reflexivity|reflexivity|discriminate|cbn; auto].
  Qed.

  Lemma leave_fields s : l_w (leave s) = l_w s /\ queued (leave s) = queued s /\ l_mode (leave s) = Idle /\ l_stop (leave s) = l_stop s.
  Proof. unfold leave. destruct (l_stop s) eqn:E; cbn; rewrite ?E; repeat split; reflexivity. Qed.

  Lemma do_stop_fields s : l_w (do_stop s) = l_w s /\ queued (do_stop s) = queued s /\ l_mode (do_stop s) = l_mode s /\ l_stop (do_stop s) = true.
  Proof. unfold do_stop. destruct (l_stop s) eqn:E; cbn; rewrite ?E; repeat split; reflexivity. Qed.

  Lemma FI_turn now ex s : FI s -> l_mode s = Checking -> FI (check_turn now ex s).
  Proof.
    intros F Hm. pose proof (inv_turn now ex s (f_inv _ F) Hm) as Hinv. revert Hinv.
    assert (Emsgs : msgs s = queued s) by (unfold msgs, hand; rewrite Hm; reflexivity).
    unfold check_turn. destruct (l_stop s) eqn:Est.
    { intros Hinv. destruct (leave_fields s) as (E1 & E2 & E3 & E4).
      apply (FI_same s); try assumption.
      - rewrite Emsgs. unfold msgs, hand. rewrite E3, E2. reflexivity.
      - congruence.
      - intros m E; congruence. }
    pose proof F as [F1 F2 F3 F4]. rewrite Emsgs, Est in F2.
    destruct (pop_q_ok (l_q s) (i_heap _ F1) (i_keys _ F1)) as [[Eq Ep]|(m & q' & Ep & Hh' & Hk' & Hperm & Hmin)]; rewrite Ep.
    - intros Hinv. destruct (leave_fields (set_stop true s)) as (E1 & E2 & E3 & E4).
      apply (FI_same s); try assumption.
      + rewrite Emsgs. unfold msgs, hand. rewrite E3, E2. reflexivity.
      + rewrite E4. discriminate.
      + intros m E; congruence.
    - assert (HSI : SI (l_w s) (m :: map snd q') false) by (eapply SI_perm; [exact Hperm|exact F2]).
      assert (HOI : psorted (l_w s) -> OI (l_w s) (m :: map snd q')).
      { intros Hmo. eapply OI_sub; [|exact (F3 Hmo)]. intros m' Hin _. rewrite Emsgs.
        apply (Permutation_in _ (Permutation_sym Hperm)). exact Hin. }
      destruct (Z.ltb now (m_time m)).
      + destruct ex; intros Hinv.
        * destruct (leave_fields (do_stop (set_q q' s))) as (E1 & E2 & E3 & E4).
          destruct (do_stop_fields (set_q q' s)) as (D1 & D2 & D3 & D4).
          assert (Em : msgs (leave (do_stop (set_q q' s))) = map snd q').
          { unfold msgs, hand. rewrite E3, E2, D2. reflexivity. }
          constructor; [exact Hinv| | |rewrite E3; discriminate].
          -- rewrite Em, E1, E4, D1, D4. eapply SI_drop. exact HSI.
          -- intros Hmo. rewrite E1, D1 in Hmo. rewrite Em, E1, D1. eapply OI_sub; [|exact (HOI Hmo)]. intros m' Hin _; right; exact Hin.
        * constructor; [exact Hinv| | |discriminate].
          -- unfold msgs, hand, queued; cbn. rewrite Est. exact HSI.
          -- exact HOI.
      + intros Hinv. constructor; [exact Hinv| | |].
        * unfold msgs, hand, queued; cbn. rewrite Est. exact HSI.
        * exact HOI.
        * intros m0 Heq. cbn in Heq. injection Heq as <-. unfold queued; cbn. intros m' Hin _.
          assert (Hn : ~ key_lt (sort_key m') (sort_key m)).
          { apply Hmin. apply (Permutation_in _ (Permutation_sym Hperm)). right; exact Hin. }
          unfold key_lt, sort_key in Hn; cbn in Hn. unfold le_mm, le_key. lia.
  Qed.

  Lemma FI_arm m s : FI s -> l_mode s = Arming m -> FI (arm m s).
  Proof.
    intros F Hm. pose proof (inv_arm m s (f_inv _ F) Hm) as Hinv. pose proof F as [F1 F2 F3 F4].
    destruct (leave_fields (push_msg m false (set_timer (Some (m_time m)) s))) as (E1 & E2 & E3 & E4).
    change (leave (push_msg m false (set_timer (Some (m_time m)) s))) with (arm m s) in *.
    apply (FI_same s); try assumption.
    - unfold msgs, hand at 1. rewrite Hm. unfold hand. rewrite E3, E2. cbn [app].
      unfold queued, push_msg; cbn. destruct (push_q_ok (l_q s) m (i_heap _ F1) (i_keys _ F1)) as (_ & _ & G). symmetry. exact G.
    - rewrite E4. cbn. auto.
    - intros m0 Heq. congruence.
  Qed.

  Lemma handler_acts cb o w w' acts x : h cb o w = (w', acts, x) -> Forall (fun a => a <> AStop) acts.
  Proof.
    assert (Hd : Forall (fun a : act scb => a <> AStop) (map (fun p => APush (fst p) (snd p) COther) (o_defer o))).
    { apply Forall_forall. intros a Ha. apply in_map_iff in Ha. destruct Ha as (p & <- & _). discriminate. }
    destruct cb as [sid k|]; cbn [sched_handler].
    - unfold sched_callback. destruct (negb (dmem sid (w_reg w))).
      { intros H; injection H as _ <- _. constructor. }
      destruct (nth_error (w_srcs w) k); [|intros H; injection H as _ <- _; constructor].
      destruct (get_next_event fuel cfg (o_date o) e) as [[[ev|] es1]|y|].
      + destruct (o_exn o).
        * intros H; injection H as _ <- _. exact Hd.
        * unfold push_next. destruct (peek_next_event fuel cfg (o_date2 o) es1) as [[[[dt c]|] es2]|y|];
            intros H; injection H as _ <- _; apply Forall_app; (split; [exact Hd|]); repeat constructor; discriminate.
      + intros H; injection H as _ <- _. constructor.
      + intros H; injection H as _ <- _. constructor.
      + intros H; injection H as _ <- _. constructor.
    - intros H; injection H as _ <- _. exact Hd.
  Qed.

  Lemma finish_shape s m o w' acts x : FI s -> l_mode s = Running m -> h (m_cb m) o (l_w s) = (w', acts, x) ->
    exists new, map (fun m => APush (m_time m) (m_prio m) (m_cb m)) new = acts /\
      Permutation (msgs (finish h m o s)) (new ++ queued s) /\ l_w (finish h m o s) = w' /\
      (l_stop (finish h m o s) = false -> l_stop s = false /\ x = None) /\
      l_mode (finish h m o s) = Checking.
  Proof.
    intros F Hm Hh. pose proof F as [F1 _ _ _].
    destruct (do_push_msgs acts (set_w w' s)) as (new & E & Hp & H1 & H2 & H3 & H4 & H5).
    - apply inv_set_w; exact F1.
    - cbn. congruence.
    - eapply handler_acts; exact Hh.
    - cbn zeta in *. exists new. split; [exact E|]. unfold finish. rewrite Hh.
      set (s1 := fold_left _ acts _) in *.
      assert (Hq : Permutation (queued s1) (new ++ queued s)).
      { rewrite Hp. apply Permutation_app_tail. symmetry. apply Permutation_rev. }
      destruct x as [x|].
      + destruct (do_stop_fields (set_exc (Some x) (add_raised x s1))) as (D1 & D2 & D3 & D4).
        split; [|split; [|split]]; try reflexivity.
        * unfold msgs, hand; cbn. change (queued (do_stop (set_exc (Some x) (add_raised x s1)))) with (queued (set_mode Checking (do_stop (set_exc (Some x) (add_raised x s1))))) in D2.
          etransitivity; [|exact Hq]. match goal with |- Permutation ?a _ => change a with (queued (do_stop (set_exc (Some x) (add_raised x s1)))) end.
          destruct (do_stop_fields (set_exc (Some x) (add_raised x s1))) as (_ & D2' & _). rewrite D2'. reflexivity.
        * cbn. rewrite D1. cbn. rewrite H2. reflexivity.
        * cbn. rewrite D4. discriminate.
      + split; [|split; [|split]]; try reflexivity.
        * unfold msgs, hand; cbn. exact Hq.
        * cbn. rewrite H2. reflexivity.
        * cbn. rewrite H3. cbn. auto.
  Qed.

  Lemma FI_finish m o s : FI s -> l_mode s = Running m -> FI (finish h m o s).
  Proof.
    intros F Hm. pose proof (inv_finish h m o s (f_inv _ F) Hm) as Hinv. pose proof F as [F1 F2 F3 F4].
    destruct (h (m_cb m) o (l_w s)) as [[w' acts] x] eqn:Hh.
    destruct (finish_shape s m o w' acts x F Hm Hh) as (new & E & Hp & Ew & Est & Emode).
    assert (Emsgs : msgs s = m :: queued s) by (unfold msgs, hand; rewrite Hm; reflexivity).
    rewrite Emsgs in F2, F3.
    destruct (m_cb m) as [sid k|] eqn:Hcb.
    - cbn [sched_handler] in Hh.
      destruct (SI_callback fuel cfg tz srcs0 Hfuel (l_w s) m (queued s) (l_stop s) sid k o w' acts x F2 Hcb Hh)
        as (Hna & (dt & c & Eem & Hmt & Hmp & Hrel & Hpush) & Hsi).
      constructor; [exact Hinv| | |rewrite Emode; discriminate].
      + rewrite Ew. eapply SI_perm; [symmetry; exact Hp|]. apply Hsi; [exact E|exact Est].
      + intros Hmo. rewrite Ew in Hmo |- *.
        assert (Eemk : forall j, emitted j w' = emitted j (l_w s) ++ (if Nat.eqb k j then [(dt, c)] else [])).
        { intros j. unfold emitted. rewrite Eem, filter_app, map_app. cbn [filter fst map]. destruct (Nat.eqb k j); reflexivity. }
        destruct F3 as [O1 O2].
        { intros j. pose proof (Hmo j) as H. rewrite Eemk in H. eapply StronglySorted_app_l; exact H. }
        assert (Hsrc : src_of m = Some k) by (unfold src_of; rewrite Hcb; reflexivity).
        assert (Hgood : forall e', In e' (emitted k (l_w s)) -> le_ev e' (dt, c)).
        { intros e' He'. pose proof (Hmo k) as H. rewrite Eemk, Nat.eqb_refl in H. eapply StronglySorted_last; eassumption. }
        assert (Hlast : forall k0 e, In (k0, e) (w_emits (l_w s)) -> le_ev e (dt, c)).
        { intros k0 e He. pose proof (O2 k0 e m k He (or_introl eq_refl) Hsrc) as H.
          unfold le_em in H. unfold le_ev. cbn [fst snd]. rewrite <- Hmt, <- Hmp. apply H.
          intros e' He'. pose proof (Hgood e' He') as G. unfold le_ev in G. cbn [fst snd] in G. rewrite Hmt, Hmp. exact G. }
        assert (Hnew : forall m' k', In m' (new ++ queued s) -> src_of m' = Some k' ->
                  (forall e', In e' (emitted k' w') -> le_em e' m') -> le_em (dt, c) m').
        { intros m' k' Hin Hs Hg. apply in_app_or in Hin. destruct Hin as [Hin|Hin].
          - assert (Ha : In (APush (m_time m') (m_prio m') (m_cb m')) acts).
            { rewrite <- E. apply (in_map (fun m => APush (m_time m) (m_prio m) (m_cb m))). exact Hin. }
            destruct (Hpush _ _ _ Ha) as (dt2 & c2 & t0 & es2 & G1 & G2 & dates & G3 & G4 & _).
            { unfold src_of in Hs. destruct (m_cb m'); congruence. }
            unfold src_of in Hs. rewrite G4 in Hs. injection Hs as <-.
            apply Hg. rewrite Eemk, Nat.eqb_refl. apply in_or_app. right; left; reflexivity.
          - assert (Hs' : src_of m' <> None) by congruence.
            pose proof (F4 m Hm m' Hin Hs') as H. unfold le_mm in H. unfold le_em. cbn [fst snd]. rewrite <- Hmt, <- Hmp. exact H. }
        constructor.
        * rewrite Eem, map_app. cbn [map snd]. apply StronglySorted_snoc; [exact O1|].
          intros e He. apply in_map_iff in He. destruct He as ([k0 e0] & <- & He). cbn [snd]. eapply Hlast; exact He.
        * intros k0 e m' k' He Hin Hs Hg. rewrite Eem in He.
          assert (Hin' : In m' (new ++ queued s)) by (apply (Permutation_in _ Hp); exact Hin).
          apply in_app_or in He. destruct He as [He|[He|[]]].
          -- eapply le_key_trans; [apply (Hlast k0 e He)|]. apply (Hnew m' k' Hin' Hs Hg).
          -- injection He as <- <-. apply (Hnew m' k'); assumption.
    - cbn [sched_handler] in Hh. injection Hh as <- <- <-.
      assert (Ho : forall m', In m' new -> m_cb m' = COther).
      { intros m' Hin. apply (in_map (fun m => APush (m_time m) (m_prio m) (m_cb m))) in Hin. rewrite E in Hin.
        apply in_map_iff in Hin. destruct Hin as (p & Hp' & _). injection Hp' as _ _ <-. reflexivity. }
      assert (HSI : SI (l_w s) (queued s) (l_stop s)).
      { destruct F2 as [G1 G2 G3 G4 G5].
        assert (Es : srcs_of (m :: queued s) = srcs_of (queued s)).
        { unfold srcs_of. cbn [flat_map]. unfold src_of at 1. rewrite Hcb. reflexivity. }
        constructor; try assumption.
        - intros m' sid k Hin. apply G3; right; exact Hin.
        - rewrite <- Es; exact G4.
        - rewrite <- Es; exact G5. }
      constructor; [exact Hinv| | |rewrite Emode; discriminate].
      + rewrite Ew. eapply SI_perm; [symmetry; exact Hp|]. apply SI_others; [exact Ho|].
        eapply SI_stop; [|exact HSI]. intros Hs. apply Est; exact Hs.
      + intros Hmo. rewrite Ew in Hmo |- *. eapply OI_sub; [|exact (F3 Hmo)]. intros m' Hin Hs.
        apply (Permutation_in _ Hp) in Hin. apply in_app_or in Hin. destruct Hin as [Hin|Hin]; [|right; exact Hin].
        exfalso. apply Hs. unfold src_of. rewrite (Ho m' Hin). reflexivity.
  Qed.

  Lemma FI_other t p s : FI s -> (forall r, l_mode s <> Returned r) -> FI (do_act (APush t p COther) s).
  Proof.
    intros F Hr. pose proof F as [F1 F2 F3 F4].
    pose proof (inv_do_act (APush t p COther) s Hr F1) as Hinv.
    set (m := Msg t p (l_seq s + 1) COther : msg scb).
    assert (Hq : Permutation (queued (do_act (APush t p COther) s)) (m :: queued s)).
    { unfold queued; cbn. destruct (push_q_ok (l_q s) m (i_heap _ F1) (i_keys _ F1)) as (_ & _ & G). exact G. }
    assert (Hp : Permutation (msgs (do_act (APush t p COther) s)) ([m] ++ msgs s)).
    { unfold msgs, hand. rewrite mode_do_act. rewrite Hq. cbn [app]. symmetry. apply Permutation_middle. }
    constructor.
    - exact Hinv.
    - change (l_w (do_act (APush t p COther) s)) with (l_w s). change (l_stop (do_act (APush t p COther) s)) with (l_stop s).
      eapply SI_perm; [symmetry; exact Hp|]. apply SI_others; [intros m' [<-|[]]; reflexivity|exact F2].
    - intros Hmo. eapply OI_sub; [|exact (F3 Hmo)]. intros m' Hin Hs. apply (Permutation_in _ Hp) in Hin.
      destruct Hin as [<-|Hin]; [exfalso; apply Hs; reflexivity|exact Hin].
    - intros m0 Hm0 m' Hin Hs. rewrite mode_do_act in Hm0. apply (Permutation_in _ Hq) in Hin.
      destruct Hin as [<-|Hin]; [exfalso; apply Hs; reflexivity|]. eapply F4; eassumption.
  Qed.

  Lemma FI_step s l s' : FI s -> ok_label l -> l_step h s l = Some s' -> FI s'.
  Proof.
    intros F Hok Hstep. pose proof (inv_step h s l s' (f_inv _ F) Hstep) as Hinv'. pose proof Hstep as Hstep0.
    unfold l_step in Hstep.
    destruct l as [ | | | |now ex| |o|a| ]; destruct (l_mode s) as [| |m|m|r] eqn:Hm; try discriminate.
    - destruct (l_async s); [|discriminate]. injection Hstep as <-.
      apply (FI_same s); try assumption; try reflexivity; [unfold msgs, hand; cbn; rewrite Hm; reflexivity|auto|discriminate].
    - destruct (l_timer s); [|discriminate]. injection Hstep as <-.
      apply (FI_same s); try assumption; try reflexivity; [unfold msgs, hand; cbn; rewrite Hm; reflexivity|auto|discriminate].
    - destruct (l_sig s); [|discriminate]. injection Hstep as <-. apply FI_do_stop.
      apply (FI_same s); try assumption; try reflexivity; [|auto|cbn; auto].
      destruct (f_inv _ F). constructor; cbn; assumption.
    - injection Hstep as <-. apply (FI_same s); try assumption; try reflexivity; [auto|cbn; auto].
    - injection Hstep as <-. apply (FI_same s); try assumption; try reflexivity; [auto|cbn; auto].
    - injection Hstep as <-. apply (FI_same s); try assumption; try reflexivity; [auto|cbn; auto].
    - injection Hstep as <-. apply (FI_same s); try assumption; try reflexivity; [auto|cbn; auto].
    - injection Hstep as <-. apply FI_turn; assumption.
    - injection Hstep as <-. apply FI_arm; assumption.
    - injection Hstep as <-. apply FI_finish; assumption.
    - injection Hstep as <-. destruct a as [t p [sid k|]|]; [destruct Hok| |apply FI_do_stop; exact F].
      apply FI_other; [exact F|congruence].
    - injection Hstep as <-. destruct a as [t p [sid k|]|]; [destruct Hok| |apply FI_do_stop; exact F].
      apply FI_other; [exact F|congruence].
    - injection Hstep as <-. destruct a as [t p [sid k|]|]; [destruct Hok| |apply FI_do_stop; exact F].
      apply FI_other; [exact F|congruence].
    - injection Hstep as <-. destruct a as [t p [sid k|]|]; [destruct Hok| |apply FI_do_stop; exact F].
      apply FI_other; [exact F|congruence].
    - destruct (l_uvstop s); [|discriminate]. injection Hstep as <-.
      apply (FI_same s); try assumption; try reflexivity; [unfold msgs, hand; cbn; rewrite Hm; reflexivity|auto|discriminate].
  Qed.

  Lemma FI_exec ls : forall s s', FI s -> Forall ok_label ls -> l_exec h s ls = Some s' -> FI s'.
  Proof.
    induction ls as [|l ls IH]; intros s s' F Hok Hex; cbn [l_exec] in Hex.
    - injection Hex as <-; exact F.
    - inversion Hok; subst. destruct (l_step h s l) as [s1|] eqn:E; [|discriminate].
      eapply IH; [eapply FI_step; eassumption|assumption|exact Hex].
  Qed.

  (** start-up *)
  Record BI (j : nat) s : Prop := {
    b_inv : inv s;
    b_SI : SI (l_w s) (msgs s) true;
    b_mode : l_mode s = Idle;
    b_stop : l_stop s = false;
    b_emits : w_emits (l_w s) = [];
    b_hung : w_hung (l_w s) = false;
    b_done : forall k es, (k < j)%nat -> nth_error (w_srcs (l_w s)) k = Some es ->
               In k (srcs_of (msgs s)) \/ exhausted cfg es;
    b_todo : forall k, (j <= k)%nat -> ~ In k (srcs_of (msgs s)) /\ nth_error (w_srcs (l_w s)) k = nth_error srcs0 k
  }.

  Lemma BI_schedule j date s s' : BI j s -> schedule fuel cfg tz j date s = Some s' -> BI (S j) s'.
  Proof.
    intros [B1 B2 B3 B4 B5 B6 B7 B8] Hs. unfold schedule in Hs. cbn [w_srcs] in Hs.
    destruct (nth_error (w_srcs (l_w s)) j) as [es|] eqn:Hj; [|discriminate].
    unfold push_next in Hs.
    destruct (peek_next_event fuel cfg date es) as [[r es2]|x|] eqn:Hpk; [|discriminate|cbn in Hs; discriminate].
    destruct (peek_settled fuel cfg _ _ _ _ Hpk) as [Hset Hr].
    destruct B2 as [G1 G2 G3 G4 G5].
    assert (Hlt : (j < length (w_srcs (l_w s)))%nat) by (apply nth_error_Some; congruence).
    destruct (B8 j (le_n j)) as [Hnin Hj0]. rewrite Hj in Hj0. symmetry in Hj0.
    set (sid := w_sid (l_w s) + 1) in *.
    set (w2 := set_src j es2 (SW (w_srcs (l_w s)) (dset sid j (w_reg (l_w s))) sid (w_emits (l_w s)) (w_hung (l_w s)))) in *.
    assert (Hreg : forall sd, dmem sd (w_reg (l_w s)) = true -> dmem sd (w_reg w2) = true).
    { intros sd H. unfold w2; cbn. unfold dmem in *. rewrite dget_dset. destruct (eqb sd sid); [reflexivity|exact H]. }
    assert (Hrel : rel fuel cfg es [] es2).
    { exists [], es. split; [reflexivity|right; exists date, r; exact Hpk]. }
    assert (Hemit : forall w k, w_emits w = [] -> emitted k w = []) by (intros w k E; unfold emitted; rewrite E; reflexivity).
    assert (Hw2e : w_emits w2 = []) by (unfold w2; cbn; exact B5).
    assert (Hpos : forall k0 es0 es', nth_error srcs0 k0 = Some es0 -> nth_error (w_srcs w2) k0 = Some es' -> rel fuel cfg es0 (emitted k0 w2) es').
    { intros k0 es0 es' Hk0 Hk. rewrite (Hemit w2 k0 Hw2e). unfold w2 in Hk; cbn in Hk.
      destruct (Nat.eq_dec j k0) as [<-|Hne].
      - rewrite nth_lset_same in Hk by exact Hlt. injection Hk as <-. rewrite Hj0 in Hk0. injection Hk0 as <-. exact Hrel.
      - rewrite nth_lset_other in Hk by exact Hne. pose proof (G2 k0 es0 es' Hk0 Hk) as H. rewrite (Hemit _ k0 B5) in H. exact H. }
    assert (Hold : forall m sd k, In m (msgs s) -> m_cb m = CSched sd k ->
       dmem sd (w_reg w2) = true /\ exists es', nth_error (w_srcs w2) k = Some es' /\ announces cfg tz m es').
    { intros m sd k Hin Hc. destruct (G3 m sd k Hin Hc) as (H1 & es' & H2 & H3). split; [apply Hreg; exact H1|].
      exists es'. split; [|exact H3]. unfold w2; cbn. rewrite nth_lset_other; [exact H2|]. intros ->. apply Hnin.
      apply srcs_of_In. exists m. split; [exact Hin|]. unfold src_of; rewrite Hc; reflexivity. }
    assert (Hlen : length (w_srcs w2) = length srcs0) by (unfold w2; cbn; rewrite lset_length; exact G1).
    destruct r as [[dt c]|].
    - cbn [w_hung w2 set_src] in Hs. rewrite B6 in Hs. cbn [fold_left] in Hs. injection Hs as <-.
      set (m := Msg (ms_of dt) (ec_prio c) (l_seq s + 1) (CSched sid j) : msg scb).
      assert (Hinv : inv (do_act (APush (ms_of dt) (ec_prio c) (CSched sid j)) (set_w w2 s))).
      { apply inv_do_act; [cbn; congruence|]. apply inv_set_w; exact B1. }
      assert (Hp : Permutation (msgs (do_act (APush (ms_of dt) (ec_prio c) (CSched sid j)) (set_w w2 s))) (m :: msgs s)).
      { unfold msgs, hand. rewrite mode_do_act. cbn [set_w l_mode]. rewrite B3. cbn [app].
        unfold queued; cbn. destruct (push_q_ok (l_q s) m (i_heap _ B1) (i_keys _ B1)) as (_ & _ & G). exact G. }
      assert (Esrc : forall k, In k (srcs_of (m :: msgs s)) <-> k = j \/ In k (srcs_of (msgs s))).
      { intros k. unfold srcs_of. cbn [flat_map]. unfold src_of at 1. cbn. intuition. }
      constructor; try assumption; try reflexivity.
      + eapply SI_perm; [symmetry; exact Hp|]. constructor; try assumption.
        * intros m' sd k [<-|Hin] Hc.
          -- cbn in Hc. injection Hc as <- <-. split.
             ++ unfold w2; cbn. unfold dmem. rewrite dget_dset_same. reflexivity.
             ++ exists es2. split; [unfold w2; cbn; apply nth_lset_same; exact Hlt|].
                destruct (es_events es2) as [|[dt' c'] rest] eqn:Ev; [discriminate|]. cbn in Hr. injection Hr as <- <-.
                exists dt, c, rest. split; [exact Hset|]. split; [exact Ev|]. split; reflexivity.
          -- apply Hold; assumption.
        * unfold srcs_of. cbn [flat_map]. unfold src_of at 1. cbn. constructor; [exact Hnin|exact G4].
        * discriminate.
      + intros k es' Hk Hn. cbn in Hn.
        destruct (Nat.eq_dec j k) as [<-|Hne].
        * left. apply (Permutation_in _ (Permutation_srcs _ _ (Permutation_sym Hp))). apply Esrc. left; reflexivity.
        * rewrite nth_lset_other in Hn by exact Hne. destruct (B7 k es' ltac:(lia) Hn) as [Hin|He]; [left|right; exact He].
          apply (Permutation_in _ (Permutation_srcs _ _ (Permutation_sym Hp))). apply Esrc. right; exact Hin.
      + intros k Hk. destruct (B8 k ltac:(lia)) as [H1 H2]. split.
        * intros Hin. apply (Permutation_in _ (Permutation_srcs _ _ Hp)) in Hin. apply Esrc in Hin. destruct Hin as [->|Hin]; [lia|contradiction].
        * cbn. rewrite nth_lset_other by lia. exact H2.
    - cbn [w_hung w2 set_src] in Hs. rewrite B6 in Hs. cbn [fold_left] in Hs. injection Hs as <-.
      assert (Ev : es_events es2 = []) by (destruct (es_events es2); [reflexivity|discriminate]).
      constructor; try assumption; try reflexivity.
      + apply inv_set_w; exact B1.
      + constructor; try assumption. discriminate.
      + intros k es' Hk Hn. cbn in Hn. destruct (Nat.eq_dec j k) as [<-|Hne].
        * rewrite nth_lset_same in Hn by exact Hlt. injection Hn as <-. right. split; assumption.
        * rewrite nth_lset_other in Hn by exact Hne. apply (B7 k es' ltac:(lia) Hn).
      + intros k Hk. destruct (B8 k ltac:(lia)) as [H1 H2]. split; [exact H1|]. cbn. rewrite nth_lset_other by lia. exact H2.
  Qed.

  Lemma BI_all dates : forall j s s', BI j s -> schedule_all fuel cfg tz j dates s = Some s' -> BI (j + length dates) s'.
  Proof.
    induction dates as [|d dates IH]; intros j s s' B Hs; cbn [schedule_all length] in *.
    - injection Hs as <-. rewrite Nat.add_0_r. exact B.
    - destruct (schedule fuel cfg tz j d s) as [s1|] eqn:E; [|discriminate].
      replace (j + S (length dates))%nat with (S j + length dates)%nat by lia.
      eapply IH; [eapply BI_schedule; eassumption|exact Hs].
  Qed.

  Lemma BI_init : BI 0 (l_init (SW srcs0 [] 0 [] false)).
  Proof.
    constructor; try reflexivity.
    - apply inv_init.
    - constructor; try reflexivity.
      + intros k es0 es H1 H2. cbn in H2. rewrite H1 in H2. injection H2 as <-. exists [], es0. split; [reflexivity|left; reflexivity].
      + intros m sid k [].
      + constructor.
      + discriminate.
    - intros k es Hk; lia.
    - intros k _. split; [intros []|reflexivity].
  Qed.

  Lemma FI_reach s : sreach fuel cfg tz srcs0 s -> FI s.
  Proof.
    intros (dates & s0 & ls & Hl & Hb & Hok & Hex). eapply FI_exec; [|exact Hok|exact Hex].
    unfold boot in Hb. pose proof (BI_all dates 0 _ _ BI_init Hb) as [B1 B2 B3 B4 B5 B6 B7 B8].
    cbn [plus] in *. constructor.
    - exact B1.
    - destruct B2 as [G1 G2 G3 G4 G5]. constructor; try assumption.
      intros _ _ k es Hk. apply (B7 k es); [|exact Hk]. rewrite Hl, <- G1. apply nth_error_Some. congruence.
    - intros _. constructor; rewrite B5; [constructor|]. intros k e m k' [].
    - rewrite B3. discriminate.
  Qed.

  (** C03 *)
  Lemma dispatch_sorted s : sreach fuel cfg tz srcs0 s -> psorted (l_w s) ->
    StronglySorted le_ev (map snd (w_emits (l_w s))).
  Proof. intros Hr Hm. apply (o_sorted _ _ (f_ord _ (FI_reach s Hr) Hm)). Qed.

  (** C04: what was emitted for source k is what successive gets on the fresh source
      return; the source's present state continues from there *)
  Lemma emitted_prefix s k es0 : sreach fuel cfg tz srcs0 s -> nth_error srcs0 k = Some es0 ->
    exists es, nth_error (w_srcs (l_w s)) k = Some es /\ rel fuel cfg es0 (emitted k (l_w s)) es.
  Proof.
    intros Hr Hk. pose proof (f_SI _ (FI_reach s Hr)) as [G1 G2 _ _ _].
    destruct (nth_error (w_srcs (l_w s)) k) as [es|] eqn:E.
    - exists es. split; [reflexivity|]. apply (G2 k); assumption.
    - exfalso. apply nth_error_None in E. assert ((k < length srcs0)%nat) by (apply nth_error_Some; congruence). lia.
  Qed.

  (** C04: when the queue runs empty, every source is exhausted *)
  Lemma empty_all_done s k es : sreach fuel cfg tz srcs0 s ->
    l_mode s = Checking -> l_stop s = false -> l_q s = [] -> w_hung (l_w s) = false ->
    nth_error (w_srcs (l_w s)) k = Some es -> exhausted cfg es.
  Proof.
    intros Hr Hm Hst Hq Hh Hk. pose proof (f_SI _ (FI_reach s Hr)) as [_ _ _ _ G5].
    destruct (G5 Hst Hh k es Hk) as [Hin|He]; [|exact He].
    exfalso. unfold msgs, hand, queued in Hin. rewrite Hm, Hq in Hin. exact Hin.
  Qed.

  (** C08 *)
  Lemma running_dt s m sid k o s' : sreach fuel cfg tz srcs0 s ->
    l_mode s = Running m -> m_cb m = CSched sid k -> l_step h s (LDone o) = Some s' ->
    exists dt c, w_emits (l_w s') = w_emits (l_w s) ++ [(k, (dt, c))] /\ l_st s = Some (ms_of dt).
  Proof.
    intros Hr Hm Hcb Hstep. pose proof (FI_reach s Hr) as F. pose proof F as [F1 F2 _ _].
    unfold l_step in Hstep. rewrite Hm in Hstep. injection Hstep as <-.
    destruct (h (m_cb m) o (l_w s)) as [[w' acts] x] eqn:Hh.
    destruct (finish_shape s m o w' acts x F Hm Hh) as (new & _ & _ & Ew & _ & _).
    rewrite Hcb in Hh. cbn [sched_handler] in Hh. unfold msgs, hand in F2. rewrite Hm in F2.
    destruct (SI_callback fuel cfg tz srcs0 Hfuel (l_w s) m (queued s) (l_stop s) sid k o w' acts x F2 Hcb Hh)
      as (_ & (dt & c & Eem & Hmt & _) & _).
    exists dt, c. rewrite Ew. split; [exact Eem|]. rewrite <- Hmt. apply (i_running _ F1 m Hm).
  Qed.
End S.
