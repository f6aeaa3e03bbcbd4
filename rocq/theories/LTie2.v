(** Lemmas for C61 beyond the first window: two sources with the same events for ever. *)
From Coq Require Import Permutation Sorted Lia.
From Verif Require Import PyBase PyStr LStr MTime MTimeExpr LTimeExpr SExpr MEventSource MQueue MLoop MSched MBus SBus LBus
  SQueue LQueue LLoop SEvent SSched LSort LEventSource LEventSource2 LSched LSched2 LSched3 MStrategy SStrategy LStrategy LStrategy2
  LLive LTie MProcess SProcess LProcess SLong LLong LLong2.
Open Scope Z_scope.

Section Tie.
  Variables (fuel : nat) (cfg : escfg) (tz : Z) (srcs1 : list esrc).
  Hypothesis Hfuel : (0 < fuel)%nat.
  Variables (i j : nat).
  Hypothesis Hij : (i < j)%nat.
  (** [key c q]: both sources have the time and priority [q] for their event number [c] *)
  Variable key : nat -> Z * Z -> Prop.
  Hypothesis Hfun : forall c q q', key c q -> key c q' -> q = q'.
  Implicit Types w : sworld.
  Implicit Types s : lstate scb sworld.
  Notation h := (sched_handler fuel cfg tz).
  Notation FI := (FI fuel cfg tz srcs1).
  Notation cnt k s := (length (emitted k (l_w s))).
  Notation apart := (apart i j).

  Record GI s : Prop := {
    g_FI : FI s;
    g_key : forall k m, k = i \/ k = j -> In m (msgs s) -> src_of m = Some k -> key (cnt k s) (m_time m, m_prio m);
    g_there : l_stop s = false -> w_hung (l_w s) = false -> exists m, In m (msgs s) /\ src_of m = Some i
  }.

  Record TI s : Prop := {
    t_le : (cnt j s <= cnt i s)%nat;
    t_seq : cnt i s = cnt j s -> apart (msgs s);
    t_run : forall m, l_mode s = Running m -> src_of m = Some j -> (cnt j s < cnt i s)%nat
  }.

  Lemma TI_keep s s' : TI s -> l_w s' = l_w s -> (forall m, In m (msgs s') -> src_of m <> None -> In m (msgs s)) ->
    (forall m, l_mode s' = Running m -> src_of m <> None -> l_mode s = Running m) -> TI s'.
  Proof.
    intros [T1 T2 T4] Ew Hm Hr. constructor; rewrite Ew; try assumption.
    - intros H2 mi mj Hi Hj' Si Sj. apply (T2 H2); [apply Hm; [exact Hi|congruence]|apply Hm; [exact Hj'|congruence]|exact Si|exact Sj].
    - intros m Hm' Hs. apply (T4 m); [apply Hr; [exact Hm'|congruence]|exact Hs].
  Qed.

  Lemma TI_turn now ex s : GI s -> TI s -> l_mode s = Checking -> w_hung (l_w s) = false -> TI (check_turn now ex s).
  Proof.
    intros G T Hm Hh. pose proof (g_FI _ G) as F.
    assert (Hw : l_w (check_turn now ex s) = l_w s).
    { destruct (step_w h s (LTurn now ex) (check_turn now ex s)) as [E|(m & o & E & _)]; [|exact E|congruence].
      unfold l_step. rewrite Hm. reflexivity. }
    assert (Emsgs : msgs s = queued s) by (unfold msgs, hand; rewrite Hm; reflexivity).
    revert Hw. unfold check_turn. destruct (l_stop s) eqn:Est.
    { intros Hw. destruct (leave_fields s) as (_ & E2 & E3 & _). apply (TI_keep s); [exact T|exact Hw| |].
      - intros m. unfold msgs, hand. rewrite E2, E3, Hm. auto.
      - rewrite E3. discriminate. }
    destruct (pop_q_ok (l_q s) (i_heap _ (f_inv _ _ _ _ _ F)) (i_keys _ (f_inv _ _ _ _ _ F))) as [[Eq Ep']|(m' & q'' & Ep' & Hh' & Hk' & Hperm & Hmin)]; rewrite Ep'.
    { intros Hw. destruct (leave_fields (set_stop true s)) as (_ & E2 & E3 & _). apply (TI_keep s); [exact T|exact Hw| |].
      - intros m. unfold msgs, hand. rewrite E2, E3, Hm. auto.
      - rewrite E3. discriminate. }
    assert (Hsub : forall m, In m (m' :: map snd q'') -> In m (msgs s)).
    { intros m Hin. rewrite Emsgs. unfold queued. apply (Permutation_in _ (Permutation_sym Hperm)). exact Hin. }
    destruct (Z.ltb now (m_time m')).
    - destruct ex; intros Hw.
      + destruct (leave_fields (do_stop (set_q q'' s))) as (_ & E2 & E3 & _). destruct (do_stop_fields (set_q q'' s)) as (_ & D2 & _).
        apply (TI_keep s); [exact T|exact Hw| |].
        * intros m Hin _. apply Hsub. right. unfold msgs, hand in Hin. rewrite E2, E3, D2 in Hin. exact Hin.
        * rewrite E3. discriminate.
      + apply (TI_keep s); [exact T|exact Hw| |discriminate]. intros m Hin _. apply Hsub. exact Hin.
    - intros Hw. destruct T as [T1 T2 T4]. constructor; try assumption.
      + intros H2 mi mj Hi Hj'. apply (T2 H2); apply Hsub; assumption.
      + cbn [l_mode set_mode]. intros m E. injection E as <-. intros Hs.
        change (l_w _) with (l_w s) in *. destruct (Nat.eq_dec (cnt i s) (cnt j s)) as [E|Hne]; [exfalso|lia].
        assert (Hjin : In m' (msgs s)) by (apply Hsub; left; reflexivity).
        destruct (g_there _ G Est Hh) as (mi & Hi & Si).
        pose proof (g_key _ G i mi (or_introl eq_refl) Hi Si) as Ki. pose proof (g_key _ G j m' (or_intror eq_refl) Hjin Hs) as Kj.
        rewrite E in Ki. pose proof (Hfun _ _ _ Ki Kj) as Ek.
        pose proof (T2 E mi m' Hi Hjin Si Hs) as Hseq.
        rewrite Emsgs in Hi. apply (Hmin mi Hi). injection Ek as E1 E2.
        unfold key_lt, sort_key. cbn. rewrite E1, E2. lia.
  Qed.

  Lemma TI_finish m o s : GI s -> TI s -> l_mode s = Running m -> TI (finish h m o s).
  Proof.
    intros G T Hm. pose proof (g_FI _ G) as F. pose proof T as [T1 T2 T4].
    destruct (h (m_cb m) o (l_w s)) as [[w' acts] x] eqn:Hh.
    destruct (finish_shape fuel cfg tz srcs1 s m o w' acts x F Hm Hh) as (_ & _ & _ & Ew & _ & Emode).
    assert (Emsgs : msgs s = m :: queued s) by (unfold msgs, hand; rewrite Hm; reflexivity).
    assert (Hnew : forall m', In m' (msgs (finish h m o s)) -> In m' (queued s) \/
      (l_seq s < m_seq m' /\ In (APush (m_time m') (m_prio m') (m_cb m')) acts)).
    { intros m' Hin. apply (acts_seq acts (set_w w' s)).
      - apply inv_set_w. exact (f_inv _ _ _ _ _ F).
      - cbn. congruence.
      - unfold msgs, hand in Hin. rewrite Emode in Hin. cbn [app] in Hin. unfold finish in Hin. rewrite Hh in Hin.
        destruct x as [x|]; [|exact Hin].
        match type of Hin with In _ (queued (set_mode Checking (do_stop ?t))) => change (In m' (queued (do_stop t))) in Hin; destruct (do_stop_fields t) as (_ & D2 & _) end.
        rewrite D2 in Hin. exact Hin. }
    destruct (m_cb m) as [sid k|] eqn:Hcb.
    - cbn [sched_handler] in Hh. pose proof (f_SI _ _ _ _ _ F) as HSI. rewrite Emsgs in HSI.
      destruct (SI_callback fuel cfg tz srcs1 Hfuel (l_w s) m (queued s) (l_stop s) sid k o w' acts x HSI Hcb Hh)
        as (_ & (dt & c & Eem & Hmt & Hmp & _ & Hpush) & _).
      pose proof (emitted_fold_w _ _ _ _ Eem) as Ej.
      assert (Hsrc : src_of m = Some k) by (unfold src_of; rewrite Hcb; reflexivity).
      assert (Hnew' : forall m' k', In m' (msgs (finish h m o s)) -> src_of m' = Some k' -> (k' <> k /\ In m' (queued s)) \/ (k' = k /\ l_seq s < m_seq m')).
      { intros m' k' Hin Hs'. destruct (Hnew m' Hin) as [Hold|[Hseq Hact]].
        - left. split; [|exact Hold]. intros ->. pose proof (s_uniq _ _ _ _ _ _ _ HSI) as Hu.
          unfold srcs_of in Hu. cbn [flat_map] in Hu. rewrite Hsrc in Hu. cbn [app] in Hu. inversion Hu as [|? ? Hn _]. apply Hn.
          apply srcs_of_In. exists m'. auto.
        - right. split; [|exact Hseq]. unfold src_of in Hs'. destruct (m_cb m') as [sid' k0|] eqn:Hcb'; [|discriminate]. injection Hs' as ->.
          destruct (Hpush _ _ _ Hact) as (? & ? & ? & ? & _ & _ & ? & _ & Ec & _); [discriminate|]. injection Ec as _ <-. reflexivity. }
      assert (Ec : forall q, cnt q (finish h m o s) = (cnt q s + (if Nat.eqb k q then 1 else 0))%nat).
      { intros q. rewrite Ew, Ej, app_length. destruct (Nat.eqb k q); reflexivity. }
      constructor; rewrite ?Ec.
      + destruct (Nat.eqb_spec k i), (Nat.eqb_spec k j); subst; try lia.
        pose proof (T4 m Hm Hsrc). lia.
      + intros E mi mj Hi Hj' Si Sj.
        destruct (Hnew' mi i Hi Si) as [[Ni Oi]|[Ni Oi]]; destruct (Hnew' mj j Hj' Sj) as [[Nj Oj]|[Nj Oj]].
        * destruct (Nat.eqb_spec k i), (Nat.eqb_spec k j); try lia.
          apply T2; rewrite ?Emsgs; try lia; try assumption; right; assumption.
        * pose proof (hand_src_old s (f_inv _ _ _ _ _ F) mi Oi). lia.
        * subst k. exfalso. rewrite Nat.eqb_refl in E. destruct (Nat.eqb_spec i j); [lia|]. lia.
        * lia.
      + rewrite Emode. discriminate.
    - cbn [sched_handler] in Hh. injection Hh as <- <- _. apply (TI_keep s); [exact T|exact Ew| |rewrite Emode; discriminate].
      intros m' Hin Hs'. rewrite Emsgs. right. destruct (Hnew m' Hin) as [Hold|[_ Hact]]; [exact Hold|].
      apply in_map_iff in Hact as (p & Ep & _). injection Ep as _ _ Ec. exfalso. apply Hs'. unfold src_of. rewrite <- Ec. reflexivity.
  Qed.

  Lemma TI_step s l s' : GI s -> TI s -> ok_label l -> l_step h s l = Some s' -> w_hung (l_w s') = false -> TI s'.
  Proof.
    intros HG T Hok Hstep Hh'. pose proof (g_FI _ HG) as F. pose proof (hung_step fuel cfg tz _ _ _ Hstep Hh') as Hh. pose proof (step_w h s l s' Hstep) as Hw. unfold l_step in Hstep.
    assert (Hother : forall a, ok_label (LOther (O := sout) a) -> (forall r, l_mode s <> Returned r) -> TI (do_act a s)).
    { intros a Ha Hnr.
      assert (Hwa : l_w (do_act a s) = l_w s) by (destruct a; [reflexivity|cbn; unfold do_stop; destruct (l_stop s); reflexivity]).
      apply (TI_keep s); [exact T|exact Hwa| |intros m0; rewrite mode_do_act; auto].
      intros m Hin Hs. unfold msgs, hand in *. rewrite mode_do_act in Hin. apply in_app_or in Hin as [Hin|Hin]; apply in_or_app; [left; exact Hin|right].
      destruct (acts_seq [a] s (f_inv _ _ _ _ _ F) Hnr m Hin) as [H|[_ [Ha'|[]]]]; [exact H|]. subst a.
      exfalso. unfold src_of in Hs. cbn in Ha. destruct (m_cb m); [exact Ha|apply Hs; reflexivity]. }
    destruct l as [ | | | |now ex| |o|a| ]; destruct (l_mode s) as [| |m|m|r] eqn:Hm; try discriminate.
    - destruct (l_async s); [|discriminate]. injection Hstep as <-. apply (TI_keep s); [exact T|reflexivity| |discriminate].
      intros m. unfold msgs, hand. rewrite Hm. cbn. auto.
    - destruct (l_timer s); [|discriminate]. injection Hstep as <-. apply (TI_keep s); [exact T|reflexivity| |discriminate].
      intros m. unfold msgs, hand. rewrite Hm. cbn. auto.
    - destruct (l_sig s); [|discriminate]. injection Hstep as <-. destruct Hw as [Hw|(m0 & o0 & E & _)]; [|congruence].
      match goal with |- TI (do_stop ?t) => destruct (do_stop_fields t) as (_ & D2 & D3 & _) end.
      apply (TI_keep s); [exact T|exact Hw| |].
      + intros m. unfold msgs, hand. rewrite D3, D2. cbn. rewrite Hm. auto.
      + intros m. rewrite D3. cbn. auto.
    - injection Hstep as <-. apply (TI_keep s); [exact T|reflexivity|auto|cbn; auto].
    - injection Hstep as <-. apply (TI_keep s); [exact T|reflexivity|auto|cbn; auto].
    - injection Hstep as <-. apply (TI_keep s); [exact T|reflexivity|auto|cbn; auto].
    - injection Hstep as <-. apply (TI_keep s); [exact T|reflexivity|auto|cbn; auto].
    - injection Hstep as <-. apply TI_turn; assumption.
    - injection Hstep as <-. destruct Hw as [Hw|(m0 & o0 & E & _)]; [|congruence].
      unfold arm in *. destruct (leave_fields (push_msg m false (set_timer (Some (m_time m)) s))) as (_ & E2 & E3 & _).
      apply (TI_keep s); [exact T|exact Hw| |rewrite E3; discriminate].
      intros m0. unfold msgs, hand. rewrite E2, E3, Hm. cbn [app]. intros Hin _.
      unfold queued, push_msg in Hin. cbn [set_q set_timer l_q] in Hin.
      destruct (push_q_ok (l_q s) m (i_heap _ (f_inv _ _ _ _ _ F)) (i_keys _ (f_inv _ _ _ _ _ F))) as (_ & _ & G).
      apply (Permutation_in _ G) in Hin. exact Hin.
    - injection Hstep as <-. apply TI_finish; assumption.
    - injection Hstep as <-. apply Hother; [exact Hok|congruence].
    - injection Hstep as <-. apply Hother; [exact Hok|congruence].
    - injection Hstep as <-. apply Hother; [exact Hok|congruence].
    - injection Hstep as <-. apply Hother; [exact Hok|congruence].
    - destruct (l_uvstop s); [|discriminate]. injection Hstep as <-. apply (TI_keep s); [exact T|reflexivity| |discriminate].
      intros m. unfold msgs, hand. cbn. rewrite Hm. auto.
  Qed.

  Lemma TI_exec ls : forall s s', (forall l1 l2 s1, ls = l1 ++ l2 -> l_exec h s l1 = Some s1 -> GI s1) -> TI s ->
    Forall (ok_label) ls -> l_exec h s ls = Some s' -> w_hung (l_w s') = false -> TI s'.
  Proof.
    induction ls as [|l ls IH]; intros s s' HG T Hok Hex Hh; cbn [l_exec] in Hex.
    - injection Hex as <-; auto.
    - inversion Hok; subst. destruct (l_step h s l) as [s1|] eqn:E; [|discriminate].
      eapply IH; [|eapply TI_step; try eassumption|assumption|exact Hex|exact Hh].
      + intros l1 l2 s2 El Hx. apply (HG (l :: l1) l2 s2); [cbn [app]; f_equal; exact El|]. cbn [l_exec]. rewrite E. exact Hx.
      + apply (HG [] (l :: ls) s); reflexivity.
      + eapply hung_exec; eassumption.
  Qed.
End Tie.

Lemma same_day_app {C W} (h : handler C W sout) tz a b : forall s, same_day h tz s (a ++ b) -> same_day h tz s a.
Proof.
  induction a as [|l a IH]; intros s; cbn [app same_day]; [auto|]. intros [H1 H2]. split; [exact H1|]. destruct (l_step h s l); [apply IH; exact H2|exact I].
Qed.
Lemma begins_le {A} (a b S : list A) : begins a S -> begins b S -> (length a <= length b)%nat -> begins a b.
Proof.
  intros [x ->] [y E] L. revert b E L. induction a as [|z a IH]; intros b E L; [exists b; reflexivity|].
  destruct b as [|z' b]; cbn [length] in L; [lia|]. cbn [app] in E. injection E as <- E. destruct (IH b E ltac:(lia)) as [t ->]. exists t. reflexivity.
Qed.

(** two entries of a process *)
Section Two.
  Variables (fuel : nat) (cfg : escfg) (sc : scfg) (tz st : Z) (now : nat -> Z) (calls : list ucall) (ns : dict str obj) (dates : list Z).
  Variables (s4 : strat) (s0 s : lstate scb sworld) (ls : list (label scb sout)) (ps : list (Z * Z)).
  Notation lc := (loop_cfg cfg sc s4).
  Notation h := (sched_handler fuel lc tz).
  Hypothesis Hstart : start fuel cfg sc tz st None now calls ns dates = Some (s4, s0).
  Hypothesis Hlen : length dates = length (st_srcs s4).
  Hypothesis Hok : Forall ok_label ls.
  Hypothesis Hex : l_exec h s0 ls = Some s.
  Hypothesis Hhist : cf_hist cfg = false.
  Hypothesis Hmp : market_period sc s4 = raw_of ps.
  Hypothesis Hps : Forall (fun p => tod_ok (fst p) /\ tod_ok (snd p)) ps.
  Hypothesis Hwhole : Forall (fun p => fst p mod US = 0 /\ snd p mod US = 0) ps.
  Hypothesis Hne : ps <> [].
  Hypothesis Hf1 : (1441 <= fuel)%nat.
  Hypothesis Hf2 : (Z.to_nat (cf_count cfg) < fuel)%nat.
  Hypothesis Htz : tz mod US = 0.
  Hypothesis Hsame : same_day h tz s0 ls.
  Hypothesis Hw2 : 2 <= cf_count cfg.
  Variable d : Z.
  Notation np := (length (st_srcs s4) - length (asked calls))%nat.
  Notation tasks k a offs := (map (fun o => (o, cls_of k (desc_of a))) offs).
  Notation W k a offs := (win lc (now k) (tasks k a offs)).
  Notation stl := (starts lc d).

  (** one entry *)
  Section One.
    Variables (k : nat) (n : str) (id : nat) (t : str) (offs : list Z).
    Hypothesis Hk : nth_error (asked calls) k = Some (n, id, t).
    Hypothesis Ho : owes ps t offs.
    Hypothesis Hd : nth_error dates (np + k) = Some d.
    Hypothesis Hoffs : Forall tod_ok offs.
    Hypothesis Hnil : offs <> [].
    Hypothesis Hnow : dt_date (now k) <= d.
    Notation Wk := (W k (n, id, t) offs).

    Lemma one_pos l1 l2 s1 : ls = l1 ++ l2 -> l_exec h s0 l1 = Some s1 ->
      FI fuel lc tz (w_srcs (l_w s0)) s1 /\
      exists es N pre, nth_error (w_srcs (l_w s1)) (np + k) = Some es /\ es_end es = None /\
        emitted (np + k) (l_w s1) = flat_map Wk (stl N) ++ pre /\ Wk (d + Z.of_nat N * (cf_count lc - 1)) = pre ++ pend (now k) (tasks k (n, id, t) offs) es.
    Proof.
      intros El E1.
      assert (Hok1 : Forall ok_label l1) by (rewrite El in Hok; apply Forall_app in Hok; tauto).
      assert (Hsd1 : same_day h tz s0 l1) by (eapply same_day_app; rewrite <- El; exact Hsame).
      pose proof (long_boot fuel cfg sc tz st now calls ns dates s4 s0 Hstart) as Hb.
      destruct (boot_FI fuel lc tz ltac:(lia) (st_srcs s4) dates s0 Hb Hlen) as (F & _ & _).
      destruct (LI_same_day fuel lc tz _ ltac:(lia) Hhist (np + k) (now k) (tasks k (n, id, t) offs) d l1 Htz s0 s1 Hsd1 F) as ((es & done & cur & pre & H1 & H2 & Hc & He & HW) & F').
      { eapply long_LI; try eassumption. }
      { exact Hok1. } { exact E1. }
      split; [exact F'|].
      destruct (chain_starts lc (now k) (cls_of k (desc_of (n, id, t))) offs d Hoffs Hnil Hw2 Hnow (owes_whole ps t offs Hne Hwhole Ho) _ Hc) as (N & EN).
      rewrite starts_S in EN. apply app_inj_tail in EN as [-> ->]. exists es, N, pre. split; [exact H1|]. split; [exact (proj2 H2)|]. split; [exact He|exact HW].
    Qed.

    Definition key_at (c : nat) (q : Z * Z) : Prop := exists N e, nth_error (flat_map Wk (stl N)) c = Some e /\ ekey tz e = q.
    Lemma one_key l1 l2 s1 m : ls = l1 ++ l2 -> l_exec h s0 l1 = Some s1 -> In m (msgs s1) -> src_of m = Some (np + k)%nat ->
      key_at (length (emitted (np + k) (l_w s1))) (m_time m, m_prio m).
    Proof.
      intros El E1 Hin Hs. destruct (one_pos l1 l2 s1 El E1) as (F & es & N & pre & Hes & Hen & He & HW).
      pose proof (f_SI _ _ _ _ _ F) as [G1 G2 G3 G4 G5]. unfold src_of in Hs.
      destruct (m_cb m) as [sid k0|] eqn:Hcb; [|discriminate]. injection Hs as ->.
      destruct (G3 m sid _ Hin Hcb) as (_ & es' & Ek & dt & c & rest & Hset & Hev & Hmt & Hmp'). rewrite Hes in Ek. injection Ek as <-.
      exists (S N), (dt, c). split; [|unfold ekey; cbn [fst snd]; congruence].
      rewrite starts_S, flat_map_app. cbn [flat_map]. rewrite app_nil_r, HW, pend_live, Hev by exact Hen. cbn [app].
      rewrite He, app_assoc, nth_error_app2 by lia. rewrite Nat.sub_diag. reflexivity.
    Qed.
    Lemma one_there l1 l2 s1 : ls = l1 ++ l2 -> l_exec h s0 l1 = Some s1 -> l_stop s1 = false -> w_hung (l_w s1) = false ->
      exists m, In m (msgs s1) /\ src_of m = Some (np + k)%nat.
    Proof.
      intros El E1 Est Hh. destruct (one_pos l1 l2 s1 El E1) as (F & es & N & pre & Hes & Hen & He & HW).
      pose proof (f_SI _ _ _ _ _ F) as [G1 G2 G3 G4 G5].
      destruct (G5 Est Hh _ es Hes) as [Hin|[[Hn Hset] Hev]]; [apply srcs_of_In; exact Hin|].
      exfalso. destruct (Hset Hev) as [_ Hg]. specialize (Hg 0). unfold get_days in Hg. rewrite Hen in Hg.
      change (cf_hist lc) with (cf_hist cfg) in Hg. change (cf_count lc) with (cf_count cfg) in Hg. rewrite Hhist in Hg. cbn [orb] in Hg.
      apply Ok_inj in Hg. assert (EL : length (day_range 0 (cf_count cfg)) = 0%nat) by (injection Hg as -> _; reflexivity).
      rewrite day_range_length in EL. lia.
    Qed.
    Lemma one_begins : exists N, begins (emitted (np + k) (l_w s)) (flat_map Wk (stl N)).
    Proof.
      destruct (one_pos ls [] s ltac:(rewrite app_nil_r; reflexivity) Hex) as (F & es & N & pre & Hes & Hen & He & HW).
      exists (S N). rewrite starts_S, flat_map_app. cbn [flat_map]. rewrite app_nil_r, HW, He, app_assoc. eexists; reflexivity.
    Qed.
  End One.

  Lemma starts_more N M : exists r, stl (N + M) = stl N ++ r.
  Proof. unfold starts. rewrite seq_app, map_app. eexists; reflexivity. Qed.
  Lemma stream_le (V : Z -> list (Z * ecls)) N M : begins (flat_map V (stl N)) (flat_map V (stl (N + M))).
  Proof. destruct (starts_more N M) as [r ->]. rewrite flat_map_app. eexists; reflexivity. Qed.

  Variables (i : nat) (ni : str) (idi : nat) (ti : str) (oi : list Z) (j : nat) (nj : str) (idj : nat) (tj : str) (oj S : list Z).
  Hypothesis Hij : (i < j)%nat.
  Hypothesis Hi : nth_error (asked calls) i = Some (ni, idi, ti).
  Hypothesis Hoi : owes ps ti oi.
  Hypothesis Hj : nth_error (asked calls) j = Some (nj, idj, tj).
  Hypothesis Hoj : owes ps tj oj.
  Hypothesis Het : str_eqb ti (lit "every_minute") = str_eqb tj (lit "every_minute").
  Hypothesis Hdi : nth_error dates (np + i) = Some d.
  Hypothesis Hdj : nth_error dates (np + j) = Some d.
  Hypothesis Hperm : Permutation oi oj.
  Hypothesis Hoffs : Forall tod_ok oi.
  Hypothesis Hnil : oi <> [].
  Hypothesis Hni : dt_date (now i) <= d.
  Hypothesis Hnj : dt_date (now j) <= d.
  Hypothesis HSi : owed_on (now i) oi d (d + cf_count cfg - 1) S.
  Hypothesis HSj : owed_on (now j) oj d (d + cf_count cfg - 1) S.
  Notation Wi := (W i (ni, idi, ti) oi).
  Notation Wj := (W j (nj, idj, tj) oj).

  Lemma Hoffsj : Forall tod_ok oj.
  Proof. rewrite Forall_forall in *. intros x Hx. apply Hoffs. apply (Permutation_in _ (Permutation_sym Hperm)). exact Hx. Qed.
  Lemma Hnilj : oj <> [].
  Proof. intros E. apply Hnil. apply Permutation_nil. rewrite <- E. apply Permutation_sym. exact Hperm. Qed.

  (** after the first day both clock readings are in the past *)
  Lemma owed_moved a S' : d < a -> owed_on (now i) oi a (a + cf_count cfg - 1) S' -> owed_on (now j) oj a (a + cf_count cfg - 1) S'.
  Proof.
    intros Ha (days & ll & Hc & HF & ->). exists days, ll. split; [exact Hc|]. split; [|reflexivity].
    assert (Hge : forall x, In x days -> a <= x) by (destruct Hc as [Hc _]; intros x Hx; apply Hc in Hx; lia).
    clear Hc. induction HF as [|x l days ll [HP HSS] HF IH]; constructor.
    - split; [|exact HSS]. eapply Permutation_trans; [exact HP|].
      assert (Hx := Hge x (or_introl eq_refl)).
      assert (All : forall now0 offs, dt_date now0 <= d -> Forall tod_ok offs -> filter (fun t => now0 <=? t) (map (fun o => x * DAY + o) offs) = map (fun o => x * DAY + o) offs).
      { intros now0 offs Hn HFo. induction HFo as [|o offs Hto HFo IHo]; [reflexivity|]. cbn [map filter]. rewrite IHo.
        assert (E : now0 <=? x * DAY + o = true); [|rewrite E; reflexivity]. apply Z.leb_le. apply st_before; [exact Hto|lia]. }
      rewrite (All _ _ Hni Hoffs), (All _ _ Hnj Hoffsj). apply Permutation_map. exact Hperm.
    - apply IH. intros y Hy. apply Hge. right. exact Hy.
  Qed.

  Lemma win_fst N : map fst (Wi (d + Z.of_nat N * (cf_count lc - 1))) = map fst (Wj (d + Z.of_nat N * (cf_count lc - 1))).
  Proof.
    destruct N as [|N].
    - replace (d + Z.of_nat 0 * (cf_count lc - 1)) with d by lia.
      transitivity S; [symmetry|]; apply owed_eq; assumption.
    - set (a := d + Z.of_nat (Datatypes.S N) * (cf_count lc - 1)). assert (Ha : d < a) by (unfold a; change (cf_count lc) with (cf_count cfg); nia).
      destruct (owed_exists (now i) oi a (cf_count cfg)) as (S' & HS').
      transitivity S'; [symmetry|]; apply owed_eq; [exact HS'|apply owed_moved; assumption].
  Qed.
  Lemma stream_fst N : map fst (flat_map Wi (stl N)) = map fst (flat_map Wj (stl N)).
  Proof.
    induction N as [|N IH]; [reflexivity|]. rewrite starts_S, !flat_map_app, !map_app, IH. cbn [flat_map]. rewrite !app_nil_r, win_fst. reflexivity.
  Qed.
  Lemma prio_same : ec_prio (cls_of i (desc_of (ni, idi, ti))) = ec_prio (cls_of j (desc_of (nj, idj, tj))).
  Proof.
    assert (Ht : forall u, str_eqb (time_dict u) (lit "every_minute") = str_eqb u (lit "every_minute")).
    { intros u. unfold time_dict. destruct (str_eqb_spec u (lit "open")) as [->|]; [reflexivity|]. destruct (str_eqb_spec u (lit "close")) as [->|]; [reflexivity|].
      destruct (str_eqb_spec u (lit "before_open")) as [->|]; [reflexivity|]. destruct (str_eqb_spec u (lit "after_close")) as [->|]; reflexivity. }
    unfold cls_of, task_cls, prio_of, desc_of. cbn [ec_prio d_time fst snd]. rewrite !Ht, Het. reflexivity.
  Qed.
  Lemma stream_cls k a offs l e : In e (flat_map (W k a offs) l) -> snd e = cls_of k (desc_of a).
  Proof.
    intros H. apply in_flat_map in H as (x & _ & H). unfold win in H. apply in_flat_map in H as (y & _ & H). destruct (in_D _ _ _ _ _ H) as (o & _ & _ & E & _). exact E.
  Qed.
  Lemma key_both c q : key_at j nj idj tj oj c q -> key_at i ni idi ti oi c q.
  Proof.
    intros (N & e & He & <-). exists N.
    assert (E : nth_error (map fst (flat_map Wi (stl N))) c = Some (fst e)) by (rewrite stream_fst, nth_error_map, He; reflexivity).
    rewrite nth_error_map in E. destruct (nth_error (flat_map Wi (stl N)) c) as [e'|] eqn:E'; [|discriminate]. injection E as E. exists e'. split; [reflexivity|].
    unfold ekey. rewrite E, (stream_cls _ _ _ _ _ (nth_error_In _ _ E')), (stream_cls _ _ _ _ _ (nth_error_In _ _ He)), prio_same. reflexivity.
  Qed.
  Lemma key_fun c q q' : key_at i ni idi ti oi c q -> key_at i ni idi ti oi c q' -> q = q'.
  Proof.
    intros (N & e & He & <-) (M & e' & He' & <-).
    destruct (stream_le Wi N M) as [r Er]. destruct (stream_le Wi M N) as [r' Er'].
    assert (L : forall (l : list (Z * ecls)) x y, nth_error l c = Some x -> nth_error (l ++ y) c = Some x).
    { intros l x y Hx. rewrite nth_error_app1; [exact Hx|]. apply nth_error_Some. congruence. }
    pose proof (L _ _ r He) as A. rewrite <- Er in A. pose proof (L _ _ r' He') as B. rewrite <- Er', Nat.add_comm in B. congruence.
  Qed.

  Lemma two_years : w_hung (l_w s) = false ->
    begins (map fst (calls_of j (invoked s4 (l_w s)))) (map fst (calls_of i (invoked s4 (l_w s)))).
  Proof.
    intros Hh.
    pose proof (long_boot fuel cfg sc tz st now calls ns dates s4 s0 Hstart) as Hb.
    destruct (boot_FI fuel lc tz ltac:(lia) (st_srcs s4) dates s0 Hb Hlen) as (F & He & Hl).
    assert (T0 : TI (np + i) (np + j) s0).
    { assert (Ec : forall k, emitted k (l_w s0) = []) by (intros k; unfold emitted; rewrite He; reflexivity).
      constructor; rewrite ?Ec; cbn [length].
      - lia.
      - intros _ mi mj H1 H2 H3 H4. eapply (boot_ordered fuel lc tz (st_srcs s4) ltac:(lia) dates s0 Hb (np + i)%nat (np + j)%nat); try eassumption. lia.
      - pose proof (BI_all fuel lc tz (st_srcs s4) ltac:(lia) dates 0 _ _ (BI_init fuel lc tz (st_srcs s4) ltac:(lia)) Hb) as B.
        intros m Hm. rewrite (b_mode _ _ _ _ _ _ B) in Hm. discriminate. }
    assert (T : TI (np + i) (np + j) s).
    { eapply (TI_exec fuel lc tz (w_srcs (l_w s0)) ltac:(lia) (np + i) (np + j) ltac:(lia) (key_at i ni idi ti oi) key_fun ls s0 s); [|exact T0|exact Hok|exact Hex|exact Hh].
      intros l1 l2 s1 El E1. constructor.
      - exact (proj1 (one_pos i ni idi ti oi Hi Hoi Hdi Hoffs Hnil Hni l1 l2 s1 El E1)).
      - intros k m [->| ->] Hin Hs.
        + eapply one_key; eassumption.
        + apply key_both. eapply one_key; try eassumption; [exact Hoffsj|exact Hnilj].
      - intros Est Hh1. eapply one_there; eassumption. }
    rewrite (long_calls fuel cfg sc tz st now calls ns dates s4 s0 s ls Hstart Hlen Hok Hex Hhist Hf1 Hf2 i ni idi ti Hi).
    rewrite (long_calls fuel cfg sc tz st now calls ns dates s4 s0 s ls Hstart Hlen Hok Hex Hhist Hf1 Hf2 j nj idj tj Hj).
    destruct (one_begins i ni idi ti oi Hi Hoi Hdi Hoffs Hnil Hni) as (N & ri & Ri).
    destruct (one_begins j nj idj tj oj Hj Hoj Hdj Hoffsj Hnilj Hnj) as (M & rj & Rj).
    destruct (stream_le Wi N M) as [xi Xi]. destruct (stream_le Wj M N) as [xj Xj].
    apply (begins_le _ _ (map fst (flat_map Wi (stl (N + M))))).
    - rewrite stream_fst, (Nat.add_comm N M), Xj, Rj, !map_app, <- app_assoc. eexists; reflexivity.
    - rewrite Xi, Ri, !map_app, <- app_assoc. eexists; reflexivity.
    - rewrite !map_length. exact (t_le _ _ _ T).
  Qed.
End Two.
