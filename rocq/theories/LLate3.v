(** Nothing owed is left uncalled for long (C95). *)
From Coq Require Import Permutation Sorted.
From Verif Require Import PyBase PyStr LStr MTime MTimeExpr LTimeExpr SExpr MEventSource MQueue MLoop MSched MBus SBus LBus
  SQueue LQueue LLoop SEvent SSched LSort LEventSource LEventSource2 LSched LSched2 LSched3 MStrategy SStrategy LStrategy LStrategy2
  LLive LTie MProcess SProcess LProcess LProcess2 SLate LLate LLate2.
Open Scope Z_scope.

Section Busy.
  Variables (fuel : nat) (cfg : escfg) (tz : Z) (srcs : list esrc) (dates : list Z) (s0 : lstate scb sworld).
  Hypothesis Hfuel : (0 < fuel)%nat.
  Hypothesis Hlen : length dates = length srcs.
  Hypothesis Hboot : boot fuel cfg tz srcs dates = Some s0.
  Notation h := (sched_handler fuel cfg tz).
  Variables (ls : list (label scb sout)) (s : lstate scb sworld).
  Hypothesis Hok : Forall ok_label ls.
  Hypothesis Hex : l_exec h s0 ls = Some s.
  Variables (k0 : nat) (S : list (Z * ecls)).
  Hypothesis Hk0 : (k0 < length srcs)%nat.
  Hypothesis HS : forall es, nth_error (w_srcs (l_w s0)) k0 = Some es -> good fuel cfg es S.

  (** while a scheduler callback runs, the next event is not before its message *)
  Lemma one_busy m : l_mode s = Running m -> src_of m <> None -> w_hung (l_w s) = false ->
    forall y, nth_error S (length (emitted k0 (l_w s))) = Some y -> m_time m <= dt_to_milliseconds tz (fst y).
  Proof.
    intros Hm Hs Hh y Hy.
    destruct (one_inv fuel cfg tz srcs dates s0 Hfuel Hlen Hboot ls s Hok Hex k0 S Hk0 HS) as (F & N & Hl).
    pose proof (n_run _ _ _ _ N Hh m Hm Hs k0 y) as H. unfold next in H. rewrite Nat.eqb_refl in H.
    assert (H' := H ltac:(lia) Hy). unfold le_key in H'. lia.
  Qed.
End Busy.

Lemma turn_same s clock ex : l_w (check_turn clock ex s) = l_w (s : lstate scb sworld).
Proof.
  unfold check_turn. destruct (l_stop s) eqn:Es; [destruct (leave_fields s) as (E & _); exact E|].
  destruct (q_pop (l_q s)) as [[m|x] q'].
  - destruct (clock <? m_time m); [|reflexivity]. destruct ex; [|reflexivity].
    destruct (leave_fields (do_stop (set_q q' s))) as (E & _). rewrite E. unfold do_stop. destruct (l_stop (set_q q' s)); reflexivity.
  - destruct (leave_fields (set_stop true s)) as (E & _). rewrite E. reflexivity.
Qed.
Lemma turn_running s clock ex m : l_mode (check_turn clock ex s) = Running m -> l_mode s = Checking ->
  In (m, clock) (l_log (check_turn clock ex (s : lstate scb sworld))).
Proof.
  unfold check_turn. destruct (l_stop s) eqn:Es; [destruct (leave_fields s) as (_ & _ & E & _); rewrite E; discriminate|].
  destruct (q_pop (l_q s)) as [[m'|x] q'].
  - destruct (clock <? m_time m').
    + destruct ex; [|discriminate]. destruct (leave_fields (do_stop (set_q q' s))) as (_ & _ & E & _). rewrite E. discriminate.
    + cbn. intros E _. injection E as <-. apply in_or_app. right. left. reflexivity.
  - destruct (leave_fields (set_stop true s)) as (_ & _ & E & _). rewrite E. discriminate.
Qed.

Section Process.
  Variables (fuel : nat) (cfg : escfg) (sc : scfg) (tz st : Z) (now : nat -> Z) (calls : list ucall) (ns : dict str obj) (dates : list Z).
  Variables (s4 : strat) (s0 s s' : lstate scb sworld) (ls : list (label scb sout)) (ps : list (Z * Z)) (clock : Z) (ex : bool) (B : Z).
  Hypothesis Hstart : start fuel cfg sc tz st None now calls ns dates = Some (s4, s0).
  Hypothesis Hlen : length dates = length (st_srcs s4).
  Notation h := (sched_handler fuel (loop_cfg cfg sc s4) tz).
  Hypothesis Hex : l_exec h s0 ls = Some s.
  Hypothesis Hturn : l_step h s (LTurn clock ex) = Some s'.
  Hypothesis Hgo : (exists m, l_mode s' = Running m) \/ (exists m, l_mode s' = Arming m).
  Hypothesis Hhist : cf_hist cfg = false.
  Hypothesis Hmp : market_period sc s4 = raw_of ps.
  Hypothesis Hps : Forall (fun p => tod_ok (fst p) /\ tod_ok (snd p)) ps.
  Hypothesis Hwhole : Forall (fun p => fst p mod US = 0 /\ snd p mod US = 0) ps.
  Hypothesis Hne : ps <> [].
  Hypothesis Hf1 : (1441 <= fuel)%nat.
  Hypothesis Hf2 : (Z.to_nat (cf_count cfg) < fuel)%nat.
  Hypothesis Htz : tz mod US = 0.
  Hypothesis Hpush : Forall no_push ls.
  Hypothesis Hdefer : Forall no_defer ls.
  Hypothesis HB : 0 <= B.
  Hypothesis Hlate : forall m t, In (m, t) (l_log s') -> t <= m_time m + B.

  Lemma process_caught_up k n id t offs d S :
    w_hung (l_w s) = false ->
    nth_error (asked calls) k = Some (n, id, t) -> owes ps t offs ->
    nth_error dates (npre calls s4 + k) = Some d -> owed_on (now k) offs d (d + cf_count cfg - 1) S ->
    exists r, map fst (calls_of k (invoked s4 (l_w s'))) = filter (fun y => y - tz <? (clock - B) * 1000) S ++ r.
  Proof.
    intros Hh Hk Ho Hd HSd.
    assert (Hoks : Forall ok_label ls) by (eapply Forall_impl; [apply no_push_ok|exact Hpush]).
    assert (Hc : l_mode s = Checking /\ s' = check_turn clock ex s).
    { unfold l_step in Hturn. destruct (l_mode s); try discriminate. injection Hturn as <-. auto. }
    destruct Hc as [Hc Es'].
    assert (Hw : l_w s' = l_w s) by (rewrite Es'; apply turn_same).
    assert (Hex' : l_exec h s0 (ls ++ [LTurn clock ex]) = Some s') by (eapply exec_snoc; eassumption).
    assert (Hok' : Forall ok_label (ls ++ [LTurn clock ex])) by (apply Forall_app; split; [exact Hoks|repeat constructor]).
    assert (Hrun : runs fuel cfg sc tz st None now calls ns dates s4 s') by (exists s0, (ls ++ [LTurn clock ex]); auto).
    assert (Hboot := start_boot _ _ _ _ _ _ _ _ _ _ _ Hstart).
    rewrite (calls_emitted fuel cfg sc tz st now calls ns dates s4 s' Hrun Hhist Hf1 Hf2 k n id t Hk), map_map. cbn [fst].
    destruct (entry_good fuel cfg sc tz st now calls ns dates s4 s' ps Hrun Hhist Hmp Hps Hwhole Hne Hf1 Hf2 k n id t offs d s0 Hboot Hlen Hk Ho Hd) as [Hlt Hg].
    destruct (window_facts fuel cfg tz now calls ps Hps Hwhole Hne Hf1 Hf2 Htz k n id t offs d S Hk Ho HSd) as (ES & HsS & HsW & HFW).
    set (W := flat_map _ _) in *.
    destruct (one_comparable fuel _ tz (st_srcs s4) dates s0 ltac:(lia) Hlen Hboot _ s' Hok' Hex' _ _ Hlt Hg) as (t' & Ht).
    apply prefix_covers.
    - intros a b Hab. rewrite !Z.ltb_lt. lia.
    - exact HsS.
    - rewrite ES. exists (map fst t'). destruct Ht as [Ht|Ht]; [left|right]; rewrite Ht, map_app; reflexivity.
    - intros y Hy. rewrite map_length in Hy. rewrite ES, nth_error_map in Hy.
      destruct (nth_error W (length (emitted (npre calls s4 + k) (l_w s')))) as [ye|] eqn:EW; [|discriminate]. injection Hy as <-.
      rewrite Forall_forall in HFW. destruct (HFW ye (nth_error_In _ _ EW)) as [_ Hyw].
      destruct (ms_whole tz (fst ye) Htz Hyw) as [E1 E2]. unfold milliseconds_to_dt in E2. apply Z.ltb_ge.
      destruct Hgo as [[m Hm]|[m Hm]].
      + assert (Hsrc : src_of m <> None).
        { assert (Hp' : Forall no_push (ls ++ [LTurn clock ex])) by (apply Forall_app; split; [exact Hpush|repeat constructor]).
          assert (Hd' : Forall no_defer (ls ++ [LTurn clock ex])) by (apply Forall_app; split; [exact Hdefer|repeat constructor]).
          apply (e_src _ _ (late_LE fuel _ tz _ ltac:(lia) dates s0 s' _ Hlen Hboot Hp' Hd' Hex')).
          unfold msgs, hand. rewrite Hm. left. reflexivity. }
        rewrite <- Hw in Hh.
        pose proof (one_busy fuel _ tz (st_srcs s4) dates s0 ltac:(lia) Hlen Hboot _ s' Hok' Hex' _ _ Hlt Hg m Hm Hsrc Hh ye EW) as Hle.
        assert (Hl : clock <= m_time m + B). { apply Hlate. rewrite Es'. apply turn_running; [rewrite <- Es'; exact Hm|exact Hc]. }
        lia.
      + rewrite Es' in Hm. rewrite Hw in EW.
        pose proof (one_sleep fuel _ tz (st_srcs s4) dates s0 ltac:(lia) Hlen Hboot ls s Hoks Hex _ _ Hlt Hg clock ex m Hc Hh Hm ye EW) as Hle. lia.
  Qed.
End Process.
