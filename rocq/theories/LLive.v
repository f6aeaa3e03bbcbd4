(** Runs of sources that deliver a known first stretch of events (C58, C59): live sources
    in their first generation window. *)
From Coq Require Import Permutation Sorted.
From Verif Require Import PyBase PyStr MTime MTimeExpr MEventSource MQueue MLoop MSched
  SQueue LQueue LLoop SEvent SSched LSort LEventSource LEventSource2 LSched LSched2 LSched3.
Open Scope Z_scope.

(** the first [length S] gets answer [S], whatever the dates seen *)
Definition good (fuel : nat) (cfg : escfg) (es0 : esrc) (S : list (Z * ecls)) : Prop :=
  forall dates, (length dates <= length S)%nat ->
    exists es', get_events fuel cfg dates es0 = GOk (map Some (firstn (length dates) S), es').

(** one of the lists is a beginning of the other *)
Definition comparable {A} (l S : list A) : Prop := exists t, S = l ++ t \/ l = S ++ t.

Lemma map_Some_inj {A} (a b : list A) : map Some a = map Some b -> a = b.
Proof.
  revert b; induction a as [|x a IH]; intros [|y b]; cbn; try discriminate; [reflexivity|].
  intros H; injection H as <- H. f_equal. apply IH; exact H.
Qed.

Lemma get_events_split fuel cfg d1 : forall d2 es rs es2, get_events fuel cfg (d1 ++ d2) es = GOk (rs, es2) ->
  exists rs1 rs2 es1, get_events fuel cfg d1 es = GOk (rs1, es1) /\ get_events fuel cfg d2 es1 = GOk (rs2, es2) /\ rs = rs1 ++ rs2.
Proof.
  induction d1 as [|d d1 IH]; intros d2 es rs es2; cbn [app get_events].
  - intros H. exists [], rs, es. auto.
  - destruct (get_next_event fuel cfg d es) as [[r es']| |]; try discriminate.
    destruct (get_events fuel cfg (d1 ++ d2) es') as [[rs' es'']| |] eqn:E; try discriminate.
    intros H; injection H as <- <-. destruct (IH _ _ _ _ E) as (rs1 & rs2 & es1 & -> & E2 & ->).
    exists (r :: rs1), rs2, es1. auto.
Qed.

Lemma rel_good fuel cfg es0 S em es : good fuel cfg es0 S -> rel fuel cfg es0 em es ->
  ((length em <= length S)%nat -> em = firstn (length em) S) /\
  ((length S <= length em)%nat -> firstn (length S) em = S).
Proof.
  intros Hg (dates & esa & H & _).
  pose proof (get_events_length _ _ _ _ _ _ H) as Hl. rewrite map_length in Hl. split; intros Hle.
  - destruct (Hg dates) as (es' & E); [lia|]. rewrite E in H. injection H as H _. apply map_Some_inj in H.
    rewrite <- Hl in H. symmetry; exact H.
  - rewrite <- (firstn_skipn (length S) dates) in H. apply get_events_split in H as (rs1 & rs2 & es1 & E1 & _ & E).
    assert (Hl1 : length (firstn (length S) dates) = length S) by (apply firstn_length_le; lia).
    destruct (Hg (firstn (length S) dates)) as (es' & E'); [lia|]. rewrite E' in E1. injection E1 as <- _.
    rewrite Hl1, firstn_all in E. clear - E. revert em E. induction S as [|x S IH]; intros [|y em] E; cbn in *; try discriminate; [reflexivity|reflexivity|].
    injection E as -> E. f_equal. apply IH; exact E.
Qed.

Lemma rel_comparable fuel cfg es0 S em es : good fuel cfg es0 S -> rel fuel cfg es0 em es -> comparable em S.
Proof.
  intros Hg Hr. destruct (rel_good _ _ _ _ _ _ Hg Hr) as [H1 H2].
  destruct (Nat.le_gt_cases (length em) (length S)) as [Hle|Hgt].
  - exists (skipn (length em) S). left. rewrite (H1 Hle) at 1. rewrite firstn_skipn. reflexivity.
  - exists (skipn (length S) em). right. rewrite <- (H2 ltac:(lia)) at 1. symmetry. apply firstn_skipn.
Qed.

(** a settled source inside the stretch holds the next event of it *)
Lemma rel_head fuel cfg es0 S em es e : (0 < fuel)%nat -> good fuel cfg es0 S -> rel fuel cfg es0 em es ->
  nth_error S (length em) = Some e -> settled cfg es -> exists rest, es_events es = e :: rest.
Proof.
  intros Hf Hg Hr He Hs.
  assert (Hlt : (length em < length S)%nat) by (apply nth_error_Some; congruence).
  destruct (rel_good _ _ _ _ _ _ Hg Hr) as [Hem _]. specialize (Hem ltac:(lia)).
  assert (Hget : forall t, exists r es', get_next_event fuel cfg t es = GOk (r, es') /\ r = hd_error (es_events es)).
  { intros t. unfold get_next_event. rewrite (settled_gen cfg t fuel es Hs Hf). destruct (es_events es); eauto. }
  destruct (Hget 0) as (r & es' & Eg & Er).
  assert (Ea : exists dates esb, get_events fuel cfg dates es0 = GOk (map Some em ++ [r], esb)).
  { destruct Hr as (dates & esa & H1 & H2). destruct H2 as [->|(t0 & r0 & Hp)].
    - exists (dates ++ [0]), es'. eapply get_events_snoc; eassumption.
    - destruct (peek_preview _ _ _ _ _ _ Hp) as (Hr0 & Hga & _). exists (dates ++ [t0]), (es_drop_first es).
      eapply get_events_snoc; [exact H1|]. rewrite Er, <- Hr0. exact Hga. }
  destruct Ea as (dates & esb & Ea). pose proof (get_events_length _ _ _ _ _ _ Ea) as Hl.
  rewrite app_length, map_length in Hl. cbn [length] in Hl.
  destruct (Hg dates) as (es2 & E2); [lia|]. rewrite E2 in Ea. injection Ea as Ea _.
  rewrite <- Hl in Ea. replace (length em + 1)%nat with (Datatypes.S (length em)) in Ea by lia.
  assert (Ef : firstn (Datatypes.S (length em)) S = firstn (length em) S ++ [e]).
  { clear - He. revert S He. induction (length em) as [|n IH]; intros [|x S] He; cbn in *; try discriminate; [injection He as ->; reflexivity|].
    f_equal. apply IH; exact He. }
  rewrite Ef, map_app, <- Hem in Ea. apply app_inv_head in Ea. cbn in Ea. injection Ea as <-.
  destruct (es_events es) as [|x rest]; cbn in Er; [discriminate|]. injection Er as <-. exists rest; reflexivity.
Qed.

(** ** start-up *)
Section Boot.
  Variables (fuel : nat) (cfg : escfg) (tz : Z).
  Hypothesis Hfuel : (0 < fuel)%nat.

  Lemma schedule_srcs k d s s' : schedule fuel cfg tz k d s = Some s' ->
    exists es r es2, nth_error (w_srcs (l_w s)) k = Some es /\ peek_next_event fuel cfg d es = GOk (r, es2) /\
      w_srcs (l_w s') = lset k es2 (w_srcs (l_w s)).
  Proof.
    unfold schedule. cbn [w_srcs]. destruct (nth_error (w_srcs (l_w s)) k) as [es|] eqn:Hk; [|discriminate].
    assert (Hact : forall acts (s3 : lstate scb sworld), l_w (fold_left (fun st a => do_act a st) acts s3) = l_w s3).
    { induction acts as [|a acts IH]; intros s3; [reflexivity|]. cbn [fold_left]. rewrite IH. destruct a; [reflexivity|].
      cbn. unfold do_stop. destruct (l_stop s3); reflexivity. }
    unfold push_next. destruct (peek_next_event fuel cfg d es) as [[[[dt c]|] es2]|x|] eqn:Hp; try discriminate.
    - destruct (w_hung _); [discriminate|]. intros H; injection H as <-. exists es, (Some (dt, c)), es2. auto.
    - destruct (w_hung _); [discriminate|]. intros H; injection H as <-. exists es, None, es2. auto.
  Qed.

  Lemma schedule_all_srcs dates : forall k s s', schedule_all fuel cfg tz k dates s = Some s' ->
    (forall j, (j < k)%nat -> nth_error (w_srcs (l_w s')) j = nth_error (w_srcs (l_w s)) j) /\
    (forall j d, nth_error dates j = Some d -> exists es r es2, nth_error (w_srcs (l_w s)) (k + j) = Some es /\
       peek_next_event fuel cfg d es = GOk (r, es2) /\ nth_error (w_srcs (l_w s')) (k + j) = Some es2).
  Proof.
    induction dates as [|d dates IH]; intros k s s'; cbn [schedule_all].
    - intros H; injection H as <-. split; [reflexivity|]. intros [|j] d; discriminate.
    - destruct (schedule fuel cfg tz k d s) as [s1|] eqn:E; [|discriminate]. intros H.
      destruct (schedule_srcs _ _ _ _ E) as (es & r & es2 & H1 & H2 & H3). destruct (IH _ _ _ H) as [G1 G2].
      assert (Hlt : (k < length (w_srcs (l_w s)))%nat) by (apply nth_error_Some; congruence).
      split.
      + intros j Hj. rewrite G1 by lia. rewrite H3. apply nth_lset_other. lia.
      + intros [|j] d'; cbn [nth_error].
        * intros Hd; injection Hd as <-. exists es, r, es2. rewrite Nat.add_0_r. split; [exact H1|]. split; [exact H2|].
          rewrite G1 by lia. rewrite H3. apply nth_lset_same; exact Hlt.
        * intros Hd. destruct (G2 j d' Hd) as (esj & rj & esj2 & K1 & K2 & K3). exists esj, rj, esj2.
          replace (k + Datatypes.S j)%nat with (Datatypes.S k + j)%nat by lia. split; [|split; assumption].
          rewrite H3 in K1. rewrite nth_lset_other in K1 by lia. exact K1.
  Qed.

  (** after start-up every source has been peeked once, at its own date *)
  Lemma boot_srcs srcs dates s0 : boot fuel cfg tz srcs dates = Some s0 -> length dates = length srcs ->
    forall k d, nth_error dates k = Some d -> exists es r es2, nth_error srcs k = Some es /\
      peek_next_event fuel cfg d es = GOk (r, es2) /\ nth_error (w_srcs (l_w s0)) k = Some es2.
  Proof.
    intros Hb _ k d Hd. unfold boot in Hb. destruct (schedule_all_srcs _ _ _ _ Hb) as [_ H]. exact (H k d Hd).
  Qed.

  (** the invariants hold after start-up with respect to the peeked sources *)
  Lemma boot_FI srcs dates s0 : boot fuel cfg tz srcs dates = Some s0 -> length dates = length srcs ->
    FI fuel cfg tz (w_srcs (l_w s0)) s0 /\ w_emits (l_w s0) = [] /\ length (w_srcs (l_w s0)) = length srcs.
  Proof.
    intros Hb Hl. unfold boot in Hb.
    pose proof (BI_all fuel cfg tz srcs Hfuel dates 0 _ _ (BI_init fuel cfg tz srcs Hfuel) Hb) as [B1 B2 B3 B4 B5 B6 B7 B8].
    cbn [plus] in *. destruct B2 as [G1 G2 G3 G4 G5]. split; [|split; [exact B5|exact G1]]. constructor.
    - exact B1.
    - constructor; try assumption; try reflexivity.
      + intros k es0 es H1 H2. rewrite H1 in H2. injection H2 as <-. unfold emitted. rewrite B5. exists [], es0. split; [reflexivity|left; reflexivity].
      + intros _ _ k es Hk. apply (B7 k es); [|exact Hk]. rewrite Hl, <- G1. apply nth_error_Some. congruence.
    - intros _. constructor; rewrite B5; [constructor|]. intros k e m k' [].
    - rewrite B3. discriminate.
  Qed.
End Boot.

(** ** executions *)
Section Run.
  Variables (fuel : nat) (cfg : escfg) (tz : Z) (srcs1 : list esrc) (Ss : nat -> list (Z * ecls)).
  Hypothesis Hfuel : (0 < fuel)%nat.
  Hypothesis Hgood : forall k es, nth_error srcs1 k = Some es -> good fuel cfg es (Ss k).
  Implicit Types w : sworld.
  Implicit Types s : lstate scb sworld.
  Notation h := (sched_handler fuel cfg tz).
  Notation FI := (FI fuel cfg tz srcs1).

  (** the event of its stretch that source [k] has not delivered yet *)
  Definition next k w : option (Z * ecls) := nth_error (Ss k) (length (emitted k w)).

  Record NI s : Prop := {
    n_run : w_hung (l_w s) = false -> forall m, l_mode s = Running m -> src_of m <> None ->
      forall k y, (k < length srcs1)%nat -> next k (l_w s) = Some y -> le_key (m_time m) (m_prio m) (dt_to_milliseconds tz (fst y)) (ec_prio (snd y));
    n_em : w_hung (l_w s) = false -> forall j e, In (j, e) (w_emits (l_w s)) ->
      forall k y, (k < length srcs1)%nat -> StronglySorted (le_ev tz) (Ss k) -> next k (l_w s) = Some y -> le_ev tz e y
  }.

  Lemma NI_keep s s' : NI s -> l_w s' = l_w s ->
    (forall m, l_mode s' = Running m -> src_of m <> None -> l_mode s = Running m) -> NI s'.
  Proof.
    intros [N1 N2] Ew Hr. constructor; rewrite Ew; [|exact N2].
    intros Hh m Hm Hs. apply (N1 Hh m); auto.
  Qed.

  Lemma emitted_fold_w w w' k e : w_emits w' = w_emits w ++ [(k, e)] ->
    forall j, emitted j w' = emitted j w ++ (if Nat.eqb k j then [e] else []).
  Proof. intros E j. unfold emitted. rewrite E, filter_app, map_app. cbn [filter fst map]. destruct (Nat.eqb k j); reflexivity. Qed.

  Lemma emits_in_emitted w j e : In (j, e) (w_emits w) -> In e (emitted j w).
  Proof. intros H. unfold emitted. apply in_map_iff. exists (j, e). split; [reflexivity|]. apply filter_In. split; [exact H|apply Nat.eqb_refl]. Qed.

  Lemma hung_mono cb o w w' acts x : h cb o w = (w', acts, x) -> w_hung w' = false -> w_hung w = false.
  Proof.
    destruct cb as [sid k|]; cbn [sched_handler]; [|intros H; injection H as <- _ _; auto].
    unfold sched_callback. destruct (negb (dmem sid (w_reg w))); [intros H; injection H as <- _ _; auto|].
    destruct (nth_error (w_srcs w) k) as [es|]; [|intros H; injection H as <- _ _; auto].
    destruct (get_next_event fuel cfg (o_date o) es) as [[[e|] es1]|y|].
    - destruct (o_exn o); [intros H; injection H as <- _ _; auto|].
      unfold push_next. destruct (peek_next_event fuel cfg (o_date2 o) es1) as [[[[dt c]|] es2]|y|]; intros H; injection H as <- _ _; cbn; auto; discriminate.
    - intros H; injection H as <- _ _; auto.
    - intros H; injection H as <- _ _; auto.
    - intros H; injection H as <- _ _; cbn; discriminate.
  Qed.

  Lemma le_key_refl a b : le_key a b a b.
  Proof. unfold le_key. lia. Qed.

  (** at the head of the loop no source's next event is earlier than the message popped *)
  Lemma turn_least s m q' : FI s -> l_mode s = Checking -> l_stop s = false -> w_hung (l_w s) = false ->
    q_pop (l_q s) = (Ok m, q') -> forall k y, (k < length srcs1)%nat -> next k (l_w s) = Some y ->
    le_key (m_time m) (m_prio m) (dt_to_milliseconds tz (fst y)) (ec_prio (snd y)).
  Proof.
    intros F Hm Est Hh Ep k y Hk Hy.
    destruct (pop_q_ok (l_q s) (i_heap _ (f_inv _ _ _ _ _ F)) (i_keys _ (f_inv _ _ _ _ _ F))) as [[Eq Ep']|(m' & q'' & Ep' & Hh' & Hk' & Hperm & Hmin)].
    { rewrite Ep in Ep'. discriminate. }
    rewrite Ep in Ep'. injection Ep' as <- <-.
    pose proof (f_SI _ _ _ _ _ F) as [G1 G2 G3 G4 G5].
    assert (Emsgs : msgs s = queued s) by (unfold msgs, hand; rewrite Hm; reflexivity).
    destruct (nth_error (w_srcs (l_w s)) k) as [es|] eqn:Ek.
    2:{ apply nth_error_None in Ek. lia. }
    destruct (nth_error srcs1 k) as [es0|] eqn:Ek0.
    2:{ apply nth_error_None in Ek0. lia. }
    pose proof (G2 k es0 es Ek0 Ek) as Hrel.
    destruct (G5 Est Hh k es Ek) as [Hin|[Hset Hev]].
    - apply srcs_of_In in Hin. destruct Hin as (m0 & Hin & Hs0). unfold src_of in Hs0.
      destruct (m_cb m0) as [sid k0|] eqn:Hcb; [|discriminate]. injection Hs0 as ->.
      destruct (G3 m0 sid k Hin Hcb) as (_ & es' & Ek' & dt & c & rest & Hset & Hev & Hmt & Hmp).
      rewrite Ek in Ek'. injection Ek' as <-.
      destruct (rel_head fuel cfg es0 (Ss k) _ es y Hfuel (Hgood k es0 Ek0) Hrel Hy Hset) as (rest' & Hev').
      rewrite Hev in Hev'. injection Hev' as <- _. cbn [fst snd]. rewrite <- Hmt, <- Hmp.
      rewrite Emsgs in Hin. pose proof (Hmin _ Hin) as Hn.
      unfold key_lt, sort_key in Hn; cbn in Hn. unfold le_key. lia.
    - destruct (rel_head fuel cfg es0 (Ss k) _ es y Hfuel (Hgood k es0 Ek0) Hrel Hy Hset) as (rest' & Hev'). congruence.
  Qed.

  Lemma NI_turn now ex s : FI s -> NI s -> l_mode s = Checking -> NI (check_turn now ex s).
  Proof.
    intros F N Hm.
    assert (Hw : l_w (check_turn now ex s) = l_w s).
    { destruct (step_w h s (LTurn now ex) (check_turn now ex s)) as [E|(m & o & E & _)]; [|exact E|congruence].
      unfold l_step. rewrite Hm. reflexivity. }
    constructor; rewrite Hw; [|exact (n_em _ N)].
    intros Hh m. unfold check_turn. destruct (l_stop s) eqn:Est.
    { destruct (leave_fields s) as (_ & _ & E3 & _). rewrite E3; discriminate. }
    destruct (q_pop (l_q s)) as [[m'|x] q'] eqn:Ep.
    2:{ destruct (leave_fields (set_stop true s)) as (_ & _ & E3 & _). rewrite E3; discriminate. }
    destruct (Z.ltb now (m_time m')).
    { destruct ex; [|discriminate]. destruct (leave_fields (do_stop (set_q q' s))) as (_ & _ & E3 & _). rewrite E3. discriminate. }
    cbn [l_mode set_mode]. intros E; injection E as ->. intros Hs k y Hk Hy.
    exact (turn_least s m q' F Hm Est Hh Ep k y Hk Hy).
  Qed.

  (** when the loop decides to sleep at [now], the next event of every source is in the future *)
  Lemma sleep_none_due now ex s m : FI s -> l_mode s = Checking -> w_hung (l_w s) = false ->
    l_mode (check_turn now ex s) = Arming m ->
    forall k y, (k < length srcs1)%nat -> next k (l_w s) = Some y -> now < dt_to_milliseconds tz (fst y).
  Proof.
    intros F Hm Hh. unfold check_turn. destruct (l_stop s) eqn:Est.
    { destruct (leave_fields s) as (_ & _ & E3 & _). rewrite E3; discriminate. }
    destruct (q_pop (l_q s)) as [[m'|x] q'] eqn:Ep.
    2:{ destruct (leave_fields (set_stop true s)) as (_ & _ & E3 & _). rewrite E3; discriminate. }
    destruct (Z.ltb_spec now (m_time m')) as [Hlt|]; [|discriminate].
    destruct ex. { destruct (leave_fields (do_stop (set_q q' s))) as (_ & _ & E3 & _). rewrite E3. discriminate. }
    intros _ k y Hk Hy. pose proof (turn_least s m' q' F Hm Est Hh Ep k y Hk Hy) as H. unfold le_key in H. lia.
  Qed.

  Lemma NI_finish m o s : FI s -> NI s -> l_mode s = Running m -> NI (finish h m o s).
  Proof.
    intros F N Hm. pose proof N as [N1 N2].
    destruct (h (m_cb m) o (l_w s)) as [[w' acts] x] eqn:Hh.
    destruct (finish_shape fuel cfg tz srcs1 s m o w' acts x F Hm Hh) as (new & _ & _ & Ew & _ & Emode).
    constructor; rewrite Ew; [rewrite Emode; discriminate|].
    intros Hhg. pose proof (hung_mono _ _ _ _ _ _ Hh Hhg) as Hhg0.
    destruct (m_cb m) as [sid k|] eqn:Hcb.
    - cbn [sched_handler] in Hh. pose proof (f_SI _ _ _ _ _ F) as HSI. unfold msgs, hand in HSI. rewrite Hm in HSI.
      destruct (SI_callback fuel cfg tz srcs1 Hfuel (l_w s) m (queued s) (l_stop s) sid k o w' acts x HSI Hcb Hh)
        as (_ & (dt & c & Eem & Hmt & Hmp & Hrel & _) & _).
      pose proof (emitted_fold_w _ _ _ _ Eem) as Ej.
      assert (Hklt : (k < length srcs1)%nat).
      { destruct (s_msg _ _ _ _ _ _ _ HSI m sid k (or_introl eq_refl) Hcb) as (_ & es & Hk & _).
        rewrite <- (s_len _ _ _ _ _ _ _ HSI). apply nth_error_Some. congruence. }
      destruct (nth_error srcs1 k) as [es0|] eqn:Ek0; [|apply nth_error_None in Ek0; lia].
      assert (En0 : nth k srcs1 (es_new None None) = es0) by (eapply nth_error_nth; exact Ek0). rewrite En0 in Hrel.
      destruct (rel_good _ _ _ _ _ _ (Hgood k es0 Ek0) Hrel) as [Hem _].
      assert (Hsrc : src_of m <> None) by (unfold src_of; rewrite Hcb; discriminate).
      intros j e Hin k' y Hk' Hs Hy. rewrite Eem in Hin.
      destruct (Nat.eq_dec k k') as [<-|Hne].
      + unfold next in Hy. rewrite Ej, Nat.eqb_refl, app_length in Hy. cbn [length] in Hy.
        assert (Hlt : (length (emitted k (l_w s) ++ [(dt, c)]) <= length (Ss k))%nat).
        { rewrite app_length. cbn [length]. assert (length (emitted k (l_w s)) + 1 < length (Ss k))%nat by (apply nth_error_Some; congruence). lia. }
        specialize (Hem Hlt). rewrite app_length in Hlt, Hem. cbn [length] in Hlt, Hem.
        assert (Hnow : next k (l_w s) = Some (dt, c)).
        { unfold next. rewrite <- (firstn_skipn (length (emitted k (l_w s)) + 1) (Ss k)), <- Hem.
          rewrite <- app_assoc. rewrite nth_error_app2 by lia. rewrite Nat.sub_diag. reflexivity. }
        assert (Hself : le_ev tz (dt, c) y).
        { unfold next in Hnow.
          assert (H : forall S n a b, StronglySorted (le_ev tz) S -> nth_error S n = Some a -> nth_error S (n + 1) = Some b -> le_ev tz a b).
          { clear. induction S as [|z S IH]; intros [|n] a b Hs Ha Hb; cbn in *; try discriminate; inversion Hs as [|? ? Hs' Hf]; subst.
            - injection Ha as ->. rewrite Forall_forall in Hf. apply Hf. apply (nth_error_In S 0). exact Hb.
            - eapply IH; eassumption. }
          eapply H; eassumption. }
        apply in_app_or in Hin. destruct Hin as [Hin|[Hin|[]]].
        * pose proof (N2 Hhg0 j e Hin k (dt, c) Hklt Hs Hnow) as H. unfold le_ev, le_key in *. lia.
        * injection Hin as _ <-. exact Hself.
      + assert (Hy' : next k' (l_w s) = Some y).
        { unfold next in *. rewrite Ej in Hy. destruct (Nat.eqb_spec k k'); [congruence|]. rewrite app_nil_r in Hy. exact Hy. }
        apply in_app_or in Hin. destruct Hin as [Hin|[Hin|[]]].
        * apply (N2 Hhg0 j e Hin k' y Hk' Hs Hy').
        * injection Hin as _ <-. pose proof (N1 Hhg0 m Hm Hsrc k' y Hk' Hy') as H. unfold le_ev. cbn [fst snd]. rewrite <- Hmt, <- Hmp. exact H.
    - cbn [sched_handler] in Hh. injection Hh as <- _ _. exact (N2 Hhg).
  Qed.

  Lemma mode_do_stop (s : lstate scb sworld) : l_mode (do_stop s) = l_mode s.
  Proof. unfold do_stop. destruct (l_stop s); reflexivity. Qed.

  Lemma NI_step s l s' : FI s -> NI s -> l_step h s l = Some s' -> NI s'.
  Proof.
    intros F N Hstep. pose proof (step_w h s l s' Hstep) as Hw. unfold l_step in Hstep.
    destruct l as [ | | | |now ex| |o|a| ]; destruct (l_mode s) as [| |m|m|r] eqn:Hm; try discriminate.
    - destruct (l_async s); [|discriminate]. injection Hstep as <-. apply (NI_keep s); [exact N|reflexivity|discriminate].
    - destruct (l_timer s); [|discriminate]. injection Hstep as <-. apply (NI_keep s); [exact N|reflexivity|discriminate].
    - destruct (l_sig s); [|discriminate]. injection Hstep as <-. apply (NI_keep s); [exact N| |].
      + unfold do_stop; destruct (l_stop _); reflexivity.
      + intros m. rewrite mode_do_stop. cbn. rewrite Hm. discriminate.
    - injection Hstep as <-. apply (NI_keep s); [exact N|reflexivity|cbn; auto].
    - injection Hstep as <-. apply (NI_keep s); [exact N|reflexivity|cbn; auto].
    - injection Hstep as <-. apply (NI_keep s); [exact N|reflexivity|cbn; auto].
    - injection Hstep as <-. apply (NI_keep s); [exact N|reflexivity|cbn; auto].
    - injection Hstep as <-. apply NI_turn; assumption.
    - injection Hstep as <-. destruct Hw as [Hw|(m0 & o0 & E & _)]; [|congruence]. apply (NI_keep s); [exact N|exact Hw|].
      intros m0. unfold arm. destruct (leave_fields (push_msg m false (set_timer (Some (m_time m)) s))) as (_ & _ & E3 & _). rewrite E3. discriminate.
    - injection Hstep as <-. apply NI_finish; assumption.
    - injection Hstep as <-. destruct Hw as [Hw|(m0 & o0 & E & E' & _)]; [|discriminate].
      apply (NI_keep s); [exact N|exact Hw|]. intros m0. rewrite mode_do_act. auto.
    - injection Hstep as <-. destruct Hw as [Hw|(m0 & o0 & E & E' & _)]; [|discriminate].
      apply (NI_keep s); [exact N|exact Hw|]. intros m0. rewrite mode_do_act. auto.
    - injection Hstep as <-. destruct Hw as [Hw|(m0 & o0 & E & E' & _)]; [|discriminate].
      apply (NI_keep s); [exact N|exact Hw|]. intros m0. rewrite mode_do_act. auto.
    - injection Hstep as <-. destruct Hw as [Hw|(m0 & o0 & E & E' & _)]; [|discriminate].
      apply (NI_keep s); [exact N|exact Hw|]. intros m0. rewrite mode_do_act. auto.
    - destruct (l_uvstop s); [|discriminate]. injection Hstep as <-. apply (NI_keep s); [exact N|reflexivity|discriminate].
  Qed.

  Lemma NI_exec ls : forall s s', FI s -> NI s -> Forall (ok_label) ls -> l_exec h s ls = Some s' -> FI s' /\ NI s'.
  Proof.
    induction ls as [|l ls IH]; intros s s' F N Hok Hex; cbn [l_exec] in Hex.
    - injection Hex as <-; auto.
    - inversion Hok; subst. destruct (l_step h s l) as [s1|] eqn:E; [|discriminate].
      eapply IH; [eapply FI_step; eassumption|eapply NI_step; eassumption|assumption|exact Hex].
  Qed.
End Run.

(** ** every event of a source is an instant of one of its entries *)
Section From.
  Variables (fuel : nat) (cfg : escfg).

  Definition comes_from (es : esrc) (e : Z * ecls) : Prop :=
    exists expr off d, In (expr, snd e) (es_daily es) /\ expr_offset (cf_mp cfg) expr = Ok off /\ fst e = d * DAY + off.
  Definition evs_from (es : esrc) : Prop := Forall (comes_from es) (es_events es).

  Lemma add_daily_from es day : forall daily evs evs', incl daily (es_daily es) ->
    Forall (comes_from es) evs -> add_daily_events cfg es day daily evs = Ok evs' -> Forall (comes_from es) evs'.
  Proof.
    induction daily as [|[expr c] daily IH]; intros evs evs' Hi Hf; cbn [add_daily_events].
    - intros H. apply Ok_inj in H. subst; exact Hf.
    - unfold add_event. destruct (expr_offset (cf_mp cfg) expr) as [off|] eqn:E; [|discriminate]. cbn [rbind].
      destruct (es_start es) as [st|]; [|discriminate].
      assert (Hc : comes_from es (combine day off, c)).
      { exists expr, off, day. split; [apply Hi; left; reflexivity|]. split; [exact E|reflexivity]. }
      assert (Hi' : incl daily (es_daily es)) by (intros x Hx; apply Hi; right; exact Hx).
      destruct (combine day off <? st); cbn [rbind]; [apply IH; assumption|].
      destruct (match es_end es with Some e => e <? combine day off | None => false end); cbn [rbind]; [apply IH; assumption|].
      apply IH; [assumption|]. apply Forall_app. auto.
  Qed.

  Lemma gen_loop_from : forall fuel today es es2, evs_from es -> gen_loop fuel cfg today es = GOk es2 ->
    evs_from es2 /\ es_daily es2 = es_daily es.
  Proof.
    induction fuel0 as [|f IH]; intros today es es2 Hf; cbn [gen_loop]; [discriminate|].
    destruct (es_events es) as [|e evs] eqn:Ev.
    - destruct (match es_days es with [] => get_days cfg today es | _ => Ok (es_days es, es_his es) end) as [[days his]|]; [|discriminate].
      destruct days as [|day days'].
      + intros H; injection H as <-. split; [constructor|reflexivity].
      + destruct (add_daily_events cfg es day (es_daily es) []) as [evs|] eqn:Ea; [|discriminate].
        intros H. pose proof (add_daily_from es day (es_daily es) [] evs (incl_refl _) (Forall_nil _) Ea) as Hn.
        apply IH in H; [exact H|]. exact Hn.
    - intros H; injection H as <-. auto.
  Qed.

  Lemma gen_from today es es1 : evs_from es -> gen_events fuel cfg today es = GOk es1 -> evs_from es1 /\ es_daily es1 = es_daily es.
  Proof.
    intros Hf. unfold gen_events. destruct (reset_if_needed cfg today es) as [es0|] eqn:Er; [|discriminate].
    assert (H0 : evs_from es0 /\ es_daily es0 = es_daily es).
    { revert Er. unfold reset_if_needed. destruct (es_need es); [|intros H; apply Ok_inj in H; subst; auto].
      destruct (get_days cfg today _) as [[days his]|]; [|discriminate]. cbn [rbind]. intros H; apply Ok_inj in H; subst. split; [constructor|reflexivity]. }
    destruct H0 as [H1 H2]. destruct (es_events es0) as [|e evs] eqn:Ev.
    - destruct (gen_loop fuel cfg today es0) as [es2| |] eqn:Eg; try discriminate.
      destruct (gen_loop_from _ _ _ _ H1 Eg) as [G1 G2].
      intros H; injection H as <-. split; [|cbn; congruence].
      unfold evs_from in *. cbn. apply Forall_forall. intros x Hx. rewrite Forall_forall in G1. apply (G1 x).
      apply (Permutation_in _ (sort_perm _ _)) in Hx. exact Hx.
    - intros H; injection H as <-. auto.
  Qed.

  Lemma get_from today es r es1 : evs_from es -> get_next_event fuel cfg today es = GOk (r, es1) ->
    evs_from es1 /\ es_daily es1 = es_daily es /\ forall e, r = Some e -> comes_from es e.
  Proof.
    intros Hf. unfold get_next_event. destruct (gen_events fuel cfg today es) as [es2| |] eqn:E; try discriminate.
    destruct (gen_from _ _ _ Hf E) as [H1 H2]. unfold evs_from in H1.
    destruct (es_events es2) as [|e evs] eqn:Ev; intros H; injection H as <- <-.
    - split; [unfold evs_from; rewrite Ev; constructor|]. split; [exact H2|discriminate].
    - inversion H1 as [|? ? Ha Hb]; subst. split; [exact Hb|]. split; [exact H2|]. intros e0 H0; injection H0 as <-.
      unfold comes_from in *. rewrite <- H2. exact Ha.
  Qed.

  Lemma get_events_from dates : forall es rs es1, evs_from es -> get_events fuel cfg dates es = GOk (rs, es1) ->
    forall e, In (Some e) rs -> comes_from es e.
  Proof.
    induction dates as [|d dates IH]; intros es rs es1 Hf; cbn [get_events]; [intros H; injection H as <- _; intros e []|].
    destruct (get_next_event fuel cfg d es) as [[r es2]| |] eqn:E; try discriminate.
    destruct (get_events fuel cfg dates es2) as [[rs' es3]| |] eqn:E2; try discriminate.
    intros H; injection H as <- _. destruct (get_from _ _ _ _ Hf E) as (H1 & H2 & H3).
    intros e [He|He]; [apply H3; exact He|].
    pose proof (IH _ _ _ H1 E2 e He) as (expr & off & d0 & G1 & G2). exists expr, off, d0. rewrite <- H2. auto.
  Qed.

  Lemma rel_from es0 em es : evs_from es0 -> rel fuel cfg es0 em es -> forall e, In e em -> comes_from es0 e.
  Proof.
    intros Hf (dates & esa & H & _) e He. eapply get_events_from; [exact Hf|exact H|]. apply in_map; exact He.
  Qed.

  (** a live source that has been peeked delivers its window first *)
  Lemma peeked_good es st tasks d r es2 : cf_hist cfg = false -> es_start es = Some st -> es_end es = None ->
    tasks_of (cf_mp cfg) (es_daily es) tasks -> es_need es = true \/ tasks = [] -> (Z.to_nat (cf_count cfg) < fuel)%nat ->
    peek_next_event fuel cfg d es = GOk (r, es2) ->
    good fuel cfg es2 (flat_map (day_evs st None tasks) (day_range d (cf_count cfg))).
  Proof.
    intros Hh Hst Hen Ht Hn Hf Hp. set (S := flat_map _ _).
    destruct S as [|x S'] eqn:ES.
    { intros [|? ?] Hl; [|cbn in Hl; lia]. exists es2. reflexivity. }
    assert (Hneed : es_need es = true).
    { destruct Hn as [Hn| ->]; [exact Hn|]. exfalso. revert ES. unfold S. generalize (day_range d (cf_count cfg)). clear.
      induction l as [|d l IH]; [discriminate|]. cbn [flat_map]. unfold day_evs at 1, day_instants. cbn. exact IH. }
    rewrite <- ES. pose proof (reset_fresh cfg d st es Hst Hneed) as Hreset.
    set (es1 := es_set_gen [] (days_of cfg d st (es_end es)) false true es) in *.
    assert (Ep : pend st tasks es1 = S).
    { unfold pend, es1; cbn [es_events es_days es_end es_set_gen app]. rewrite Hen. cbn [days_of]. rewrite Hh. reflexivity. }
    assert (Hd : (length (es_days es1) < fuel)%nat) by (unfold es1; cbn; rewrite Hen; cbn [days_of]; rewrite Hh, day_range_length; exact Hf).
    destruct (gen_pend cfg d st tasks fuel es1 Hst Ht eq_refl) as (es' & G1 & G2 & G3 & G4 & G5 & G6 & G7); [rewrite Ep, ES; discriminate|exact Hd|].
    assert (Eg : gen_events fuel cfg d es = GOk es').
    { rewrite <- G1. unfold gen_events at 1. rewrite Hreset. unfold gen_events, reset_if_needed. reflexivity. }
    unfold peek_next_event in Hp. rewrite Eg in Hp. injection Hp as _ <-.
    intros dates Hl. destruct G2 as (S1 & S2 & S3 & S4).
    destruct (get_events_prefix cfg st tasks fuel dates es') as (es3 & E & _).
    - repeat split; [rewrite S2; exact Hst|rewrite S1; exact Ht|exact G3].
    - lia.
    - rewrite G7, Ep. exact Hl.
    - exists es3. rewrite E, G7, Ep. reflexivity.
  Qed.
End From.

(** ** the log: events are emitted by callbacks the loop has started *)
Section Log.
  Variables (fuel : nat) (cfg : escfg) (tz : Z) (srcs1 : list esrc).
  Hypothesis Hfuel : (0 < fuel)%nat.
  Implicit Types s : lstate scb sworld.
  Notation h := (sched_handler fuel cfg tz).

  Definition logged s : Prop := forall k e, In (k, e) (w_emits (l_w s)) ->
    exists m now, In (m, now) (l_log s) /\ m_time m = dt_to_milliseconds tz (fst e) /\ m_time m <= now.

  Lemma log_acts acts : forall s, l_log (fold_left (fun st a => do_act a st) acts s) = l_log s.
  Proof. induction acts as [|a acts IH]; intros s; [reflexivity|]. cbn [fold_left]. rewrite IH. apply log_do_act. Qed.

  Lemma log_grows s l s' : l_step h s l = Some s' -> exists t, l_log s' = l_log s ++ t.
  Proof.
    assert (Hstop : forall s0 : lstate scb sworld, l_log (do_stop s0) = l_log s0) by (intros s0; unfold do_stop; destruct (l_stop s0); reflexivity).
    assert (Hleave : forall s0 : lstate scb sworld, l_log (leave s0) = l_log s0) by (intros s0; unfold leave; destruct (l_stop s0); reflexivity).
    assert (Hsame : forall s', l_log s' = l_log s -> exists t, l_log s' = l_log s ++ t) by (intros s0 ->; exists []; symmetry; apply app_nil_r).
    unfold l_step. destruct l as [ | | | |now ex| |o|a| ]; destruct (l_mode s) as [| |m|m|r] eqn:Hm; try discriminate.
    - destruct (l_async s); [|discriminate]. intros H; injection H as <-. apply Hsame; reflexivity.
    - destruct (l_timer s); [|discriminate]. intros H; injection H as <-. apply Hsame; reflexivity.
    - destruct (l_sig s); [|discriminate]. intros H; injection H as <-. apply Hsame. rewrite Hstop. reflexivity.
    - intros H; injection H as <-. apply Hsame; reflexivity.
    - intros H; injection H as <-. apply Hsame; reflexivity.
    - intros H; injection H as <-. apply Hsame; reflexivity.
    - intros H; injection H as <-. apply Hsame; reflexivity.
    - intros H; injection H as <-. unfold check_turn. destruct (l_stop s); [apply Hsame, Hleave|].
      destruct (q_pop (l_q s)) as [[m|] q']; [|apply Hsame; rewrite Hleave; reflexivity].
      destruct (Z.ltb now (m_time m)); [|exists [(m, now)]; reflexivity]. apply Hsame. destruct ex; [|reflexivity]. rewrite Hleave, Hstop. reflexivity.
    - intros H; injection H as <-. apply Hsame. unfold arm. rewrite Hleave. reflexivity.
    - intros H; injection H as <-. apply Hsame.
      unfold finish. destruct (h (m_cb m) o (l_w s)) as [[w' acts] x].
      destruct x; cbn; [rewrite Hstop; cbn|]; rewrite log_acts; reflexivity.
    - intros H; injection H as <-. apply Hsame, log_do_act.
    - intros H; injection H as <-. apply Hsame, log_do_act.
    - intros H; injection H as <-. apply Hsame, log_do_act.
    - intros H; injection H as <-. apply Hsame, log_do_act.
    - destruct (l_uvstop s); [|discriminate]. intros H; injection H as <-. apply Hsame; reflexivity.
  Qed.

  Lemma logged_step s l s' : FI fuel cfg tz srcs1 s -> logged s -> l_step h s l = Some s' -> logged s'.
  Proof.
    intros F L Hstep. destruct (log_grows _ _ _ Hstep) as (t & Et).
    assert (Hold : forall k e, In (k, e) (w_emits (l_w s)) ->
      exists m now, In (m, now) (l_log s') /\ m_time m = dt_to_milliseconds tz (fst e) /\ m_time m <= now).
    { intros k e Hin. destruct (L k e Hin) as (m & now & H1 & H2). exists m, now. split; [|exact H2]. rewrite Et. apply in_or_app; auto. }
    intros k e Hin. destruct (step_w h s l s' Hstep) as [Ew|(m & o & Hm & _ & Ew)]; rewrite Ew in Hin; [exact (Hold k e Hin)|].
    destruct (h (m_cb m) o (l_w s)) as [[w' acts] x] eqn:Hh. cbn [fst] in Hin.
    destruct (m_cb m) as [sid k'|] eqn:Hcb; cbn [sched_handler] in Hh.
    - pose proof (f_SI _ _ _ _ _ F) as HSI. unfold msgs, hand in HSI. rewrite Hm in HSI.
      destruct (SI_callback fuel cfg tz srcs1 Hfuel _ _ _ _ _ _ _ _ _ _ HSI Hcb Hh) as (_ & (dt & c & Eem & Hmt & _) & _).
      rewrite Eem in Hin. apply in_app_or in Hin. destruct Hin as [Hin|[Hin|[]]]; [exact (Hold k e Hin)|].
      injection Hin as _ <-. destruct (i_running _ (f_inv _ _ _ _ _ F) m Hm) as (_ & l0 & now & El).
      exists m, now. assert (Hi : In (m, now) (l_log s)) by (rewrite El; apply in_or_app; right; left; reflexivity).
      split; [rewrite Et; apply in_or_app; auto|]. split; [exact Hmt|]. exact (i_log _ (f_inv _ _ _ _ _ F) m now Hi).
    - injection Hh as <- _ _. exact (Hold k e Hin).
  Qed.

  Lemma logged_exec ls : forall s s', FI fuel cfg tz srcs1 s -> logged s -> Forall ok_label ls -> l_exec h s ls = Some s' -> logged s'.
  Proof.
    induction ls as [|l ls IH]; intros s s' F L Hok Hex; cbn [l_exec] in Hex.
    - injection Hex as <-; auto.
    - inversion Hok; subst. destruct (l_step h s l) as [s1|] eqn:E; [|discriminate].
      eapply IH; [eapply FI_step; eassumption|eapply logged_step; eassumption|assumption|exact Hex].
  Qed.
End Log.

(** ** summary for one source *)
Section One.
  Variables (fuel : nat) (cfg : escfg) (tz : Z) (srcs : list esrc) (dates : list Z) (s0 : lstate scb sworld).
  Hypothesis Hfuel : (0 < fuel)%nat.
  Hypothesis Hlen : length dates = length srcs.
  Hypothesis Hboot : boot fuel cfg tz srcs dates = Some s0.
  Notation h := (sched_handler fuel cfg tz).
  Variables (ls : list (label scb sout)) (s : lstate scb sworld).
  Hypothesis Hok : Forall ok_label ls.
  Hypothesis Hex : l_exec h s0 ls = Some s.

  Lemma one_from : (forall es, In es srcs -> evs_from cfg es) -> forall k e, In (k, e) (w_emits (l_w s)) ->
    exists es, nth_error srcs k = Some es /\ comes_from cfg es e.
  Proof.
    intros Hfrom k e Hin.
    assert (Hr : sreach fuel cfg tz srcs s) by (exists dates, s0, ls; auto).
    pose proof (emits_idx fuel cfg tz srcs Hfuel s Hr k e Hin) as Hk.
    pose proof (FI_reach fuel cfg tz srcs Hfuel s Hr) as F.
    destruct (nth_error srcs k) as [es|] eqn:Ek; [|apply nth_error_None in Ek; lia]. exists es. split; [reflexivity|].
    pose proof (f_SI _ _ _ _ _ F) as HSI.
    destruct (nth_error (w_srcs (l_w s)) k) as [es'|] eqn:Ek'; [|apply nth_error_None in Ek'; rewrite (s_len _ _ _ _ _ _ _ HSI) in Ek'; lia].
    eapply rel_from; [apply Hfrom; eapply nth_error_In; exact Ek|exact (s_rel _ _ _ _ _ _ _ HSI k es es' Ek Ek')|].
    apply emits_in_emitted; exact Hin.
  Qed.

  Lemma one_logged : logged tz s.
  Proof.
    destruct (boot_FI fuel cfg tz Hfuel srcs dates s0 Hboot Hlen) as (F & He & _).
    eapply logged_exec; [exact Hfuel|exact F| |exact Hok|exact Hex]. intros k e Hin. rewrite He in Hin. destruct Hin.
  Qed.

  Variables (k0 : nat) (S : list (Z * ecls)).
  Hypothesis Hk0 : (k0 < length srcs)%nat.
  Hypothesis HS : forall es, nth_error (w_srcs (l_w s0)) k0 = Some es -> good fuel cfg es S.

  Let Ss k := if Nat.eqb k k0 then S else [].
  Lemma one_good : forall k es, nth_error (w_srcs (l_w s0)) k = Some es -> good fuel cfg es (Ss k).
  Proof.
    intros k es Hk. unfold Ss. destruct (Nat.eqb_spec k k0) as [->|]; [apply HS; exact Hk|].
    intros [|? ?] Hl; [|cbn in Hl; lia]. exists es. reflexivity.
  Qed.

  Lemma one_inv : FI fuel cfg tz (w_srcs (l_w s0)) s /\ NI tz (w_srcs (l_w s0)) Ss s /\ length (w_srcs (l_w s0)) = length srcs.
  Proof.
    destruct (boot_FI fuel cfg tz Hfuel srcs dates s0 Hboot Hlen) as (F & He & Hl).
    assert (N : NI tz (w_srcs (l_w s0)) Ss s0).
    { constructor.
      - intros _ m Hm _. exfalso.
        assert (Hi : l_mode s0 = Idle).
        { pose proof (BI_all fuel cfg tz srcs Hfuel dates 0 _ _ (BI_init fuel cfg tz srcs Hfuel) Hboot) as B. exact (b_mode _ _ _ _ _ _ B). }
        congruence.
      - intros _ j e Hin. rewrite He in Hin. destruct Hin. }
    destruct (NI_exec fuel cfg tz _ Ss Hfuel one_good ls s0 s F N Hok Hex) as [F' N']. auto.
  Qed.

  Lemma one_comparable : comparable (emitted k0 (l_w s)) S.
  Proof.
    destruct one_inv as (F & _ & Hl). pose proof (f_SI _ _ _ _ _ F) as HSI.
    destruct (nth_error (w_srcs (l_w s0)) k0) as [es|] eqn:Ek; [|apply nth_error_None in Ek; lia].
    destruct (nth_error (w_srcs (l_w s)) k0) as [es'|] eqn:Ek'; [|apply nth_error_None in Ek'; rewrite (s_len _ _ _ _ _ _ _ HSI) in Ek'; lia].
    eapply rel_comparable; [apply HS; reflexivity|exact (s_rel _ _ _ _ _ _ _ HSI k0 es es' Ek Ek')].
  Qed.

  Lemma one_order : w_hung (l_w s) = false -> StronglySorted (le_ev tz) S -> forall j e, In (j, e) (w_emits (l_w s)) ->
    forall y, nth_error S (length (emitted k0 (l_w s))) = Some y -> le_ev tz e y.
  Proof.
    intros Hh Hs j e Hin y Hy. destruct one_inv as (_ & N & Hl). apply (n_em _ _ _ _ N Hh j e Hin k0 y); [lia| |].
    - unfold Ss. rewrite Nat.eqb_refl. exact Hs.
    - unfold next, Ss. rewrite Nat.eqb_refl. exact Hy.
  Qed.

  Lemma one_sleep now ex m : l_mode s = Checking -> w_hung (l_w s) = false -> l_mode (check_turn now ex s) = Arming m ->
    forall y, nth_error S (length (emitted k0 (l_w s))) = Some y -> now < dt_to_milliseconds tz (fst y).
  Proof.
    intros Hm Hh Ha y Hy. destruct one_inv as (F & _ & Hl).
    eapply (sleep_none_due fuel cfg tz _ Ss Hfuel one_good now ex s m F Hm Hh Ha k0 y); [lia|].
    unfold next, Ss. rewrite Nat.eqb_refl. exact Hy.
  Qed.
End One.
