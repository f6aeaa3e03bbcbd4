(** Invariants of the scheduler on the event loop (C03, C04, C08). *)
From Coq Require Import Permutation Sorted.
From Verif Require Import PyBase PyStr MTime MTimeExpr MEventSource MQueue MLoop MSched
  SQueue LQueue LLoop SEvent LSort LEventSource LEventSource2.
Open Scope Z_scope.

Lemma lset_length {A} k (x : A) : forall l, length (lset k x l) = length l.
Proof. induction k as [|k IH]; intros [|y l]; cbn; auto. Qed.
Lemma nth_lset_same {A} k (x : A) : forall l, (k < length l)%nat -> nth_error (lset k x l) k = Some x.
Proof. induction k as [|k IH]; intros [|y l] Hl; cbn in *; try lia; [reflexivity|]. apply IH; lia. Qed.
Lemma nth_lset_other {A} k j (x : A) : forall l, k <> j -> nth_error (lset k x l) j = nth_error l j.
Proof.
  revert j; induction k as [|k IH]; intros [|j] [|y l] Hne; cbn; try congruence; try reflexivity.
  apply IH; lia.
Qed.

(** msgs a state holds: queue plus the one in hand or running *)
Definition hand {C W} (s : lstate C W) : list (msg C) :=
  match l_mode s with Arming m | Running m => [m] | _ => [] end.
Definition msgs {C W} (s : lstate C W) : list (msg C) := hand s ++ queued s.

Definition src_of (m : msg scb) : option nat :=
  match m_cb m with CSched _ k => Some k | COther => None end.
Definition srcs_of (ms : list (msg scb)) : list nat :=
  flat_map (fun m => match src_of m with Some k => [k] | None => [] end) ms.

Lemma srcs_of_In ms k : In k (srcs_of ms) <-> exists m, In m ms /\ src_of m = Some k.
Proof.
  unfold srcs_of. rewrite in_flat_map. split.
  - intros (m & Hm & Hk). exists m. split; [exact Hm|]. destruct (src_of m) as [j|]; [|destruct Hk].
    destruct Hk as [->|[]]; reflexivity.
  - intros (m & Hm & Hk). exists m. split; [exact Hm|]. rewrite Hk. left; reflexivity.
Qed.

Lemma Permutation_srcs ms ms' : Permutation ms ms' -> Permutation (srcs_of ms) (srcs_of ms').
Proof. intros H. unfold srcs_of. apply Permutation_flat_map. exact H. Qed.

(** pushing messages *)
Lemma do_push_msgs {C W} (acts : list (act C)) : forall s : lstate C W,
  inv s -> (forall r, l_mode s <> Returned r) -> Forall (fun a => a <> AStop) acts ->
  exists new, map (fun m => APush (m_time m) (m_prio m) (m_cb m)) new = acts /\
    let s' := fold_left (fun st a => do_act a st) acts s in
    Permutation (queued s') (rev new ++ queued s) /\ l_mode s' = l_mode s /\ l_w s' = l_w s /\
    l_stop s' = l_stop s /\ l_st s' = l_st s /\ l_exc s' = l_exc s.
Proof.
  induction acts as [|a acts IH]; intros s Hinv Hm Hf; cbn [fold_left].
  - exists []. repeat split; reflexivity.
  - inversion Hf as [|? ? Ha Hf']; subst. destruct a as [t p cb|]; [|congruence].
    destruct (IH (do_act (APush t p cb) s)) as (new & E & Hp & H1 & H2 & H3 & H4 & H5).
    + apply inv_do_act; assumption.
    + intros r. rewrite mode_do_act. apply Hm.
    + exact Hf'.
    + exists (Msg t p (l_seq s + 1) cb :: new). split; [cbn [map m_time m_prio m_cb]; rewrite E; reflexivity|].
      cbn zeta in *. split; [|repeat split; assumption].
      rewrite Hp. cbn [rev]. rewrite <- app_assoc. cbn [app].
      apply Permutation_app_head.
      destruct Hinv as [Hh Hk _ _ _ _ _ _ _ _ _].
      cbn [do_act new_msg]. unfold queued at 1, push_msg. cbn [set_async set_q set_seq l_q].
      destruct (push_q_ok (l_q s) (Msg t p (l_seq s + 1) cb) Hh Hk) as (_ & _ & G). exact G.
Qed.

Lemma inv_set_w {C W} (w : W) (s : lstate C W) : inv s -> inv (set_w w s).
Proof. intros [Hh Hk Hl Hs Hn Hi Ha Hr Hu Hru Hre]. constructor; cbn; assumption. Qed.

Section S.
  Variables (fuel : nat) (cfg : escfg) (tz : Z) (srcs0 : list esrc).
  Hypothesis Hfuel : (0 < fuel)%nat.
  Implicit Types w : sworld.
  Implicit Types s : lstate scb sworld.
  Notation ms_of := (dt_to_milliseconds tz).
  Notation handler := (sched_handler fuel cfg tz).

  (** [es] is [es0] after successive gets that answered [em], possibly peeked *)
  Definition rel (es0 : esrc) (em : list (Z * ecls)) (es : esrc) : Prop :=
    exists dates esa, get_events fuel cfg dates es0 = GOk (map Some em, esa) /\
      (es = esa \/ exists t r, peek_next_event fuel cfg t esa = GOk (r, es)).

  Lemma get_events_snoc dates : forall es0 rs es1 t r es2,
    get_events fuel cfg dates es0 = GOk (rs, es1) ->
    get_next_event fuel cfg t es1 = GOk (r, es2) ->
    get_events fuel cfg (dates ++ [t]) es0 = GOk (rs ++ [r], es2).
  Proof.
    induction dates as [|d dates IH]; intros es0 rs es1 t r es2 H1 H2; cbn [get_events app] in *.
    - injection H1 as <- <-. rewrite H2. reflexivity.
    - destruct (get_next_event fuel cfg d es0) as [[r0 es0']| |]; try discriminate.
      destruct (get_events fuel cfg dates es0') as [[rs0 es1']| |] eqn:E; try discriminate.
      injection H1 as <- ->. rewrite (IH _ _ _ _ _ _ E H2). reflexivity.
  Qed.

  Lemma rel_get es0 em es t e es' : rel es0 em es ->
    get_next_event fuel cfg t es = GOk (Some e, es') -> rel es0 (em ++ [e]) es'.
  Proof.
    intros (dates & esa & H1 & H2) Hg. rewrite <- (app_nil_r em) in H1.
    destruct H2 as [->|(t0 & r & Hp)].
    - exists (dates ++ [t]), es'. split; [|left; reflexivity].
      rewrite app_nil_r in H1. rewrite map_app. eapply get_events_snoc; eassumption.
    - rewrite app_nil_r in H1. destruct (peek_preview _ _ _ _ _ _ Hp) as (_ & Hga & Hgb).
      destruct (Hgb fuel t Hfuel) as [_ Hgc]. rewrite Hgc in Hg. injection Hg as -> <-.
      exists (dates ++ [t0]), (es_drop_first es). split; [|left; reflexivity].
      rewrite map_app. eapply get_events_snoc; [exact H1|exact Hga].
  Qed.

  Lemma rel_peek es0 em es t r es' : rel es0 em es ->
    peek_next_event fuel cfg t es = GOk (r, es') -> rel es0 em es'.
  Proof.
    intros (dates & esa & H1 & H2) Hp. exists dates, esa. split; [exact H1|]. right.
    destruct H2 as [->|(t0 & r0 & Hp0)].
    - exists t, r; exact Hp.
    - exists t0, r0. destruct (peek_preview _ _ _ _ _ _ Hp0) as (_ & _ & Hgb).
      destruct (Hgb fuel t Hfuel) as [Hgc _]. rewrite Hgc in Hp. injection Hp as <- <-. exact Hp0.
  Qed.

  Lemma peek_settled t es r es' : peek_next_event fuel cfg t es = GOk (r, es') ->
    settled cfg es' /\ r = hd_error (es_events es').
  Proof.
    unfold peek_next_event. destruct (gen_events fuel cfg t es) as [es1| |] eqn:E; try discriminate.
    intros H; injection H as <- <-. split; [eapply gen_settled; exact E|reflexivity].
  Qed.

  Lemma settled_get t es e rest : settled cfg es -> es_events es = e :: rest ->
    get_next_event fuel cfg t es = GOk (Some e, es_drop_first es).
  Proof.
    intros Hs He. unfold get_next_event. rewrite (settled_gen cfg t fuel es Hs Hfuel), He.
    unfold es_drop_first. rewrite He. reflexivity.
  Qed.

  (** the message of a source announces the source's first event *)
  Definition announces (m : msg scb) (es : esrc) : Prop :=
    exists dt c rest, settled cfg es /\ es_events es = (dt, c) :: rest /\
      m_time m = ms_of dt /\ m_prio m = ec_prio c.

  Definition exhausted (es : esrc) : Prop := settled cfg es /\ es_events es = [].

  Record SI w (ms : list (msg scb)) (stop : bool) : Prop := {
    s_len : length (w_srcs w) = length srcs0;
    s_rel : forall k es0 es, nth_error srcs0 k = Some es0 -> nth_error (w_srcs w) k = Some es ->
              rel es0 (emitted k w) es;
    s_msg : forall m sid k, In m ms -> m_cb m = CSched sid k ->
              dmem sid (w_reg w) = true /\
              exists es, nth_error (w_srcs w) k = Some es /\ announces m es;
    s_uniq : NoDup (srcs_of ms);
    s_all : stop = false -> w_hung w = false -> forall k es, nth_error (w_srcs w) k = Some es ->
              In k (srcs_of ms) \/ exhausted es
  }.

  Lemma SI_perm w ms ms' stop : Permutation ms ms' -> SI w ms stop -> SI w ms' stop.
  Proof.
    intros Hp [H1 H2 H3 H4 H5]. constructor; try assumption.
    - intros m sid k Hin. apply H3. apply (Permutation_in _ (Permutation_sym Hp)). exact Hin.
    - eapply Permutation_NoDup; [apply Permutation_srcs; exact Hp|exact H4].
    - intros Hs Hh k es Hk. destruct (H5 Hs Hh k es Hk) as [Hin|He]; [left|right; exact He].
      apply (Permutation_in _ (Permutation_srcs _ _ Hp)). exact Hin.
  Qed.

  Lemma SI_stop w ms stop stop' : (stop' = false -> stop = false) -> SI w ms stop -> SI w ms stop'.
  Proof. intros Hs [H1 H2 H3 H4 H5]. constructor; try assumption. intros Hs'; apply H5, Hs, Hs'. Qed.

  Lemma SI_drop w m ms stop : SI w (m :: ms) stop -> SI w ms true.
  Proof.
    intros [H1 H2 H3 H4 H5]. constructor; try assumption.
    - intros m' sid k Hin. apply H3. right; exact Hin.
    - unfold srcs_of in H4. cbn [flat_map] in H4. apply NoDup_app_r in H4. exact H4.
    - discriminate.
  Qed.

  Lemma SI_others w ms others stop : (forall m, In m others -> m_cb m = COther) ->
    SI w ms stop -> SI w (others ++ ms) stop.
  Proof.
    intros Ho [H1 H2 H3 H4 H5].
    assert (Es : srcs_of (others ++ ms) = srcs_of ms).
    { unfold srcs_of. rewrite flat_map_app. replace (flat_map _ others) with (@nil nat); [reflexivity|].
      symmetry. clear - Ho. induction others as [|m others IH]; [reflexivity|]. cbn [flat_map].
      unfold src_of at 1. rewrite (Ho m (or_introl eq_refl)). apply IH. intros m' Hm'; apply Ho; right; exact Hm'. }
    constructor; try assumption.
    - intros m sid k Hin Hc. apply in_app_or in Hin. destruct Hin as [Hin|Hin]; [|apply H3; assumption].
      rewrite (Ho m Hin) in Hc. discriminate.
    - rewrite Es; exact H4.
    - rewrite Es; exact H5.
  Qed.

  Lemma emitted_add k e w j : emitted j (add_emit k e w) = emitted j w ++ (if Nat.eqb k j then [e] else []).
  Proof.
    unfold emitted, add_emit; cbn [w_emits]. rewrite filter_app, map_app. cbn [filter fst map].
    destruct (Nat.eqb k j); reflexivity.
  Qed.

  Lemma SI_callback w m ms stop sid k o w' acts x :
    SI w (m :: ms) stop -> m_cb m = CSched sid k ->
    sched_callback fuel cfg tz sid k o w = (w', acts, x) ->
    Forall (fun a => a <> AStop) acts /\
    (exists dt c, w_emits w' = w_emits w ++ [(k, (dt, c))] /\ m_time m = ms_of dt /\ m_prio m = ec_prio c /\
       rel (nth k srcs0 (es_new None None)) (emitted k w ++ [(dt, c)]) (nth k (w_srcs w') (es_new None None)) /\
       (forall t p cb, In (APush t p cb) acts -> cb <> COther ->
          exists dt2 c2 t0 es2, t = ms_of dt2 /\ p = ec_prio c2 /\
            exists dates, get_events fuel cfg dates (nth k srcs0 (es_new None None)) =
              GOk (map Some ((emitted k w ++ [(dt, c)]) ++ [(dt2, c2)]), es2) /\ cb = CSched sid k /\ t0 = t)) /\
    (forall new, map (fun m => APush (m_time m) (m_prio m) (m_cb m)) new = acts ->
       forall stop', (stop' = false -> stop = false /\ x = None) -> SI w' (new ++ ms) stop').
  Proof.
    intros HSI Hcb Hstep. pose proof HSI as [H1 H2 H3 H4 H5].
    destruct (H3 m sid k (or_introl eq_refl) Hcb) as (Hreg & es & Hk & dt & c & rest & Hset & Hev & Hmt & Hmp).
    assert (Hklt : (k < length (w_srcs w))%nat) by (apply nth_error_Some; congruence).
    destruct (nth_error srcs0 k) as [es0|] eqn:Hk0.
    2:{ apply nth_error_None in Hk0. lia. }
    assert (En0 : nth k srcs0 (es_new None None) = es0) by (eapply nth_error_nth; exact Hk0).
    unfold sched_callback in Hstep. rewrite Hreg, Hk in Hstep. cbn [negb] in Hstep.
    pose proof (settled_get (o_date o) es (dt, c) rest Hset Hev) as Hget. rewrite Hget in Hstep.
    set (w1 := add_emit k (dt, c) (set_src k (es_drop_first es) w)) in *.
    set (defers := map (fun p => APush (fst p) (snd p) COther) (o_defer o)) in *.
    assert (Hrel1 : rel es0 (emitted k w ++ [(dt, c)]) (es_drop_first es)).
    { eapply rel_get; [apply (H2 k es0 es Hk0 Hk)|exact Hget]. }
    assert (Hnk : forall es2, nth k (lset k es2 (w_srcs w)) (es_new None None) = es2).
    { intros es2. eapply nth_error_nth. apply nth_lset_same. exact Hklt. }
    assert (Hdef : Forall (fun a => a <> AStop) defers).
    { apply Forall_forall. intros a Ha. apply in_map_iff in Ha. destruct Ha as (p & <- & _). discriminate. }
    assert (Hu : ~ In k (srcs_of ms)).
    { unfold srcs_of in H4. cbn [flat_map] in H4. unfold src_of at 1 in H4. rewrite Hcb in H4.
      cbn [app] in H4. inversion H4; assumption. }
    assert (Hnd : NoDup (srcs_of ms)).
    { unfold srcs_of in H4. cbn [flat_map] in H4. apply NoDup_app_r in H4. exact H4. }
    (* state of the other sources *)
    assert (Hpres : forall es2 wx stop' new2,
       w_srcs wx = lset k es2 (w_srcs w) -> w_reg wx = w_reg w -> w_emits wx = w_emits w ++ [(k, (dt, c))] ->
       rel es0 (emitted k w ++ [(dt, c)]) es2 ->
       (forall m', In m' new2 -> m_cb m' = CSched sid k /\ announces m' es2) ->
       (length new2 <= 1)%nat ->
       (stop' = false -> w_hung wx = false -> stop = false /\ w_hung w = false /\ (new2 <> [] \/ exhausted es2)) ->
       SI wx (new2 ++ ms) stop').
    { intros es2 wx stop' new2 E1 E2 E3 Hr Hn Hl Hst.
      assert (Eem : forall j, emitted j wx = emitted j w ++ (if Nat.eqb k j then [(dt, c)] else [])).
      { intros j. unfold emitted. rewrite E3, filter_app, map_app. cbn [filter fst map]. destruct (Nat.eqb k j); reflexivity. }
      assert (Esrc : srcs_of (new2 ++ ms) = map (fun _ => k) new2 ++ srcs_of ms).
      { unfold srcs_of. rewrite flat_map_app. f_equal. clear - Hn. induction new2 as [|m' new2 IH]; [reflexivity|].
        cbn [flat_map map]. unfold src_of at 1. rewrite (proj1 (Hn m' (or_introl eq_refl))). cbn [app]. f_equal.
        apply IH. intros m0 Hm0; apply Hn; right; exact Hm0. }
      constructor.
      - rewrite E1, lset_length. exact H1.
      - intros j es0' es' Hj0 Hj. rewrite E1 in Hj. rewrite Eem. destruct (Nat.eqb_spec k j) as [<-|Hne].
        + rewrite nth_lset_same in Hj by exact Hklt. injection Hj as <-. rewrite Hk0 in Hj0. injection Hj0 as <-. exact Hr.
        + rewrite nth_lset_other in Hj by exact Hne. rewrite app_nil_r. apply (H2 j); assumption.
      - intros m' sid' j Hin Hc. rewrite E2, E1. apply in_app_or in Hin. destruct Hin as [Hin|Hin].
        + destruct (Hn m' Hin) as [Hc' Ha]. rewrite Hc' in Hc. injection Hc as <- <-. split; [exact Hreg|].
          exists es2. split; [apply nth_lset_same; exact Hklt|exact Ha].
        + destruct (H3 m' sid' j (or_intror Hin) Hc) as (G1 & es' & G2 & G3). split; [exact G1|].
          exists es'. split; [|exact G3]. rewrite nth_lset_other; [exact G2|]. intros ->. apply Hu.
          apply srcs_of_In. exists m'. split; [exact Hin|]. unfold src_of. rewrite Hc. reflexivity.
      - rewrite Esrc. destruct new2 as [|m1 [|m2 new2]]; cbn [map app]; [exact Hnd| |cbn in Hl; lia].
        constructor; assumption.
      - intros Hs Hh j es' Hj. destruct (Hst Hs Hh) as (Hs' & Hh' & Hx). rewrite Esrc. rewrite E1 in Hj.
        destruct (Nat.eq_dec k j) as [<-|Hne].
        + rewrite nth_lset_same in Hj by exact Hklt. injection Hj as <-. destruct Hx as [Hx|Hx]; [left|right; exact Hx].
          destruct new2; [congruence|]. left; reflexivity.
        + rewrite nth_lset_other in Hj by exact Hne. destruct (H5 Hs' Hh' j es' Hj) as [Hin|He]; [|right; exact He].
          left. apply in_or_app. right. unfold srcs_of in Hin. cbn [flat_map] in Hin. unfold src_of at 1 in Hin. rewrite Hcb in Hin.
          destruct Hin as [Heq|Hin]; [congruence|exact Hin]. }
    assert (Hsplit : forall new tail, map (fun m => APush (m_time m) (m_prio m) (m_cb m)) new = defers ++ tail ->
       exists n1 n2, new = n1 ++ n2 /\ (forall m', In m' n1 -> m_cb m' = COther) /\
         map (fun m => APush (m_time m) (m_prio m) (m_cb m)) n2 = tail).
    { intros new tail E. apply map_eq_app in E. destruct E as (n1 & n2 & -> & E1 & E2). exists n1, n2.
      split; [reflexivity|]. split; [|exact E2]. intros m' Hm'.
      assert (Hin : In (APush (m_time m') (m_prio m') (m_cb m')) defers).
      { rewrite <- E1. apply (in_map (fun m => APush (m_time m) (m_prio m) (m_cb m))). exact Hm'. }
      apply in_map_iff in Hin. destruct Hin as (p & Hp & _). injection Hp as _ _ <-. reflexivity. }
    destruct (o_exn o) as [xe|] eqn:Hox.
    { injection Hstep as <- <- <-. split; [exact Hdef|]. split.
      - exists dt, c. split; [reflexivity|]. split; [exact Hmt|]. split; [exact Hmp|]. rewrite En0.
        split; [cbn [w1 add_emit set_src w_srcs]; rewrite Hnk; exact Hrel1|].
        intros t p cb Hin Hne. exfalso. apply in_map_iff in Hin. destruct Hin as (q & Hq & _). injection Hq as _ _ <-. congruence.
      - intros new Hnew stop' Hst. rewrite <- (app_nil_r defers) in Hnew.
        destruct (Hsplit _ _ Hnew) as (n1 & n2 & -> & Ho & En2). destruct n2; [|discriminate].
        rewrite app_nil_r. apply SI_others; [exact Ho|].
        apply (Hpres (es_drop_first es) w1 stop' []); try reflexivity; try exact Hrel1.
        + intros m' [].
        + cbn; lia.
        + intros Hs _. destruct (Hst Hs) as [_ Hx]. discriminate. }
    unfold push_next in Hstep.
    destruct (peek_next_event fuel cfg (o_date2 o) (es_drop_first es)) as [[r es2]|xe|] eqn:Hpk.
    - destruct (peek_settled _ _ _ _ Hpk) as [Hset2 Hr2].
      pose proof (rel_peek _ _ _ _ _ _ Hrel1 Hpk) as Hrel2.
      destruct r as [[dt2 c2]|].
      + injection Hstep as <- <- <-. split; [|split].
        * apply Forall_app. split; [exact Hdef|]. constructor; [discriminate|constructor].
        * exists dt, c. split; [reflexivity|]. split; [exact Hmt|]. split; [exact Hmp|]. rewrite En0.
          split.
          { cbn [w1 set_src add_emit w_srcs]. replace (nth k _ _) with es2; [exact Hrel2|].
            symmetry. eapply nth_error_nth. apply nth_lset_same. rewrite lset_length. exact Hklt. }
          intros t p cb Hin Hne. apply in_app_or in Hin. destruct Hin as [Hin|[Hin|[]]].
          { exfalso. apply in_map_iff in Hin. destruct Hin as (q & Hq & _). injection Hq as _ _ <-. congruence. }
          injection Hin as <- <- <-. exists dt2, c2, (ms_of dt2), (es_drop_first es2). split; [reflexivity|]. split; [reflexivity|].
          destruct Hrel1 as (dates & esa & G1 & G2).
          destruct (peek_preview _ _ _ _ _ _ Hpk) as (_ & Gg & _).
          destruct G2 as [G2|(t0 & r0 & Hp0)].
          -- exists (dates ++ [o_date2 o]). split; [|split; reflexivity].
             rewrite map_app. eapply get_events_snoc; [exact G1|]. rewrite <- G2. exact Gg.
          -- exists (dates ++ [t0]). split; [|split; reflexivity].
             rewrite map_app. eapply get_events_snoc; [exact G1|].
             destruct (peek_preview _ _ _ _ _ _ Hp0) as (_ & Ga & Gb).
             destruct (Gb fuel (o_date2 o) Hfuel) as [Gc Gd].
             rewrite Gc in Hpk. injection Hpk as -> <-. rewrite Ga. reflexivity.
        * intros new Hnew stop' Hst. destruct (Hsplit _ _ Hnew) as (n1 & n2 & -> & Ho & En2).
          rewrite <- app_assoc. apply SI_others; [exact Ho|].
          destruct n2 as [|m2 [|]]; try discriminate. injection En2 as Em1 Em2 Em3.
          apply (Hpres es2 _ stop' [m2]); try reflexivity; try exact Hrel2.
          -- cbn [w1 set_src add_emit w_srcs]. clear. generalize (w_srcs w) as l. induction k as [|k IH]; intros [|y l]; cbn; try reflexivity. f_equal; apply IH.
          -- intros m' [<-|[]]. split; [exact Em3|]. destruct (es_events es2) as [|[d2 c2'] rest2] eqn:Eev2; [discriminate|].
             cbn in Hr2. injection Hr2 as <- <-. exists dt2, c2, rest2. split; [exact Hset2|]. split; [exact Eev2|]. split; assumption.
          -- intros Hs Hh. destruct (Hst Hs) as [Hs' _]. split; [exact Hs'|]. split; [exact Hh|left; discriminate].
      + injection Hstep as <- <- <-. rewrite app_nil_r. split; [exact Hdef|]. split.
        * exists dt, c. split; [reflexivity|]. split; [exact Hmt|]. split; [exact Hmp|]. rewrite En0. split.
          { cbn [w1 set_src add_emit w_srcs]. replace (nth k _ _) with es2; [exact Hrel2|].
            symmetry. eapply nth_error_nth. apply nth_lset_same. rewrite lset_length. exact Hklt. }
          intros t p cb Hin Hne. exfalso. apply in_map_iff in Hin. destruct Hin as (q & Hq & _). injection Hq as _ _ <-. congruence.
        * intros new Hnew stop' Hst. rewrite <- (app_nil_r defers) in Hnew.
          destruct (Hsplit _ _ Hnew) as (n1 & n2 & -> & Ho & En2). destruct n2; [|discriminate].
          rewrite app_nil_r. apply SI_others; [exact Ho|].
          apply (Hpres es2 _ stop' []); try reflexivity; try exact Hrel2.
          -- cbn [w1 set_src add_emit w_srcs]. clear. generalize (w_srcs w) as l. induction k as [|k IH]; intros [|y l]; cbn; try reflexivity. f_equal; apply IH.
          -- intros m' [].
          -- cbn; lia.
          -- intros Hs Hh. destruct (Hst Hs) as [Hs' _]. split; [exact Hs'|]. split; [exact Hh|right]. split; [exact Hset2|].
             destruct (es_events es2); [reflexivity|discriminate].
    - injection Hstep as <- <- <-. rewrite app_nil_r. split; [exact Hdef|]. split.
      + exists dt, c. split; [reflexivity|]. split; [exact Hmt|]. split; [exact Hmp|]. rewrite En0.
        split; [cbn [w1 add_emit set_src w_srcs]; rewrite Hnk; exact Hrel1|].
        intros t p cb Hin Hne. exfalso. apply in_map_iff in Hin. destruct Hin as (q & Hq & _). injection Hq as _ _ <-. congruence.
      + intros new Hnew stop' Hst. rewrite <- (app_nil_r defers) in Hnew.
        destruct (Hsplit _ _ Hnew) as (n1 & n2 & -> & Ho & En2). destruct n2; [|discriminate].
        rewrite app_nil_r. apply SI_others; [exact Ho|].
        apply (Hpres (es_drop_first es) w1 stop' []); try reflexivity; try exact Hrel1.
        * intros m' [].
        * cbn; lia.
        * intros Hs _. destruct (Hst Hs) as [_ Hx]. discriminate.
    - injection Hstep as <- <- <-. rewrite app_nil_r. split; [exact Hdef|]. split.
      + exists dt, c. split; [reflexivity|]. split; [exact Hmt|]. split; [exact Hmp|]. rewrite En0.
        split; [cbn [w1 add_emit set_src set_hung w_srcs]; rewrite Hnk; exact Hrel1|].
        intros t p cb Hin Hne. exfalso. apply in_map_iff in Hin. destruct Hin as (q & Hq & _). injection Hq as _ _ <-. congruence.
      + intros new Hnew stop' Hst. rewrite <- (app_nil_r defers) in Hnew.
        destruct (Hsplit _ _ Hnew) as (n1 & n2 & -> & Ho & En2). destruct n2; [|discriminate].
        rewrite app_nil_r. apply SI_others; [exact Ho|].
        apply (Hpres (es_drop_first es) (set_hung w1) stop' []); try reflexivity; try exact Hrel1.
        * intros m' [].
        * cbn; lia.
        * cbn. discriminate.
  Qed.
End S.
