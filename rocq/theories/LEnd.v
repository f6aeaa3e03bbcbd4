(** Facts about how loops end. *)
From Coq Require Import Permutation.
From Verif Require Import PyBase PyStr PyHeap LHeap MTime MTimeExpr MEventSource MQueue MLoop SQueue LQueue LLoop LLoop2 MSched MBus MStrategy MProcess LSched LSched2 LEventSource2 SEnd.
Open Scope Z_scope.

Section Loop.
  Context {C W O : Type} (h : handler C W O).
  Implicit Types s : lstate C W.

  Lemma acts_stop (acts : list (act C)) : forall s, l_stop s = false -> l_stop (fold_left (fun st a => do_act a st) acts s) = true -> In AStop acts.
  Proof.
    induction acts as [|[t p cb|] acts IH]; intros s H0 H; cbn [fold_left] in H; [congruence| |left; reflexivity].
    right. eapply IH; [|exact H]. exact H0.
  Qed.
  Lemma step_cause s l s' : inv s -> l_step h s l = Some s' -> l_stop s = false -> l_stop s' = true -> ends_by h s l.
  Proof.
    intros I Hx H0 H1. destruct l as [| | | |now ex| |o|a|]; unfold l_step in Hx.
    - destruct (l_mode s); try discriminate. destruct (l_async s); [|discriminate]. injection Hx as <-. cbn in H1. congruence.
    - destruct (l_mode s); try discriminate. destruct (l_timer s); [|discriminate]. injection Hx as <-. cbn in H1. congruence.
    - constructor.
    - assert (E : Some (set_sig true s) = Some s') by (destruct (l_mode s); try discriminate; exact Hx). injection E as <-. cbn in H1. congruence.
    - destruct (l_mode s) eqn:Em; try discriminate. injection Hx as <-. unfold check_turn in H1. rewrite H0 in H1.
      destruct (pop_q_ok (l_q s) (i_heap _ I) (i_keys _ I)) as [[E _]|(m & q' & Ep & _ & _ & Hp & Hmin)].
      + apply by_empty; [exact Em|]. unfold queued. rewrite E. reflexivity.
      + rewrite Ep in H1. destruct (Z.ltb_spec now (m_time m)); [|cbn in H1; congruence]. destruct ex.
        * apply by_exit; [exact Em| |].
          -- unfold queued. intros E. rewrite E in Hp. apply Permutation_nil in Hp. discriminate.
          -- intros m' Hm'. apply Hmin in Hm'. apply key_nlt_time in Hm'. lia.
        * cbn in H1. congruence.
    - destruct (l_mode s) eqn:Em; try discriminate. injection Hx as <-. unfold arm, leave in H1. cbn in H1. rewrite H0 in H1. cbn in H1. congruence.
    - destruct (l_mode s) eqn:Em; try discriminate. injection Hx as <-. unfold finish in H1. destruct (h (m_cb m) o (l_w s)) as [[w' acts] e] eqn:Eh.
      eapply by_callback; [exact Em|exact Eh|]. destruct e as [x|]; [left; discriminate|right]. cbn in H1. eapply acts_stop; [|exact H1]. exact H0.
    - assert (E : Some (do_act a s) = Some s') by (destruct (l_mode s); try discriminate; exact Hx). injection E as <-. destruct a as [t p cb|]; [cbn in H1; congruence|constructor].
    - destruct (l_mode s); try discriminate. destruct (l_uvstop s); [|discriminate]. injection Hx as <-. cbn in H1. congruence.
  Qed.
  Lemma exec_cause ls : forall s s', inv s -> l_exec h s ls = Some s' -> l_stop s = false -> l_stop s' = true ->
    exists pre l post s1 s2, ls = pre ++ l :: post /\ l_exec h s pre = Some s1 /\ l_stop s1 = false /\ l_step h s1 l = Some s2 /\ ends_by h s1 l.
  Proof.
    induction ls as [|l ls IH]; intros s s' I Hx H0 H1; cbn [l_exec] in Hx; [injection Hx as <-; congruence|].
    destruct (l_step h s l) as [s1|] eqn:E; [|discriminate]. destruct (l_stop s1) eqn:E1.
    - exists [], l, ls, s, s1. split; [reflexivity|]. split; [reflexivity|]. split; [exact H0|]. split; [exact E|]. eapply step_cause; eassumption.
    - destruct (IH _ _ (inv_step _ _ _ _ I E) Hx E1 H1) as (pre & l' & post & sa & sb & -> & A & B & D & F). exists (l :: pre), l', post, sa, sb.
      split; [reflexivity|]. split; [cbn [l_exec]; rewrite E; exact A|]. auto.
  Qed.

  (** what an idle loop looks like *)
  Definition J (P : Prop) s : Prop :=
    (l_stop s = true -> l_uvstop s = true \/ l_async s = true \/ l_mode s = Checking) /\
    (l_mode s = Idle -> queued s = [] -> l_stop s = true \/ P).
  Lemma push_nonempty (q : queue (msg C)) m : qinv q -> (forall k x, In (k, x) q -> k = sort_key x) -> map snd (q_push q m (sort_key m)) <> [].
  Proof. intros A B E. destruct (push_q_ok q m A B) as (_ & _ & P). rewrite E in P. apply Permutation_nil in P. discriminate. Qed.
  Lemma J_do_act P a s : inv s -> J P s -> J P (do_act a s).
  Proof.
    intros I [A B]. destruct a as [t p cb|]; cbn [do_act new_msg].
    - split; [cbn; tauto|]. intros _ E. exfalso. revert E. apply (push_nonempty _ _ (i_heap _ I) (i_keys _ I)).
    - unfold do_stop. destruct (l_stop s) eqn:E; [split; [intros _; exact (A eq_refl)|intros; left; exact E]|]. split; cbn; [tauto|auto].
  Qed.
  Lemma J_step P s l s' : inv s -> J P s -> l_step h s l = Some s' -> J P s'.
  Proof.
    intros I [A B] Hx. destruct l as [| | | |now ex| |o|a|]; unfold l_step in Hx.
    - destruct (l_mode s) eqn:Em; try discriminate. destruct (l_async s); [|discriminate]. injection Hx as <-. split; cbn; [tauto|discriminate].
    - destruct (l_mode s) eqn:Em; try discriminate. destruct (l_timer s); [|discriminate]. injection Hx as <-. split; cbn; [tauto|discriminate].
    - destruct (l_mode s) eqn:Em; try discriminate. destruct (l_sig s); [|discriminate]. injection Hx as <-. unfold do_stop. cbn.
      destruct (l_stop s) eqn:Es; split; cbn; try tauto. rewrite Em. intros _; exact (A eq_refl).
    - assert (E : Some (set_sig true s) = Some s') by (destruct (l_mode s); try discriminate; exact Hx). injection E as <-. split; assumption.
    - destruct (l_mode s) eqn:Em; try discriminate. injection Hx as <-. unfold check_turn. destruct (l_stop s) eqn:Es.
      + unfold leave. rewrite Es. split; cbn; tauto.
      + destruct (q_pop (l_q s)) as [[m|e] q'] eqn:Ep; [|unfold leave; cbn; split; cbn; tauto].
        destruct (now <? m_time m); [destruct ex|].
        * unfold leave, do_stop. cbn. rewrite Es. cbn. split; cbn; tauto.
        * split; cbn; [congruence|discriminate].
        * split; cbn; [congruence|discriminate].
    - destruct (l_mode s) eqn:Em; try discriminate. injection Hx as <-. unfold arm, leave. cbn [l_stop push_msg set_timer set_q].
      pose proof (push_nonempty _ m (i_heap _ I) (i_keys _ I)) as Pn.
      destruct (l_stop s) eqn:Es.
      + split; [left; reflexivity|intros _ E; contradiction].
      + split; [intros X; cbn in X; congruence|intros _ E; contradiction].
    - destruct (l_mode s) eqn:Em; try discriminate. injection Hx as <-. unfold finish. destruct (h (m_cb m) o (l_w s)) as [[w' acts] e].
      split; cbn; [tauto|discriminate].
    - assert (E : Some (do_act a s) = Some s') by (destruct (l_mode s); try discriminate; exact Hx). injection E as <-. apply J_do_act; [exact I|split; assumption].
    - destruct (l_mode s) eqn:Em; try discriminate. destruct (l_uvstop s) eqn:Eu; [|discriminate]. injection Hx as <-. split; cbn; [auto|discriminate].
  Qed.
  Lemma J_exec P ls : forall s s', inv s -> J P s -> l_exec h s ls = Some s' -> J P s'.
  Proof.
    induction ls as [|l ls IH]; intros s s' I A Hx; cbn [l_exec] in Hx; [injection Hx as <-; exact A|].
    destruct (l_step h s l) as [s1|] eqn:E; [|discriminate]. eapply IH; [eapply inv_step; eassumption|eapply J_step; eassumption|exact Hx].
  Qed.
  Lemma J_start s : l_stop s = false -> queued s <> [] -> J False s.
  Proof. intros A B. split; [congruence|]. intros _ E. contradiction. Qed.

  (** a loop that was told to stop returns within three steps of its own *)
  Lemma J_init w : J True (@l_init C W w).
  Proof. split; cbn; [discriminate|auto]. Qed.
  Lemma J_returns P s (now : Z) : J P s -> l_mode s = Idle -> l_stop s = true ->
    exists ls s', l_exec h s ls = Some s' /\ Forall by_itself ls /\ (length ls <= 3)%nat /\ l_mode s' = Returned (l_exc s) /\ l_log s' = l_log s.
  Proof.
    intros [A _] Hm Hs. destruct (l_uvstop s) eqn:Eu.
    - exists [LReturn], (set_mode (Returned (l_exc s)) s). cbn. rewrite Hm, Eu. repeat split; auto. repeat constructor.
    - destruct (A Hs) as [H|[H|H]]; try congruence.
      exists [LAsync; LTurn now false; LReturn]. eexists. split; [|split; [repeat constructor|split; [repeat constructor|]]].
      + cbn [l_exec l_step]. rewrite Hm, H. cbn [set_mode l_mode]. unfold check_turn. cbn [l_stop set_mode set_async]. rewrite Hs. unfold leave. cbn [l_stop set_mode set_async]. rewrite Hs. cbn. reflexivity.
      + cbn. auto.
  Qed.

  Lemma J_goes s (now : Z) (o : O) : inv s -> J False s -> ~ ended s ->
    exists l s', l_step h s l = Some s' /\ (l = LAsync \/ l = LTimer \/ l = LTurn now false \/ l = LArm \/ l = LDone o \/ l = LReturn).
  Proof.
    intros I [A B] Hn. destruct (l_mode s) as [| |m|m|r] eqn:Em.
    - destruct (l_stop s) eqn:Es.
      + destruct (l_uvstop s) eqn:Eu.
        * exists LReturn. eexists. split; [cbn; rewrite Em, Eu; reflexivity|tauto].
        * destruct (A eq_refl) as [H|[H|H]]; try congruence. exists LAsync. eexists. split; [cbn; rewrite Em, H; reflexivity|tauto].
      + destruct (l_q s) as [|e q] eqn:Eq.
        * destruct (B eq_refl) as [H|[]]; [unfold queued; rewrite Eq; reflexivity|congruence].
        * destruct (i_idle _ I Em Es) as [H|(d & H & _)]; [unfold queued; rewrite Eq; discriminate| |].
          -- exists LAsync. eexists. split; [cbn; rewrite Em, H; reflexivity|tauto].
          -- exists LTimer. eexists. split; [cbn; rewrite Em, H; reflexivity|tauto].
    - exists (LTurn now false). eexists. split; [cbn; rewrite Em; reflexivity|tauto].
    - exists LArm. eexists. split; [cbn; rewrite Em; reflexivity|tauto].
    - exists (LDone o). eexists. split; [cbn; rewrite Em; reflexivity|tauto].
    - exfalso. apply Hn. exists r. exact Em.
  Qed.
End Loop.

(** ** bounded sources run dry *)
From Verif Require Import LSort LEventSource LBound SLate LSched3.

Definition cap (es : esrc) : nat :=
  let w := match es_start es, es_end es with Some st, Some e => Z.to_nat (dt_date e - dt_date st + 1) | _, _ => 0%nat end in
  (if es_need es then w * length (es_daily es)
   else length (es_events es) + length (es_days es) * length (es_daily es) + (if es_his es then 0 else w * length (es_daily es)))%nat.
Definition upto (b : Z) (es : esrc) : Prop := (exists e, es_end es = Some e /\ e <= b) /\ (es_need es = false -> Forall (fun x => fst x <= b) (es_events es)).

Lemma add_event_upto cfg es day expr c b evs evs' : (exists e, es_end es = Some e /\ e <= b) -> Forall (fun x => fst x <= b) evs ->
  add_event cfg es day expr c evs = Ok evs' -> Forall (fun x : Z * ecls => fst x <= b) evs'.
Proof.
  intros (e & He & Hb) H. unfold add_event. destruct (expr_offset _ _) as [off|]; cbn; [|discriminate]. destruct (es_start es) as [st|]; [|discriminate].
  destruct (combine day off <? st); [intros E; injection E as <-; exact H|]. rewrite He. destruct (Z.ltb_spec e (combine day off)); intros E; injection E as <-; [exact H|].
  apply Forall_app. split; [exact H|]. constructor; [|constructor]. cbn. lia.
Qed.
Lemma add_daily_upto cfg es day b daily : (exists e, es_end es = Some e /\ e <= b) -> forall evs evs', Forall (fun x => fst x <= b) evs ->
  add_daily_events cfg es day daily evs = Ok evs' -> Forall (fun x : Z * ecls => fst x <= b) evs'.
Proof.
  intros He. induction daily as [|[x c] daily IH]; intros evs evs' H; cbn; [intros E; injection E as <-; exact H|].
  destruct (add_event cfg es day x c evs) as [e1|] eqn:E; cbn; [|discriminate]. apply IH. eapply add_event_upto; eassumption.
Qed.

Lemma gen_loop_dry cfg b today : forall fuel es es', es_need es = false -> upto b es -> gen_loop fuel cfg today es = GOk es' ->
  (cap es' <= cap es)%nat /\ upto b es' /\ es_need es' = false /\ kin es es'.
Proof.
  induction fuel as [|f IH]; intros es es' Hn Hu; cbn [gen_loop]; [discriminate|].
  destruct (es_events es) as [|e0 evs0] eqn:Ev; [|intros E; injection E as <-; split; [lia|split; [exact Hu|split; [exact Hn|apply kin_refl]]]].
  pose proof Hu as [(e & He & Hb) _].
  assert (Hd : forall days his, match es_days es with [] => get_days cfg today es | _ => Ok (es_days es, es_his es) end = Ok (days, his) ->
    (length days * length (es_daily es) + (if his then 0 else match es_start es, es_end es with Some st, Some e => Z.to_nat (dt_date e - dt_date st + 1) | _, _ => 0%nat end * length (es_daily es)) <= cap es)%nat).
  { intros days his. unfold cap. rewrite Hn, Ev. cbn [length]. destruct (es_days es) eqn:E.
    - unfold get_days. rewrite He, orb_true_r. destruct (es_his es); [intros X; injection X as <- <-; cbn; lia|].
      destruct (es_start es) as [st|]; [|discriminate]. intros X; injection X as <- <-. rewrite day_range_length. cbn [length]. lia.
    - intros X; injection X as <- <-. lia. }
  destruct (match es_days es with [] => get_days cfg today es | _ => Ok (es_days es, es_his es) end) as [[days his]|]; [|discriminate].
  specialize (Hd days his eq_refl). destruct days as [|day days].
  - intros E; injection E as <-. split; [|split; [|split; [exact Hn|repeat split]]].
    + unfold cap at 1. cbn. rewrite Hn. cbn in Hd. cbn. exact Hd.
    + split; [exact (proj1 Hu)|]. intros _. constructor.
  - destruct (add_daily_events cfg es day (es_daily es) []) as [evs|] eqn:Ea; [|discriminate].
    pose proof (add_daily_len _ _ _ _ _ _ Ea) as Hl. cbn [length] in Hl, Hd.
    intros E. apply IH in E as (E1 & E2 & E3 & E4); [|exact Hn|].
    + split; [|split; [exact E2|split; [exact E3|exact E4]]]. eapply Nat.le_trans; [exact E1|].
      unfold cap at 1. cbn [es_set_gen es_need es_start es_end es_events es_days es_daily es_his]. rewrite Hn. lia.
    + split; [exact (proj1 Hu)|]. intros _. cbn. eapply add_daily_upto; [exact (proj1 Hu)|constructor|exact Ea].
Qed.
Lemma gen_dry cfg b today fuel es es' : upto b es -> gen_events fuel cfg today es = GOk es' ->
  (cap es' <= cap es)%nat /\ upto b es' /\ es_need es' = false /\ kin es es'.
Proof.
  intros Hu. unfold gen_events. destruct (reset_if_needed cfg today es) as [e1|] eqn:Er; [|discriminate].
  assert (H1 : (cap e1 <= cap es)%nat /\ upto b e1 /\ es_need e1 = false /\ kin es e1).
  { unfold reset_if_needed in Er. destruct (es_need es) eqn:En; [|injection Er as <-; split; [lia|split; [exact Hu|split; [exact En|apply kin_refl]]]].
    unfold get_days in Er. cbn in Er. pose proof Hu as [(e & He & Hb) _]. rewrite He, orb_true_r in Er.
    destruct (es_start es) as [st|] eqn:Es; [|discriminate]. cbn in Er. injection Er as <-. split; [|split; [split; [exact (proj1 Hu)|intros _; constructor]|split; [reflexivity|repeat split]]].
    unfold cap. cbn. rewrite En, Es, He, day_range_length. lia. }
  destruct H1 as (C1 & U1 & N1 & K1). destruct (es_events e1) eqn:Ev; [|intros E; injection E as <-; auto].
  destruct (gen_loop fuel cfg today e1) as [e2| |] eqn:El; try discriminate. intros E; injection E as <-.
  apply (gen_loop_dry cfg b) in El as (C2 & [U2 U3] & N2 & K2); [|exact N1|exact U1].
  split; [|split; [|split; [exact N2|eapply kin_trans; eassumption]]].
  - eapply Nat.le_trans; [|exact C1]. eapply Nat.le_trans; [|exact C2]. unfold cap. cbn. rewrite N2, sort_len. lia.
  - split; [exact U2|]. intros _. cbn. apply Forall_forall. intros x Hx. specialize (U3 N2). rewrite Forall_forall in U3. apply U3.
    eapply Permutation_in; [|exact Hx]. apply sort_perm.
Qed.
Lemma peek_dry cfg b today fuel es r es' : upto b es -> peek_next_event fuel cfg today es = GOk (r, es') ->
  (cap es' <= cap es)%nat /\ upto b es' /\ match r with Some x => fst x <= b | None => True end.
Proof.
  intros Hu. unfold peek_next_event. destruct (gen_events fuel cfg today es) as [e1| |] eqn:E; try discriminate. intros X; injection X as <- <-.
  apply (gen_dry cfg b) in E as (A & B & N & _); [|exact Hu]. split; [exact A|]. split; [exact B|]. destruct B as [_ B]. specialize (B N).
  destruct (es_events e1) as [|x l]; cbn; [exact I|]. exact (Forall_inv B).
Qed.
Lemma get_dry cfg b today fuel es r es' : upto b es -> get_next_event fuel cfg today es = GOk (r, es') ->
  upto b es' /\ match r with Some _ => (S (cap es') <= cap es)%nat | None => (cap es' <= cap es)%nat end.
Proof.
  intros Hu. unfold get_next_event. destruct (gen_events fuel cfg today es) as [e1| |] eqn:E; try discriminate.
  apply (gen_dry cfg b) in E as (A & B & N & _); [|exact Hu]. destruct (es_events e1) as [|x l] eqn:Ev; intros X; injection X as <- <-; [auto|].
  destruct B as [B1 B2]. specialize (B2 N). rewrite Ev in B2. split; [split; [exact B1|intros _; cbn; exact (Forall_inv_tail B2)]|].
  eapply Nat.le_trans; [|exact A]. unfold cap. cbn. rewrite N, Ev. cbn. lia.
Qed.

Definition caps (w : sworld) : nat := list_sum (map cap (w_srcs w)).
Lemma caps_set k es es' w : nth_error (w_srcs w) k = Some es -> (caps (set_src k es' w) + cap es = caps w + cap es')%nat.
Proof.
  unfold caps. cbn [set_src w_srcs]. generalize (w_srcs w). intros l. revert k. induction l as [|x l IH]; intros [|k] H; cbn in *; try discriminate.
  - injection H as ->. lia.
  - specialize (IH k H). unfold list_sum in *. lia.
Qed.
Lemma lset_Forall {A} (P : A -> Prop) k (x : A) l : P x -> Forall P l -> Forall P (lset k x l).
Proof. intros Hx. revert k. induction l as [|y l IH]; intros [|k] H; cbn; inversion H; subst; constructor; auto. Qed.

Definition msb (tz b : Z) : Z := Z.quot (b - tz + US) 1000.
Lemma ms_upto tz b dt : dt <= b -> dt_to_milliseconds tz dt <= msb tz b.
Proof. intros H. unfold dt_to_milliseconds, msb. apply Z.quot_le_mono; [lia|]. pose proof (Z.mod_pos_bound dt US ltac:(reflexivity)). lia. Qed.

Section Dry.
  Context (fuel : nat) (cfg : escfg) (tz b T : Z) (HT : msb tz b <= T).
  Notation h := (sched_handler fuel cfg tz).
  Definition gentle (a : act scb) : Prop := match a with APush t _ _ => t <= T | AStop => False end.
  Lemma push_next_dry sid k date es w w' acts x : Forall (upto b) (w_srcs w) -> nth_error (w_srcs w) k = Some es ->
    push_next fuel cfg tz sid k date es w = (w', acts, x) ->
    Forall (upto b) (w_srcs w') /\ (caps w' <= caps w)%nat /\ (length acts <= 1)%nat /\ Forall gentle acts.
  Proof.
    intros Hu Hk. unfold push_next. destruct (peek_next_event fuel cfg date es) as [[[[dt c]|] es2]|e|] eqn:E.
    - intros X; injection X as <- <- <-. apply (peek_dry cfg b) in E as (A & B & D); [|rewrite Forall_forall in Hu; apply Hu; eapply nth_error_In; exact Hk].
      pose proof (caps_set k es es2 w Hk). split; [apply lset_Forall; assumption|]. split; [lia|]. split; [cbn; lia|].
      constructor; [|constructor]. cbn. eapply Z.le_trans; [|exact HT]. apply ms_upto. exact D.
    - intros X; injection X as <- <- <-. apply (peek_dry cfg b) in E as (A & B & D); [|rewrite Forall_forall in Hu; apply Hu; eapply nth_error_In; exact Hk].
      pose proof (caps_set k es es2 w Hk). split; [apply lset_Forall; assumption|]. split; [lia|]. split; [cbn; lia|constructor].
    - intros X; injection X as <- <- <-. split; [exact Hu|]. split; [lia|]. split; [cbn; lia|constructor].
    - intros X; injection X as <- <- <-. split; [exact Hu|]. split; [apply Nat.le_refl|]. split; [cbn; lia|constructor].
  Qed.
  Lemma handler_dry cb o w w' acts x : Forall (upto b) (w_srcs w) -> o_defer o = [] -> h cb o w = (w', acts, x) ->
    Forall (upto b) (w_srcs w') /\ (2 * caps w' + length acts <= 2 * caps w)%nat /\ Forall gentle acts.
  Proof.
    intros Hu Hd. destruct cb as [sid k|]; cbn [sched_handler]; [|rewrite Hd; intros X; injection X as <- <- <-; split; [exact Hu|split; [cbn; lia|constructor]]].
    unfold sched_callback. destruct (dmem sid (w_reg w)); cbn [negb]; [|intros X; injection X as <- <- <-; split; [exact Hu|split; [cbn; lia|constructor]]].
    destruct (nth_error (w_srcs w) k) as [es|] eqn:Hk; [|intros X; injection X as <- <- <-; split; [exact Hu|split; [cbn; lia|constructor]]].
    assert (Hes : upto b es) by (rewrite Forall_forall in Hu; apply Hu; eapply nth_error_In; exact Hk).
    destruct (get_next_event fuel cfg (o_date o) es) as [[[e|] es1]|y|] eqn:Eg.
    - apply (get_dry cfg b) in Eg as [U1 C1]; [|exact Hes]. pose proof (caps_set k es es1 w Hk) as Hc. rewrite Hd. cbn [map app].
      assert (Hu1 : Forall (upto b) (w_srcs (add_emit k e (set_src k es1 w)))) by (apply lset_Forall; assumption).
      assert (Hc1 : caps (add_emit k e (set_src k es1 w)) = caps (set_src k es1 w)) by reflexivity.
      destruct (o_exn o) as [y|].
      + intros X; injection X as <- <- <-. split; [exact Hu1|]. split; [cbn [length]; lia|constructor].
      + destruct (push_next fuel cfg tz sid k (o_date2 o) es1 (add_emit k e (set_src k es1 w))) as [[w2 acts2] x2] eqn:Ep.
        intros X; injection X as <- <- <-.
        assert (Hk1 : nth_error (w_srcs (add_emit k e (set_src k es1 w))) k = Some es1) by (cbn; apply nth_lset_same; apply nth_error_Some; congruence).
        destruct (push_next_dry _ _ _ _ _ _ _ _ Hu1 Hk1 Ep) as (A & B & D & F).
        split; [exact A|]. split; [lia|exact F].
    - apply (get_dry cfg b) in Eg as [U1 C1]; [|exact Hes]. pose proof (caps_set k es es1 w Hk) as Hc. intros X; injection X as <- <- <-.
      split; [apply lset_Forall; assumption|]. split; [cbn [length]; lia|constructor].
    - intros X; injection X as <- <- <-. split; [exact Hu|]. split; [cbn; lia|constructor].
    - intros X; injection X as <- <- <-. split; [exact Hu|]. split; [change (caps (set_hung w)) with (caps w); cbn [length]; lia|constructor].
  Qed.
End Dry.

Section Measure.
  Context (fuel : nat) (cfg : escfg) (tz b T : Z) (HT : msb tz b <= T).
  Notation h := (sched_handler fuel cfg tz).
  Implicit Types s : lstate scb sworld.
  Definition hand1 s : nat := match l_mode s with Arming _ | Running _ => 1%nat | _ => 0%nat end.
  Definition rank s : nat := match l_mode s with Arming _ => 5 | Running _ => 1 | Checking => 2 | Idle => 1 | Returned _ => 0 end%nat.
  Definition weight s : nat :=
    (10 * (2 * caps (l_w s) + length (l_q s) + hand1 s) + (if l_async s then 3 else 0) + (if l_timer s then 3 else 0) + (if l_sig s then 4 else 0) + rank s)%nat.
  Record K s : Prop := {
    k_inv : inv s;
    k_srcs : Forall (upto b) (w_srcs (l_w s));
    k_due : forall m, In m (queued s) -> m_time m <= T;
    k_hand : forall m, l_mode s = Arming m -> m_time m <= T
  }.
  Definition past (l : label scb sout) : Prop := match l with LTurn now _ => T <= now | _ => True end.

  Lemma queue_len (q : queue (msg scb)) m : qinv q -> (forall k x, In (k, x) q -> k = sort_key x) -> length (q_push q m (sort_key m)) = S (length q).
  Proof. intros A B. destruct (push_q_ok q m A B) as (_ & _ & P). apply Permutation_length in P. cbn in P. rewrite !map_length in P. exact P. Qed.
  Lemma acts_dry acts : forall s, Forall (gentle T) acts -> inv s -> (forall r, l_mode s <> Returned r) -> (forall m, In m (queued s) -> m_time m <= T) ->
    let s' := fold_left (fun st a => do_act a st) acts s in
    length (l_q s') = (length (l_q s) + length acts)%nat /\ (forall m, In m (queued s') -> m_time m <= T) /\ l_w s' = l_w s /\ l_timer s' = l_timer s /\ l_sig s' = l_sig s /\ l_mode s' = l_mode s.
  Proof.
    induction acts as [|a acts IH]; intros s Hg I Hm Hd; cbn [fold_left]; [cbn [length]; rewrite Nat.add_0_r; repeat split; auto|].
    pose proof (Forall_inv Hg) as Ha. pose proof (Forall_inv_tail Hg) as Hs. destruct a as [t p cb|]; [|contradiction].
    destruct (IH (do_act (APush t p cb) s) Hs (inv_do_act _ _ Hm I)) as (A & B & D & E & F & G).
    - intros r. rewrite mode_do_act. apply Hm.
    - intros m Hin. cbn in Hin. unfold queued in Hin. cbn in Hin. destruct (push_q_ok (l_q s) (Msg t p (l_seq s + 1) cb) (i_heap _ I) (i_keys _ I)) as (_ & _ & P).
      apply (Permutation_in _ P) in Hin. destruct Hin as [<-|Hin]; [exact Ha|apply Hd; exact Hin].
    - cbv zeta. split; [|split; [exact B|split; [exact D|split; [exact E|split; [exact F|exact G]]]]]. rewrite A.
      change (l_q (do_act (APush t p cb) s)) with (q_push (l_q s) (Msg t p (l_seq s + 1) cb) (sort_key (Msg t p (l_seq s + 1) cb))).
      rewrite queue_len; [cbn [length]; lia|apply I|apply I].
  Qed.
  Lemma K_step s l s' : K s -> by_itself l -> no_defer l -> past l -> l_step h s l = Some s' -> K s' /\ (weight s' < weight s)%nat.
  Proof.
    intros Hk Hi Hn Hp Hx. pose proof (inv_step _ _ _ _ (k_inv _ Hk) Hx) as I'. destruct Hk as [I Hu Hd Hh].
    destruct l as [| | | |now ex| |o|a|]; cbn in Hi, Hn, Hp; try contradiction; unfold l_step in Hx; destruct (l_mode s) as [| |m|m|r] eqn:Em; try discriminate.
    - destruct (l_async s) eqn:Ea; [|discriminate]. injection Hx as <-. split; [constructor; try assumption; discriminate|].
      unfold weight, hand1, rank. cbn. rewrite Em, Ea. lia.
    - destruct (l_timer s) eqn:Ea; [|discriminate]. injection Hx as <-. split; [constructor; try assumption; discriminate|].
      unfold weight, hand1, rank. cbn. rewrite Em, Ea. lia.
    - destruct (l_sig s) eqn:Ea; [|discriminate]. injection Hx as <-. unfold do_stop in *. cbn in *. destruct (l_stop s).
      + split; [constructor; try assumption; cbn; congruence|]. unfold weight, hand1, rank. cbn. rewrite Em, Ea. lia.
      + split; [constructor; try assumption; cbn; congruence|]. unfold weight, hand1, rank. cbn. rewrite Em, Ea. destruct (l_async s); lia.
    - injection Hx as <-. unfold check_turn, leave in *. destruct (l_stop s) eqn:Es.
      + rewrite ?Es in *. split; [constructor; try assumption; cbn; congruence|]. unfold weight, hand1, rank. cbn. rewrite Em. lia.
      + destruct (pop_q_ok (l_q s) (i_heap _ I) (i_keys _ I)) as [[E E1]|(m & q' & Ep & _ & _ & P & _)].
        * rewrite E, E1 in *. cbn in *. split; [constructor; try assumption; cbn; congruence|]. unfold weight, hand1, rank. cbn. rewrite Em, E. cbn. lia.
        * rewrite Ep in *. assert (Hl : length (l_q s) = S (length q')) by (apply Permutation_length in P; cbn in P; rewrite !map_length in P; exact P).
          assert (Hd' : forall x, In x (map snd q') -> m_time x <= T) by (intros x Hx; apply Hd; apply (Permutation_in _ (Permutation_sym P)); right; exact Hx).
          assert (Hm : m_time m <= T) by (apply Hd; apply (Permutation_in _ (Permutation_sym P)); left; reflexivity).
          destruct (Z.ltb_spec now (m_time m)) as [Hlt|Hge]; [lia|]. split; [constructor; try assumption; cbn; congruence|].
          unfold weight, hand1, rank. cbn. rewrite Em, Hl. lia.
    - injection Hx as <-. unfold arm, leave in *.
      assert (G : (weight (set_mode Idle (push_msg m false (set_timer (Some (m_time m)) s))) < weight s)%nat /\ forall x, In x (queued (push_msg m false (set_timer (Some (m_time m)) s))) -> m_time x <= T).
      { split.
        - pose proof (queue_len (l_q s) m (i_heap _ I) (i_keys _ I)) as HL. unfold weight, hand1, rank. cbn in HL |- *. rewrite Em, HL. destruct (l_timer s); lia.
        - intros x Hx. unfold queued in Hx. cbn in Hx. destruct (push_q_ok (l_q s) m (i_heap _ I) (i_keys _ I)) as (_ & _ & P).
          apply (Permutation_in _ P) in Hx. destruct Hx as [<-|Hx]; [apply Hh; reflexivity|apply Hd; exact Hx]. }
      destruct G as [G1 G2]. destruct (l_stop (push_msg m false (set_timer (Some (m_time m)) s))).
      + split; [constructor; try assumption; cbn; discriminate|exact G1].
      + split; [constructor; try assumption; cbn; discriminate|exact G1].
    - injection Hx as <-. unfold finish in *. destruct (h (m_cb m) o (l_w s)) as [[w' acts] x] eqn:Eh.
      destruct (handler_dry fuel cfg tz b T HT _ _ _ _ _ _ Hu Hn Eh) as (A & B & D).
      assert (Iw : inv (set_w w' s)) by (apply inv_set_w; exact I).
      destruct (acts_dry acts (set_w w' s) D Iw ltac:(cbn; congruence) Hd) as (F1 & F2 & F3 & F4 & F5 & F6). cbv zeta in *.
      set (s1 := fold_left (fun st a => do_act a st) acts (set_w w' s)) in *. cbn in F1, F3, F4, F5.
      assert (G : forall s2, l_q s2 = l_q s1 -> l_w s2 = l_w s1 -> l_timer s2 = l_timer s1 -> l_sig s2 = l_sig s1 -> inv (set_mode Checking s2) ->
        K (set_mode Checking s2) /\ (weight (set_mode Checking s2) < weight s)%nat).
      { intros s2 Q1 Q2 Q3 Q4 I2. split.
        - constructor; [exact I2| | |cbn; discriminate].
          + cbn. rewrite Q2, F3. exact A.
          + cbn. unfold queued in *. cbn. rewrite Q1. exact F2.
        - unfold weight, hand1, rank. cbn. rewrite Em, Q1, Q2, Q3, Q4, F1, F3, F4, F5. destruct (l_async s2), (l_async s); lia. }
      destruct x as [e|]; [|apply G; auto]. apply G; try exact I'; unfold do_stop; destruct (l_stop _); reflexivity.
    - destruct (l_uvstop s) eqn:Ea; [|discriminate]. injection Hx as <-. split; [constructor; try assumption; cbn; congruence|]. unfold weight, hand1, rank. cbn. rewrite Em. lia.
  Qed.
  Lemma K_exec ls : forall s s', K s -> Forall by_itself ls -> Forall no_defer ls -> Forall past ls -> l_exec h s ls = Some s' -> (length ls + weight s' <= weight s)%nat.
  Proof.
    induction ls as [|l ls IH]; intros s s' Hk Hi Hn Hp Hx; cbn [l_exec] in Hx; [injection Hx as <-; cbn; lia|].
    inversion Hi; inversion Hn; inversion Hp; subst. destruct (l_step h s l) as [s1|] eqn:E; [|discriminate].
    destruct (K_step s l s1) as [Hk1 Hw]; try assumption. specialize (IH s1 s' Hk1 ltac:(assumption) ltac:(assumption) ltac:(assumption) Hx). cbn [length]. lia.
  Qed.
End Measure.

(** ** processes *)
Lemma entries_end c l : forall es, es_end (add_entries c l es) = es_end es.
Proof. induction l as [|e l IH]; intros es; [reflexivity|]. change (add_entries c (e :: l) es) with (add_entries c l (es_add_daily c e es)). rewrite IH. reflexivity. Qed.
Lemma setup_end cfg now a b es : es_setup cfg now (es_new a b) = Ok es -> es_end es = b.
Proof.
  unfold es_setup, reset_if_needed. cbn [es_set_start es_new es_need]. destruct (get_days _ _ _) as [[days his]|]; cbn; [|discriminate].
  intros X; injection X as <-. reflexivity.
Qed.
Section Ends.
  Variables (fuel : nat) (cfg : escfg) (sc : scfg) (st : Z) (en : option Z).
  Notation ends := (fun s : strat => Forall (fun es => es_end es = en) (st_srcs s)).
  Lemma ustep_ends c s : ends s -> ends (snd (ustep fuel sc st en c s)).
  Proof.
    intros H. destruct c as [f t|k e|n o]; cbn [ustep].
    - unfold run_daily. destruct (f_name f); [|exact H]. destruct (negb (st_allowed s)); [exact H|]. destruct (negb (f_callable f)); exact H.
    - unfold set_options, setup_account, setup_timer.
      destruct (negb (st_allowed s)); [exact H|]. destruct (parse_opts k) as [o|x]; [|exact H]. destruct (e_dir e); [|exact H].
      destruct (match so_use o with Some b => b | None => sc_setup sc end); [|exact H].
      destruct (negb (so_acct o)); [exact H|]. destruct (e_load e); [|exact H]. destruct (e_gate e); [|exact H].
      destruct (need_bal sc o || need_ord sc o); [|exact H].
      destruct (sync_entries fuel sc (e_now e) o) as [l| |]; [|exact H|exact H].
      cbn [snd add_src set_bus st_srcs new_acc set_use set_opts]. apply Forall_app. split; [exact H|]. constructor; [|constructor].
      rewrite entries_end. reflexivity.
    - exact H.
  Qed.
  Lemma uexec_ends cs : forall s, ends s -> ends (uexec fuel sc st en cs s).
  Proof. induction cs as [|c cs IH]; intros s H; [exact H|]. cbn [MStrategy.uexec]. apply IH, ustep_ends, H. Qed.
  Lemma descs_ends now ds : forall s s', ends s -> schedule_descs fuel cfg sc st en now ds s = GOk s' -> ends s'.
  Proof.
    induction ds as [|d ds IH]; intros s s' H; cbn [schedule_descs].
    - intros E; injection E as <-; exact H.
    - destruct (schedule_one fuel cfg sc st en (now (st_count s)) d s) as [s1|x|] eqn:E1; try discriminate. intros E. eapply IH; [|exact E].
      unfold schedule_one in E1. destruct (es_setup _ _ _) as [es0|] eqn:Es; [|discriminate].
      destruct (if str_eqb (d_time d) (lit "every_minute") then _ else _) as [l|x|]; try discriminate.
      assert (G : forall a b : strat, GOk a = GOk b -> a = b) by (clear; intros a b E0; injection E0; auto). apply G in E1. subst s1.
      cbn [inc_count add_src set_bus st_srcs]. apply Forall_app. split; [exact H|]. constructor; [|constructor].
      rewrite entries_end. eapply setup_end; exact Es.
  Qed.
  Lemma start_ends tz now calls ns dates s4 s0 : start fuel cfg sc tz st en now calls ns dates = Some (s4, s0) -> ends s4.
  Proof.
    unfold start. destruct (MStrategy.setup fuel cfg sc st en now true calls None (strat_new ns)) as [[[]|x|] s5] eqn:Es; try discriminate.
    destruct (boot fuel (loop_cfg cfg sc s5) tz (st_srcs s5) dates) as [s0'|] eqn:Eb; [|discriminate]. intros E.
    assert (G : forall A B (a a' : A) (b b' : B), Some (a, b) = Some (a', b') -> a = a' /\ b = b') by (intros * H; injection H; auto).
    apply G in E as [-> ->].
    unfold MStrategy.setup, schedule_all_tasks in Es. set (s1 := set_allowed true (make_apis sc (strat_new ns))) in *.
    set (s3 := set_allowed false (uexec fuel sc st en calls s1)) in *.
    destruct (schedule_descs fuel cfg sc st en now (st_sched s3) s3) as [s5|x|] eqn:E; try discriminate.
    assert (Ep : forall a b : gres unit * strat, a = b -> snd a = snd b) by (intros a b ->; reflexivity).
    apply Ep in Es. cbn [snd] in Es. subst s5. eapply descs_ends; [|exact E]. unfold s3. cbn [set_allowed st_srcs]. apply uexec_ends. constructor.
  Qed.
End Ends.

Section Proc.
  Context (fuel : nat) (Hfuel : (0 < fuel)%nat) (cfg : escfg) (tz : Z) (srcs0 : list esrc).
  Notation h := (sched_handler fuel cfg tz).
  Implicit Types s : lstate scb sworld.

  Lemma hung_step s l s' : l_step h s l = Some s' -> w_hung (l_w s) = true -> w_hung (l_w s') = true.
  Proof.
    intros Hx Hw. destruct (step_w _ _ _ _ Hx) as [->|(m & o & _ & _ & ->)]; [exact Hw|].
    destruct (m_cb m) as [sid k|]; cbn [sched_handler fst]; [|exact Hw]. unfold sched_callback, push_next.
    destruct (negb _); [exact Hw|]. destruct (nth_error _ k) as [es|]; [|exact Hw]. destruct (get_next_event _ _ _ _) as [[[e|] es1]|y|]; try exact Hw; [|reflexivity].
    destruct (o_exn o); [exact Hw|]. destruct (peek_next_event _ _ _ _) as [[[[dt c]|] es2]|y|]; try exact Hw. reflexivity.
  Qed.
  Lemma hung_exec ls : forall s s', l_exec h s ls = Some s' -> w_hung (l_w s) = true -> w_hung (l_w s') = true.
  Proof.
    induction ls as [|l ls IH]; intros s s' Hx Hw; cbn [l_exec] in Hx; [injection Hx as <-; exact Hw|].
    destruct (l_step h s l) as [s1|] eqn:E; [|discriminate]. eapply IH; [exact Hx|]. eapply hung_step; eassumption.
  Qed.
  Lemma raised_step s l s' : l_step h s l = Some s' -> l_raised s <> [] -> l_raised s' <> [].
  Proof.
    intros Hx Hr. assert (Hact : forall a s0, l_raised (do_act a s0) = l_raised s0) by (intros [t p cb|] s0; [reflexivity|cbn; unfold do_stop; destruct (l_stop s0); reflexivity]).
    assert (Hf : forall acts s0, l_raised (fold_left (fun st a => do_act a st) acts s0) = l_raised s0).
    { induction acts as [|a acts IH]; intros s0; [reflexivity|]. cbn [fold_left]. rewrite IH. apply Hact. }
    assert (Hst : forall s0, l_raised (do_stop s0) = l_raised s0) by (intros s0; unfold do_stop; destruct (l_stop s0); reflexivity).
    assert (Hle : forall s0, l_raised (leave s0) = l_raised s0) by (intros s0; unfold leave; destruct (l_stop s0); reflexivity).
    unfold l_step in Hx. destruct l as [| | | |now ex| |o|a|]; destruct (l_mode s) as [| |m|m|r]; try discriminate.
    - destruct (l_async s); [|discriminate]. injection Hx as <-. exact Hr.
    - destruct (l_timer s); [|discriminate]. injection Hx as <-. exact Hr.
    - destruct (l_sig s); [|discriminate]. injection Hx as <-. rewrite Hst. exact Hr.
    - injection Hx as <-. exact Hr.
    - injection Hx as <-. exact Hr.
    - injection Hx as <-. exact Hr.
    - injection Hx as <-. exact Hr.
    - injection Hx as <-. unfold check_turn. destruct (l_stop s); [rewrite Hle; exact Hr|]. destruct (q_pop (l_q s)) as [[m|e] q']; [|rewrite Hle; exact Hr].
      destruct (now <? m_time m); [destruct ex; [rewrite Hle, Hst; exact Hr|exact Hr]|exact Hr].
    - injection Hx as <-. unfold arm. rewrite Hle. exact Hr.
    - injection Hx as <-. unfold finish. destruct (h (m_cb m) o (l_w s)) as [[w' acts] x]. cbn. destruct x; [rewrite Hst; cbn|]; rewrite Hf; cbn; [|exact Hr].
      destruct (l_raised s); discriminate.
    - injection Hx as <-. rewrite Hact. exact Hr.
    - injection Hx as <-. rewrite Hact. exact Hr.
    - injection Hx as <-. rewrite Hact. exact Hr.
    - injection Hx as <-. rewrite Hact. exact Hr.
    - destruct (l_uvstop s); [|discriminate]. injection Hx as <-. exact Hr.
  Qed.
  Lemma raised_exec ls : forall s s', l_exec h s ls = Some s' -> l_raised s <> [] -> l_raised s' <> [].
  Proof.
    induction ls as [|l ls IH]; intros s s' Hx Hw; cbn [l_exec] in Hx; [injection Hx as <-; exact Hw|].
    destruct (l_step h s l) as [s1|] eqn:E; [|discriminate]. eapply IH; [exact Hx|]. eapply raised_step; eassumption.
  Qed.
  Lemma stopped_step s l s' : l_stop s = true -> (forall m, l_mode s <> Running m) -> l_step h s l = Some s' ->
    l_stop s' = true /\ (forall m, l_mode s' <> Running m) /\ l_w s' = l_w s.
  Proof.
    intros H1 H2 Hx. split; [|split].
    - destruct l as [| | | |now ex| |o|a|]; unfold l_step in Hx; destruct (l_mode s) as [| |m|m|r]; try discriminate.
      + destruct (l_async s); [|discriminate]. injection Hx as <-. exact H1.
      + destruct (l_timer s); [|discriminate]. injection Hx as <-. exact H1.
      + destruct (l_sig s); [|discriminate]. injection Hx as <-. unfold do_stop. cbn. rewrite H1. exact H1.
      + injection Hx as <-. exact H1.
      + injection Hx as <-. exact H1.
      + injection Hx as <-. exact H1.
      + injection Hx as <-. exact H1.
      + injection Hx as <-. unfold check_turn, leave. rewrite H1. exact H1.
      + injection Hx as <-. unfold arm, leave. cbn. rewrite H1. exact H1.
      + exfalso. exact (H2 m eq_refl).
      + injection Hx as <-. apply stop_do_act, H1.
      + injection Hx as <-. apply stop_do_act, H1.
      + injection Hx as <-. apply stop_do_act, H1.
      + injection Hx as <-. apply stop_do_act, H1.
      + destruct (l_uvstop s); [|discriminate]. injection Hx as <-. exact H1.
    - destruct l as [| | | |now ex| |o|a|]; unfold l_step in Hx; destruct (l_mode s) as [| |m|m|r] eqn:Em; try discriminate.
      + destruct (l_async s); [|discriminate]. injection Hx as <-. discriminate.
      + destruct (l_timer s); [|discriminate]. injection Hx as <-. discriminate.
      + destruct (l_sig s); [|discriminate]. injection Hx as <-. unfold do_stop. cbn. rewrite H1. cbn. rewrite Em. discriminate.
      + injection Hx as <-. cbn. rewrite Em. discriminate.
      + injection Hx as <-. cbn. rewrite Em. discriminate.
      + injection Hx as <-. cbn. rewrite Em. discriminate.
      + exfalso. exact (H2 m eq_refl).
      + injection Hx as <-. unfold check_turn, leave. rewrite H1. discriminate.
      + injection Hx as <-. unfold arm, leave. cbn. rewrite H1. discriminate.
      + exfalso. exact (H2 m eq_refl).
      + injection Hx as <-. rewrite mode_do_act, Em. discriminate.
      + injection Hx as <-. rewrite mode_do_act, Em. discriminate.
      + injection Hx as <-. rewrite mode_do_act, Em. discriminate.
      + exfalso. exact (H2 m eq_refl).
      + destruct (l_uvstop s); [|discriminate]. injection Hx as <-. discriminate.
    - destruct (step_w _ _ _ _ Hx) as [E|(m & o & E & _)]; [exact E|exfalso; exact (H2 m E)].
  Qed.
  Lemma stopped_exec ls : forall s s', l_stop s = true -> (forall m, l_mode s <> Running m) -> l_exec h s ls = Some s' -> l_w s' = l_w s.
  Proof.
    induction ls as [|l ls IH]; intros s s' H1 H2 Hx; cbn [l_exec] in Hx; [injection Hx as <-; reflexivity|].
    destruct (l_step h s l) as [s1|] eqn:E; [|discriminate]. destruct (stopped_step _ _ _ H1 H2 E) as (A & B & D). rewrite (IH _ _ A B Hx). exact D.
  Qed.
  Lemma exec_app ls1 ls2 : forall s s', l_exec h s (ls1 ++ ls2) = Some s' -> exists s1, l_exec h s ls1 = Some s1 /\ l_exec h s1 ls2 = Some s'.
  Proof.
    induction ls1 as [|l ls1 IH]; intros s s' Hx; cbn [app l_exec] in *; [exists s; auto|]. destruct (l_step h s l) as [s1|]; [|discriminate]. apply IH. exact Hx.
  Qed.

  Lemma boot_facts dates s0 : boot fuel cfg tz srcs0 dates = Some s0 -> inv s0 /\ l_stop s0 = false /\ l_mode s0 = Idle /\ l_raised s0 = [].
  Proof.
    intros Hb. unfold boot in Hb. pose proof (BI_all fuel cfg tz srcs0 Hfuel dates 0 _ _ (BI_init fuel cfg tz srcs0 Hfuel) Hb) as [B1 _ B3 B4 _ _ _ _].
    split; [exact B1|]. split; [exact B4|]. split; [exact B3|]. destruct (i_raised _ B1) as [[H _]|(e & _ & _ & H & _)]; [exact H|congruence].
  Qed.

  (** nobody told it and nothing failed: then everything was dispatched *)
  Lemma ended_dry dates s0 ls s : length dates = length srcs0 -> boot fuel cfg tz srcs0 dates = Some s0 -> Forall ok_label ls -> Forall untold ls ->
    l_exec h s0 ls = Some s -> l_stop s = true -> l_raised s = [] -> w_hung (l_w s) = false ->
    forall es, In es (w_srcs (l_w s)) -> exhausted cfg es.
  Proof.
    intros Hl Hb Hok Hun Hx Hs Hr Hh es Hes. destruct (boot_facts _ _ Hb) as (I0 & Hs0 & Hm0 & Hr0).
    destruct (exec_cause h ls s0 s I0 Hx Hs0 Hs) as (pre & l & post & s1 & s2 & -> & Hx1 & Hs1 & Hx2 & Hc).
    apply Forall_app in Hok as [Hok1 _]. apply Forall_app in Hun as [_ Hun]. pose proof (Forall_inv Hun) as Hl1.
    destruct (exec_app _ _ _ _ Hx) as (s1' & E1 & E2). rewrite Hx1 in E1. injection E1 as <-. cbn [l_exec] in E2. rewrite Hx2 in E2.
    assert (Hreach : sreach fuel cfg tz srcs0 s1) by (exists dates, s0, pre; auto).
    destruct Hc as [| |now Hm Hq Ha|now ex Hm Hq|m o w' acts e Hm Hh2 He]; cbn in Hl1; try contradiction.
    - pose proof Hx2 as Hx2'. unfold l_step in Hx2'. rewrite Hm in Hx2'. injection Hx2' as Es2.
      assert (Q : l_q s1 = []) by (unfold queued in Hq; destruct (l_q s1); [reflexivity|discriminate]).
      unfold check_turn in Es2. rewrite Hs1, Q in Es2. cbn in Es2.
      assert (Hw : l_w s = l_w s1).
      { rewrite (stopped_exec post s2 s); [rewrite <- Es2; reflexivity| | |exact E2]; rewrite <- Es2; [reflexivity|discriminate]. }
      rewrite Hw in *. destruct (In_nth_error _ _ Hes) as [k Hk].
      eapply empty_all_done; try eassumption.
    - exfalso. apply handler_acts in Hh2 as Hna. destruct He as [He|He]; [|rewrite Forall_forall in Hna; exact (Hna _ He eq_refl)].
      apply (raised_exec post s2 s); [exact E2| |exact Hr]. unfold l_step in Hx2. rewrite Hm in Hx2. injection Hx2 as <-. unfold finish. rewrite Hh2.
      destruct e as [x|]; [|congruence]. cbn. unfold do_stop. cbn; match goal with |- context[if ?b then _ else _] => destruct b end; cbn; intros E0; apply app_eq_nil in E0 as [_ E0]; discriminate.
  Qed.
End Proc.
