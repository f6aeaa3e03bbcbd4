(** How late the callbacks of a task process start (C95). *)
From Coq Require Import Permutation Sorted.
From Verif Require Import PyBase PyStr LStr MTime MTimeExpr LTimeExpr SExpr MEventSource MQueue MLoop MSched MBus SBus LBus
  SQueue LQueue LLoop SEvent SSched LSort LEventSource LEventSource2 LSched LSched2 LSched3 MStrategy SStrategy LStrategy LStrategy2
  LLive LTie MProcess SProcess LProcess LProcess2 SLate LLate.
Open Scope Z_scope.

Lemma no_push_ok (l : label scb sout) : no_push l -> ok_label l.
Proof. destruct l as [| | | | | | |[t p c|]|]; cbn; auto. intros []. Qed.

Section Sched.
  Variables (fuel : nat) (cfg : escfg) (tz : Z) (srcs0 : list esrc).
  Hypothesis Hfuel : (0 < fuel)%nat.
  Implicit Types s : lstate scb sworld.
  Notation ms_of := (dt_to_milliseconds tz).
  Notation h := (sched_handler fuel cfg tz).
  Notation FI := (FI fuel cfg tz srcs0).

  Definition tag (m : msg scb) : option nat * Z := (src_of m, m_time m).
  Definition etag (ke : nat * (Z * ecls)) : option nat * Z := (Some (fst ke), ms_of (fst (snd ke))).

  (** the callbacks started are the events emitted, and the one of the running callback *)
  Record LE s : Prop := {
    e_log : map (fun x => tag (fst x)) (l_log s) =
            map etag (w_emits (l_w s)) ++ match l_mode s with Running m => [tag m] | _ => [] end;
    e_src : forall m, In m (msgs s) -> src_of m <> None
  }.

  Lemma LE_same s s' : LE s -> l_log s' = l_log s -> l_w s' = l_w s ->
    (match l_mode s' with Running m => [tag m] | _ => [] end = match l_mode s with Running m => [tag m] | _ => [] end) ->
    (forall m, In m (msgs s') -> In m (msgs s)) -> LE s'.
  Proof. intros [H1 H2] E1 E2 E3 Hm. constructor; [rewrite E1, E2, E3; exact H1|]. intros m Hin. apply H2, Hm, Hin. Qed.

  Lemma leave_all s : l_log (leave s) = l_log s /\ l_w (leave s) = l_w s /\ l_mode (leave s) = Idle /\ l_q (leave s) = l_q s.
  Proof. unfold leave. destruct (l_stop s); auto. Qed.
  Lemma stop_all s : l_log (do_stop s) = l_log s /\ l_w (do_stop s) = l_w s /\ l_mode (do_stop s) = l_mode s /\ l_q (do_stop s) = l_q s.
  Proof. unfold do_stop. destruct (l_stop s); auto. Qed.

  Lemma LE_step s l s' : FI s -> LE s -> no_push l -> no_defer l -> l_step h s l = Some s' -> LE s'.
  Proof.
    intros F HL Hp Hd Hs. pose proof HL as [H1 H2]. unfold l_step in Hs.
    destruct l as [| | | |now ex| |o|a|]; destruct (l_mode s) as [| |m|m|r] eqn:Em; try discriminate.
    - destruct (l_async s); [|discriminate]. injection Hs as <-. apply (LE_same s); [exact HL|reflexivity|reflexivity|cbn; rewrite Em; reflexivity|].
      unfold msgs, hand, queued; cbn. rewrite Em. auto.
    - destruct (l_timer s); [|discriminate]. injection Hs as <-. apply (LE_same s); [exact HL|reflexivity|reflexivity|cbn; rewrite Em; reflexivity|].
      unfold msgs, hand, queued; cbn. rewrite Em. auto.
    - destruct (l_sig s); [|discriminate]. injection Hs as <-. destruct (stop_all (set_sig false s)) as (E1 & E2 & E3 & E4).
      apply (LE_same s); [exact HL|rewrite E1; reflexivity|rewrite E2; reflexivity|rewrite E3; reflexivity|].
      unfold msgs, hand, queued; rewrite E3, E4; cbn. auto.
    - injection Hs as <-. apply (LE_same s); auto.
    - injection Hs as <-. apply (LE_same s); auto.
    - injection Hs as <-. apply (LE_same s); auto.
    - injection Hs as <-. apply (LE_same s); auto.
    - injection Hs as <-. rewrite app_nil_r in H1. unfold check_turn.
      assert (Hq0 : msgs s = queued s) by (unfold msgs, hand; rewrite Em; reflexivity).
      destruct (l_stop s) eqn:Est.
      { destruct (leave_all s) as (E1 & E2 & E3 & E4). apply (LE_same s); [exact HL|exact E1|exact E2|rewrite E3, Em; reflexivity|].
        unfold msgs, hand, queued. rewrite E3, E4, Em. auto. }
      destruct (pop_q_ok (l_q s) (i_heap _ (f_inv _ _ _ _ _ F)) (i_keys _ (f_inv _ _ _ _ _ F))) as [[Eq Ep]|(m & q' & Ep & _ & _ & Hperm & Hmin)]; rewrite Ep.
      { destruct (leave_all (set_stop true s)) as (E1 & E2 & E3 & E4). apply (LE_same s); [exact HL|exact E1|exact E2|rewrite E3, Em; reflexivity|].
        unfold msgs, hand, queued. rewrite E3, E4, Em. auto. }
      assert (Hin : forall m', In m' (m :: map snd q') -> In m' (msgs s)).
      { intros m' Hm. rewrite Hq0. unfold queued. rewrite Hperm. exact Hm. }
      destruct (Z.ltb_spec now (m_time m)).
      + destruct ex.
        * destruct (leave_all (do_stop (set_q q' s))) as (E1 & E2 & E3 & E4). destruct (stop_all (set_q q' s)) as (G1 & G2 & G3 & G4).
          apply (LE_same s); [exact HL|rewrite E1, G1; reflexivity|rewrite E2, G2; reflexivity|rewrite E3, Em; reflexivity|].
          unfold msgs at 1, hand, queued. rewrite E3, E4, G4. cbn [app set_q l_q]. intros m' Hm. apply Hin. right; exact Hm.
        * apply (LE_same s); [exact HL|reflexivity|reflexivity|cbn; rewrite Em; reflexivity|]. unfold msgs at 1, hand, queued. cbn. exact Hin.
      + constructor.
        * cbn. rewrite map_app, H1. reflexivity.
        * unfold msgs, hand, queued. cbn. intros m' Hm. apply H2, Hin, Hm.
    - injection Hs as <-. unfold arm.
      destruct (push_q_ok (l_q s) m (i_heap _ (f_inv _ _ _ _ _ F)) (i_keys _ (f_inv _ _ _ _ _ F))) as (_ & _ & Hperm).
      destruct (leave_all (push_msg m false (set_timer (Some (m_time m)) s))) as (E1 & E2 & E3 & E4).
      apply (LE_same s); [exact HL|rewrite E1; reflexivity|rewrite E2; reflexivity|rewrite E3, Em; reflexivity|].
      unfold msgs, hand, queued. rewrite E3, E4, Em. cbn [push_msg set_q set_timer l_q app]. intros m' Hm. rewrite Hperm in Hm. exact Hm.
    - injection Hs as <-. destruct (h (m_cb m) o (l_w s)) as [[w' acts] x] eqn:Eh.
      destruct (finish_shape fuel cfg tz srcs0 s m o w' acts x F Em Eh) as (new & En & Hperm & Ew & _ & Emode).
      assert (Elog : l_log (finish h m o s) = l_log s).
      { unfold finish. rewrite Eh. destruct x as [x|]; cbn [set_mode l_log]; [rewrite (proj1 (stop_all _)); cbn|]; rewrite LLate.log_acts; reflexivity. }
      pose proof (f_SI _ _ _ _ _ F) as HSI. assert (Hmm : msgs s = m :: queued s) by (unfold msgs, hand; rewrite Em; reflexivity). rewrite Hmm in HSI, H2.
      destruct (m_cb m) as [sid k|] eqn:Hcb; [|exfalso; apply (H2 m (or_introl eq_refl)); unfold src_of; rewrite Hcb; reflexivity].
      cbn [sched_handler] in Eh.
      destruct (SI_callback fuel cfg tz srcs0 Hfuel (l_w s) m (queued s) (l_stop s) sid k o w' acts x HSI Hcb Eh) as (_ & (dt & c & Eem & Hmt & _ & _ & _) & _).
      constructor.
      + rewrite Elog, Emode, app_nil_r, Ew, Eem, H1, map_app. unfold tag, etag, src_of. cbn [map fst snd]. rewrite Hcb, Hmt. reflexivity.
      + intros m' Hm. rewrite Hperm in Hm. apply in_app_or in Hm as [Hm|Hm]; [|apply H2; right; exact Hm].
        assert (Ha : Forall (fun a : act scb => match a with APush _ _ COther => False | _ => True end) acts).
        { revert Eh. unfold sched_callback. cbn in Hd. rewrite Hd. cbn [map app]. destruct (negb _); [intros E; injection E as _ <- _; constructor|].
          destruct (nth_error _ _); [|intros E; injection E as _ <- _; constructor].
          destruct (get_next_event _ _ _ _) as [[[ev|] es1]|y|]; try (intros E; injection E as _ <- _; constructor).
          destruct (o_exn o); [intros E; injection E as _ <- _; constructor|]. unfold push_next.
          destruct (peek_next_event _ _ _ _) as [[[[dt2 c2]|] es2]|y|]; intros E; injection E as _ <- _; repeat constructor. }
        rewrite <- En, Forall_map in Ha. rewrite Forall_forall in Ha. specialize (Ha m' Hm). cbn in Ha. unfold src_of. destruct (m_cb m'); [discriminate|destruct Ha].
    - destruct a; [destruct Hp|]. injection Hs as <-. cbn [do_act]. destruct (stop_all s) as (E1 & E2 & E3 & E4).
      apply (LE_same s); [exact HL|exact E1|exact E2|rewrite E3; reflexivity|]. unfold msgs, hand, queued. rewrite E3, E4. auto.
    - destruct a; [destruct Hp|]. injection Hs as <-. cbn [do_act]. destruct (stop_all s) as (E1 & E2 & E3 & E4).
      apply (LE_same s); [exact HL|exact E1|exact E2|rewrite E3; reflexivity|]. unfold msgs, hand, queued. rewrite E3, E4. auto.
    - destruct a; [destruct Hp|]. injection Hs as <-. cbn [do_act]. destruct (stop_all s) as (E1 & E2 & E3 & E4).
      apply (LE_same s); [exact HL|exact E1|exact E2|rewrite E3; reflexivity|]. unfold msgs, hand, queued. rewrite E3, E4. auto.
    - destruct a; [destruct Hp|]. injection Hs as <-. cbn [do_act]. destruct (stop_all s) as (E1 & E2 & E3 & E4).
      apply (LE_same s); [exact HL|exact E1|exact E2|rewrite E3; reflexivity|]. unfold msgs, hand, queued. rewrite E3, E4. auto.
    - destruct (l_uvstop s); [|discriminate]. injection Hs as <-. apply (LE_same s); [exact HL|reflexivity|reflexivity|cbn; rewrite Em; reflexivity|].
      unfold msgs, hand, queued. cbn. rewrite Em. auto.
  Qed.

  Lemma LE_exec ls : forall s s', FI s -> LE s -> Forall no_push ls -> Forall no_defer ls -> l_exec h s ls = Some s' -> LE s'.
  Proof.
    induction ls as [|l ls IH]; intros s s' F HL Hp Hd Hex; cbn [l_exec] in Hex; [injection Hex as <-; exact HL|].
    destruct (l_step h s l) as [s1|] eqn:Es; [|discriminate]. apply Forall_cons_iff in Hp as [Hp Hps]. apply Forall_cons_iff in Hd as [Hd Hds].
    eapply (IH s1); try eassumption; [eapply FI_step; try eassumption; apply no_push_ok; exact Hp|eapply LE_step; eassumption].
  Qed.

  (** at start-up *)
  Lemma LE_push_next sid k date es w w2 acts x : push_next fuel cfg tz sid k date es w = (w2, acts, x) ->
    Forall (fun a : act scb => match a with APush _ _ (CSched _ _) => True | _ => False end) acts /\ w_emits w2 = w_emits w.
  Proof.
    unfold push_next. destruct (peek_next_event _ _ _ _) as [[[[dt2 c2]|] es2]|y|]; intros E; injection E as <- <- _; split; repeat constructor.
  Qed.
  Lemma quiet_acts acts : forall s, Forall (fun a : act scb => match a with APush _ _ (CSched _ _) => True | _ => False end) acts -> l_log s = [] -> l_mode s = Idle ->
    inv s -> (forall m, In m (queued s) -> src_of m <> None) ->
    let s' := fold_left (fun st a => do_act a st) acts s in l_log s' = [] /\ l_mode s' = Idle /\ l_w s' = l_w s /\ inv s' /\ (forall m, In m (queued s') -> src_of m <> None).
  Proof.
    induction acts as [|a acts IH]; intros s Ha El Em Hi Hq; cbn [fold_left]; [auto|]. apply Forall_cons_iff in Ha as [Ha Has].
    destruct a as [t p cb|]; [|destruct Ha]. destruct cb as [sid k|]; [|destruct Ha].
    destruct (IH (do_act (APush t p (CSched sid k)) s)) as (G1 & G2 & G3 & G4 & G5); auto.
    - apply inv_do_act; [intros r; congruence|exact Hi].
    - intros m Hm. unfold queued in Hm. cbn in Hm. destruct (push_q_ok (l_q s) (Msg t p (l_seq s + 1) (CSched sid k)) (i_heap _ Hi) (i_keys _ Hi)) as (_ & _ & Hperm).
      rewrite Hperm in Hm. destruct Hm as [<-|Hm]; [discriminate|apply Hq, Hm].
  Qed.
  Lemma quiet_boot dates : forall k s s', schedule_all fuel cfg tz k dates s = Some s' -> l_log s = [] -> l_mode s = Idle -> inv s -> w_emits (l_w s) = [] ->
    (forall m, In m (queued s) -> src_of m <> None) ->
    l_log s' = [] /\ l_mode s' = Idle /\ w_emits (l_w s') = [] /\ (forall m, In m (queued s') -> src_of m <> None).
  Proof.
    induction dates as [|d dates IH]; intros k s s' E El Em Hi He Hq; cbn [schedule_all] in E; [injection E as <-; auto|].
    destruct (schedule fuel cfg tz k d s) as [s1|] eqn:Es; [|discriminate]. unfold schedule in Es.
    destruct (nth_error _ _) as [es|]; [|discriminate]. destruct (push_next _ _ _ _ _ _ _ _) as [[w2 acts] [x|]] eqn:Ep; [discriminate|].
    destruct (w_hung w2); [discriminate|]. injection Es as <-. destruct (LE_push_next _ _ _ _ _ _ _ _ Ep) as [Ha Hw].
    destruct (quiet_acts acts (set_w w2 s) Ha El Em (inv_set_w w2 s Hi) Hq) as (G1 & G2 & G3 & G4 & G5).
    eapply IH; try eassumption. rewrite G3. cbn. rewrite Hw. exact He.
  Qed.
  Lemma LE_boot dates s0 : boot fuel cfg tz srcs0 dates = Some s0 -> LE s0 /\ l_log s0 = [] /\ l_mode s0 = Idle.
  Proof.
    intros Hb. unfold boot in Hb.
    destruct (quiet_boot dates 0 _ _ Hb) as (G1 & G2 & G3 & G4); try reflexivity; [apply inv_init|intros m []|].
    split; [|auto]. constructor; [rewrite G1, G2, G3; reflexivity|]. unfold msgs, hand. rewrite G2. exact G4.
  Qed.

  Variables (dates : list Z) (s0 s : lstate scb sworld) (ls : list (label scb sout)).
  Hypothesis Hlen : length dates = length srcs0.
  Hypothesis Hboot : boot fuel cfg tz srcs0 dates = Some s0.
  Hypothesis Hpush : Forall no_push ls.
  Hypothesis Hdefer : Forall no_defer ls.
  Hypothesis Hex : l_exec h s0 ls = Some s.

  Lemma late_reach : sreach fuel cfg tz srcs0 s.
  Proof. exists dates, s0, ls. repeat split; try assumption. eapply Forall_impl; [apply no_push_ok|exact Hpush]. Qed.

  Lemma late_LE : LE s.
  Proof.
    eapply LE_exec; try eassumption; [|apply (LE_boot dates), Hboot].
    apply FI_reach; [exact Hfuel|]. exists dates, s0, []. repeat split; try assumption. constructor.
  Qed.

  (** source-wise *)
  Lemma log_source : (forall m, l_mode s <> Running m) ->
    map (fun x => (source (fst x), m_time (fst x))) (l_log s) = map (fun ke => (fst ke, ms_of (fst (snd ke)))) (w_emits (l_w s)).
  Proof.
    intros Hm. pose proof (e_log _ late_LE) as E.
    assert (E' : map (fun x => tag (fst x)) (l_log s) = map etag (w_emits (l_w s))).
    { rewrite E. destruct (l_mode s) eqn:Em; rewrite ?app_nil_r; try reflexivity. exfalso; eapply Hm; reflexivity. }
    clear E. revert E'. generalize (w_emits (l_w s)). induction (l_log s) as [|x l IH]; intros [|y em]; cbn [map]; intros E; try discriminate; [reflexivity|].
    injection E as E1 E3 E2. f_equal; [|apply IH; exact E2].
    unfold source. unfold src_of in E1. destruct (m_cb (fst x)); [|discriminate]. injection E1 as ->. rewrite E3. reflexivity.
  Qed.

  Lemma log_of_kind k : (forall m, l_mode s <> Running m) -> of_kind source k (l_log s) = map (fun e => ms_of (fst e)) (emitted k (l_w s)).
  Proof.
    intros Hm. pose proof (log_source Hm) as E. unfold of_kind, emitted. revert E. generalize (w_emits (l_w s)).
    induction (l_log s) as [|x l IH]; intros [|y em]; cbn [map]; intros E; try discriminate; [reflexivity|]. injection E as E1 E2 E3.
    cbn [filter]. rewrite E1. destruct (Nat.eqb (fst y) k); cbn [map]; rewrite ?(IH em E3), ?E2; reflexivity.
  Qed.

  Context (w : msg scb -> Z) (lat due : Z) (tasks : list (Z * Z)).
  Hypothesis Htime : in_time h w lat due s0 ls.
  Hypothesis Hdue : forall m, In m (queued s0) -> due <= m_time m + lat.
  Hypothesis Hcost : forall m c T, m_cb m <> COther -> nth_error tasks (source m) = Some (c, T) -> w m <= c.
  Hypothesis Htasks : length tasks = length srcs0.
  Hypothesis Hspace : forall k c T, nth_error tasks k = Some (c, T) -> 0 <= c /\ 0 < T /\ spaced T (map (fun e => ms_of (fst e)) (emitted k (l_w s))).
  Hypothesis Hfits : fits tasks.

  Lemma late_psorted : psorted tz (l_w s).
  Proof.
    intros k. destruct (nth_error tasks k) as [[c T]|] eqn:E.
    - destruct (Hspace k c T E) as (_ & HT & Hs). revert Hs. clear - HT. induction (emitted k (l_w s)) as [|e l IH]; cbn [map]; intros H; constructor; inversion H as [|? ? Hs Hf]; subst.
      + apply IH; exact Hs.
      + rewrite Forall_forall in *. intros y Hy. unfold le_ev, le_key. left. specialize (Hf (ms_of (fst y)) (in_map (fun e => ms_of (fst e)) _ _ Hy)). cbn in Hf. lia.
    - assert (En : emitted k (l_w s) = []); [|rewrite En; constructor].
      unfold emitted. destruct (filter _ (w_emits (l_w s))) as [|[k' e'] rest] eqn:Ef; [reflexivity|]. exfalso.
      assert (Hin : In (k', e') (filter (fun e => Nat.eqb (fst e) k) (w_emits (l_w s)))) by (rewrite Ef; left; reflexivity).
      apply filter_In in Hin. destruct Hin as [Hin Heq]. cbn in Heq. apply Nat.eqb_eq in Heq. subst k'.
      pose proof (emits_idx fuel cfg tz srcs0 Hfuel s late_reach k e' Hin). apply nth_error_None in E. lia.
  Qed.

  Lemma log_sorted : (forall m, l_mode s <> Running m) -> StronglySorted (fun x y => m_time (fst x) <= m_time (fst y)) (l_log s).
  Proof.
    intros Hm. pose proof (log_source Hm) as E. pose proof (dispatch_sorted fuel cfg tz srcs0 Hfuel s late_reach late_psorted) as Hs.
    revert E Hs. generalize (w_emits (l_w s)). induction (l_log s) as [|x l IH]; intros [|y em]; cbn [map]; intros E Hs; try discriminate; [constructor|].
    injection E as E1 E2 E3. inversion Hs as [|? ? Hs' Hf]; subst. constructor; [eapply IH; eassumption|].
    rewrite Forall_forall in *. intros z Hz. apply (in_map (fun x => (source (fst x), m_time (fst x)))) in Hz. rewrite E3 in Hz. apply in_map_iff in Hz as (ke & Ek & Hk).
    injection Ek as _ <-. specialize (Hf (snd ke) (in_map snd _ _ Hk)). unfold le_ev, le_key in Hf. lia.
  Qed.

  Lemma sched_late : (forall m, l_mode s <> Running m) -> forall m t, In (m, t) (l_log s) -> t <= m_time m + lat + one_each tasks.
  Proof.
    intros Hm. destruct (LE_boot dates s0 Hboot) as (L0 & El0 & Em0).
    assert (F0 : FI s0). { apply FI_reach; [exact Hfuel|]. exists dates, s0, []. repeat split; try assumption. constructor. }
    eapply (waits_bound w source).
    - eapply (late_waits h w lat due s0 s ls); try eassumption; [apply F0|rewrite Em0; discriminate|].
      unfold held, in_hand. rewrite Em0. exact Hdue.
    - apply log_sorted, Hm.
    - intros x Hx. pose proof (log_source Hm) as E. apply (in_map (fun x => (source (fst x), m_time (fst x)))) in Hx as Hx'. rewrite E in Hx'.
      apply in_map_iff in Hx' as (ke & Ek & Hk). injection Ek as Ek _. destruct ke as [k e]. cbn in Ek. subst k.
      pose proof (emits_idx fuel cfg tz srcs0 Hfuel s late_reach _ e Hk) as Hlt. rewrite <- Htasks in Hlt. apply nth_error_Some in Hlt.
      destruct (nth_error tasks (source (fst x))) as [[c T]|] eqn:Et; [|congruence]. exists c, T. split; [reflexivity|]. eapply Hcost; [|exact Et].
      intros Ec. pose proof (e_log _ late_LE) as El. apply (in_map (fun x => tag (fst x))) in Hx. rewrite El in Hx.
      assert (Hr : match l_mode s with Running m => [tag m] | _ => [] end = []).
      { destruct (l_mode s) eqn:Em; try reflexivity. exfalso; eapply Hm; reflexivity. }
      rewrite Hr, app_nil_r in Hx. apply in_map_iff in Hx as (ke & Ek & _). unfold tag, etag, src_of in Ek. rewrite Ec in Ek. discriminate.
    - intros k c T Hk. rewrite log_of_kind by exact Hm. apply Hspace, Hk.
    - exact Hfits.
  Qed.
End Sched.

(** ** sources of daily tasks *)
Lemma spaced_app T (a b : list Z) : spaced T a -> spaced T b -> (forall x y, In x a -> In y b -> x + T <= y) -> spaced T (a ++ b).
Proof.
  intros Ha Hb Hab. induction Ha as [|x a Ha IH Hf]; [exact Hb|]. cbn [app]. constructor.
  - apply IH. intros x' y Hx Hy. apply Hab; [right; exact Hx|exact Hy].
  - apply Forall_app. split; [exact Hf|]. apply Forall_forall. intros y Hy. apply Hab; [left; reflexivity|exact Hy].
Qed.

Lemma sorted_spaced T (l : list Z) : StronglySorted Z.le l -> NoDup l -> (forall x y, In x l -> In y l -> x < y -> x + T <= y) -> spaced T l.
Proof.
  intros Hs. induction Hs as [|x l Hs IH Hf]; intros Hn H; constructor; apply NoDup_cons_iff in Hn as [Hn1 Hn2].
  - apply IH; [exact Hn2|]. intros a b Ha Hb. apply H; right; assumption.
  - rewrite Forall_forall in *. intros y Hy. apply H; [left; reflexivity|right; exact Hy|]. specialize (Hf y Hy).
    destruct (Z.eq_dec x y) as [->|]; [contradiction|lia].
Qed.

Lemma NoDup_shift d (offs : list Z) : NoDup offs -> NoDup (map (fun o => d * DAY + o) offs).
Proof. intros H. apply FinFun.Injective_map_NoDup; [|exact H]. intros a b E. lia. Qed.

Lemma owed_spaced T now offs lo hi S : apart T offs -> owed_on now offs lo hi S -> spaced (T * 1000) S.
Proof.
  intros (Hn & HD & Ha) (days & ls & [_ Hss] & HF & ->).
  assert (Hel : forall d l x, Permutation l (filter (fun t => now <=? t) (map (fun o => d * DAY + o) offs)) -> In x l -> exists o, In o offs /\ x = d * DAY + o).
  { intros d0 l0 x HP0 Hx. apply (Permutation_in _ HP0) in Hx. apply filter_In in Hx as [Hx _]. apply in_map_iff in Hx as (o & <- & Ho). eauto. }
  induction HF as [|d l days ls [HP HS] HF IH]; [constructor|]. cbn [concat]. inversion Hss as [|? ? Hss' Hlt]; subst.
  apply spaced_app; [|exact (IH Hss')|].
  - apply sorted_spaced; [exact HS| |].
    + eapply Permutation_NoDup; [apply Permutation_sym; exact HP|]. apply NoDup_filter, NoDup_shift, Hn.
    + intros x y Hx Hy Hlt'. destruct (Hel d l x HP Hx) as (o & Ho & ->). destruct (Hel d l y HP Hy) as (o' & Ho' & ->).
      destruct (Ha o o' Ho Ho'); lia.
  - intros x y Hx Hy. destruct (Hel d l x HP Hx) as (o & Ho & ->). apply in_concat in Hy as (l' & Hl' & Hy).
    clear IH HS HP Hx Hss Hss'. induction HF as [|d' l0 days ls [HP' _] HF IH]; [destruct Hl'|]. inversion Hlt; subst.
    destruct Hl' as [->|Hl']; [|apply IH; assumption]. destruct (Hel d' l' y HP' Hy) as (o' & Ho' & ->).
    destruct (Z.lt_trichotomy o o') as [Hoo|[->|Hoo]]; [|unfold DAY, US in *; lia|destruct (Ha o' o Ho' Ho Hoo); unfold DAY, US in *; lia].
    unfold DAY, US in *; lia.
Qed.

Lemma spaced_ms tz T (l : list Z) : tz mod US = 0 -> Forall (fun x => x mod US = 0) l -> spaced (T * 1000) l -> spaced T (map (dt_to_milliseconds tz) l).
Proof.
  intros Htz Hw. unfold spaced. induction 1 as [|x l Hs IH Hf]; cbn [map]; constructor; apply Forall_cons_iff in Hw as [Hx Hw].
  - apply IH, Hw.
  - rewrite Forall_forall in *. intros y Hy. apply in_map_iff in Hy as (z & <- & Hz). specialize (Hf z Hz). specialize (Hw z Hz).
    destruct (ms_whole tz x Htz Hx) as [E1 E2]. destruct (ms_whole tz z Htz Hw) as [E3 E4]. unfold milliseconds_to_dt in *. lia.
Qed.

(** clock readings *)
Lemma log_step {C W O} (h : handler C W O) (s : lstate C W) l s' : l_step h s l = Some s' ->
  l_log s' = l_log s \/ exists now ex m, l = LTurn now ex /\ l_log s' = l_log s ++ [(m, now)].
Proof.
  assert (Hstop : forall s0 : lstate C W, l_log (do_stop s0) = l_log s0) by (intros s0; unfold do_stop; destruct (l_stop s0); reflexivity).
  assert (Hleave : forall s0 : lstate C W, l_log (leave s0) = l_log s0) by (intros s0; unfold leave; destruct (l_stop s0); reflexivity).
  unfold l_step. destruct l as [ | | | |now ex| |o|a| ]; destruct (l_mode s) as [| |m|m|r] eqn:Hm; try discriminate; intros H.
  - destruct (l_async s); [|discriminate]. injection H as <-. left; reflexivity.
  - destruct (l_timer s); [|discriminate]. injection H as <-. left; reflexivity.
  - destruct (l_sig s); [|discriminate]. injection H as <-. left. rewrite Hstop. reflexivity.
  - injection H as <-. left; reflexivity.
  - injection H as <-. left; reflexivity.
  - injection H as <-. left; reflexivity.
  - injection H as <-. left; reflexivity.
  - injection H as <-. unfold check_turn. destruct (l_stop s); [left; apply Hleave|]. destruct (q_pop (l_q s)) as [[m|e] q'].
    + destruct (now <? m_time m); [destruct ex; [left; rewrite Hleave, Hstop; reflexivity|left; reflexivity]|].
      right. exists now, ex, m. split; reflexivity.
    + left. rewrite Hleave. reflexivity.
  - injection H as <-. left. unfold arm. rewrite Hleave. reflexivity.
  - injection H as <-. left. unfold finish. destruct (h (m_cb m) o (l_w s)) as [[w' acts] [x|]]; cbn [set_mode l_log]; [rewrite Hstop; cbn|]; rewrite LLate.log_acts; reflexivity.
  - injection H as <-. left. apply log_do_act.
  - injection H as <-. left. apply log_do_act.
  - injection H as <-. left. apply log_do_act.
  - injection H as <-. left. apply log_do_act.
  - destruct (l_uvstop s); [|discriminate]. injection H as <-. left; reflexivity.
Qed.

Lemma log_until h e ls : forall (s s' : lstate scb sworld), Forall (until e) ls -> l_exec h s ls = Some s' ->
  (forall m t, In (m, t) (l_log s) -> t < e) -> forall m t, In (m, t) (l_log s') -> t < e.
Proof.
  induction ls as [|l ls IH]; intros s s' Hu Hex H0; cbn [l_exec] in Hex; [injection Hex as <-; exact H0|].
  destruct (l_step h s l) as [s1|] eqn:Es; [|discriminate]. apply Forall_cons_iff in Hu as [Hu Hus]. apply (IH s1 s' Hus Hex).
  intros m t Hin. destruct (log_step h s l s1 Es) as [E|(now & ex & m' & -> & E)]; rewrite E in Hin; [eapply H0, Hin|].
  apply in_app_or in Hin as [Hin|[Hin|[]]]; [eapply H0, Hin|]. injection Hin as <- <-. exact Hu.
Qed.

Section Daily.
  Variables (fuel : nat) (cfg : escfg) (tz : Z) (srcs : list esrc) (dates : list Z) (s0 s : lstate scb sworld) (ls : list (label scb sout)) (e : Z).
  Hypothesis Hfuel : (0 < fuel)%nat.
  Hypothesis Hlen : length dates = length srcs.
  Hypothesis Hboot : boot fuel cfg tz srcs dates = Some s0.
  Hypothesis Hok : Forall ok_label ls.
  Hypothesis Hex : l_exec (sched_handler fuel cfg tz) s0 ls = Some s.
  Hypothesis Htz : tz mod US = 0.
  Hypothesis Huntil : Forall (until e) ls.

  (** the source [k] is daily tasks at [offs], first generated for the days from [d] on *)
  Lemma daily_spaced k st offs c d T :
    (k < length srcs)%nat -> (forall es, nth_error (w_srcs (l_w s0)) k = Some es ->
      good fuel cfg es (flat_map (day_evs st None (map (fun o => (o, c)) offs)) (day_range d (cf_count cfg)))) ->
    Forall tod_ok offs -> Forall (fun o => o mod US = 0) offs -> offs <> [] -> apart T offs -> dt_date st <= d -> 2 <= cf_count cfg ->
    e * 1000 + tz <= (d + cf_count cfg - 1) * DAY ->
    spaced T (map (fun ev => dt_to_milliseconds tz (fst ev)) (emitted k (l_w s))).
  Proof.
    intros Hk Hg Htod Hwh Hne Hap Hst Hcnt He.
    destruct (owed_exists st offs d (cf_count cfg)) as (S & HS). pose proof (owed_eq st offs c d (cf_count cfg) S HS) as ES.
    set (W := flat_map _ _) in *.
    destruct (one_comparable fuel cfg tz srcs dates s0 Hfuel Hlen Hboot ls s Hok Hex k W Hk Hg) as (t & Ht).
    assert (HwS : Forall (fun x => x mod US = 0) S).
    { apply Forall_forall. intros x Hx. rewrite ES in Hx. apply in_map_iff in Hx as (ev & <- & Hev). unfold W in Hev. apply in_flat_map in Hev as (d' & _ & Hev).
      unfold day_evs in Hev. apply (Permutation_in _ (sort_perm _ _)) in Hev. unfold day_instants in Hev. apply filter_In in Hev as [Hev _].
      apply in_map_iff in Hev as ([o c'] & <- & Hev). apply in_map_iff in Hev as (o' & Eo & Ho'). injection Eo as <- <-. cbn [fst snd].
      apply mod_lin; [apply mod_mulr; reflexivity|]. rewrite Forall_forall in Hwh. apply Hwh, Ho'. }
    assert (Hpre : exists t', W = emitted k (l_w s) ++ t').
    { destruct Ht as [Ht|Ht]; [exists t; exact Ht|]. exfalso. destruct offs as [|o offs']; [congruence|].
      set (x := (d + cf_count cfg - 1) * DAY + o).
      assert (Ho : 0 <= o < DAY) by (apply Forall_inv in Htod; exact Htod).
      assert (Hx : In (x, c) W).
      { unfold W. apply in_flat_map. exists (d + cf_count cfg - 1). split.
        - unfold day_range. apply in_map_iff. exists (Z.to_nat (cf_count cfg - 1)). split; [lia|]. apply in_seq. lia.
        - unfold day_evs. apply (Permutation_in _ (Permutation_sym (sort_perm _ _))). unfold day_instants. apply filter_In. split.
          + cbn [map]. left. reflexivity.
          + unfold within. cbn [fst]. rewrite andb_true_r. apply Z.leb_le. unfold dt_date in Hst. unfold x.
            pose proof (Z.div_mod st DAY ltac:(discriminate)). pose proof (Z.mod_pos_bound st DAY ltac:(reflexivity)). nia. }
      assert (Hin : In (k, (x, c)) (w_emits (l_w s))).
      { assert (Hxe : In (x, c) (emitted k (l_w s))) by (rewrite Ht; apply in_or_app; left; exact Hx).
        unfold emitted in Hxe. apply in_map_iff in Hxe as ([k' e'] & E' & Hxe). apply filter_In in Hxe as [Hxe Ek]. cbn [fst snd] in *. apply Nat.eqb_eq in Ek. subst k' e'. exact Hxe. }
      destruct (one_logged fuel cfg tz srcs dates s0 Hfuel Hlen Hboot ls s Hok Hex k (x, c) Hin) as (m & now & Hlog & Hmt & Hle).
      assert (Hnow : now < e). { eapply (log_until _ e ls s0 s Huntil Hex); [|exact Hlog]. rewrite (proj1 (proj2 (LE_boot fuel cfg tz srcs dates s0 Hboot))). intros ? ? []. }
      cbn [fst] in Hmt. destruct (ms_whole tz x Htz) as [E1 E2].
      { rewrite Forall_forall in HwS. apply HwS. rewrite ES. apply in_map_iff. exists (x, c). split; [reflexivity|exact Hx]. }
      unfold milliseconds_to_dt in E2. unfold x in *. lia. }
    destruct Hpre as (t' & EW). rewrite <- (map_map fst (dt_to_milliseconds tz)). apply spaced_ms; [exact Htz| |].
    - rewrite ES, EW, map_app in HwS. apply Forall_app in HwS. apply HwS.
    - pose proof (owed_spaced T st offs _ _ S Hap HS) as Hs. rewrite ES, EW, map_app in Hs. eapply spaced_app_l. exact Hs.
  Qed.
End Daily.

Lemma start_boot fuel cfg sc tz st now calls ns dates s4 s0 : start fuel cfg sc tz st None now calls ns dates = Some (s4, s0) ->
  boot fuel (loop_cfg cfg sc s4) tz (st_srcs s4) dates = Some s0.
Proof.
  unfold start. intros H. destruct (setup fuel cfg sc st None now true calls None (strat_new ns)) as [[[]|x|] s5] eqn:Es; try discriminate.
  destruct (boot fuel (loop_cfg cfg sc s5) tz (st_srcs s5) dates) as [s0'|] eqn:Eb; [|discriminate].
  assert (G : forall A B (a a' : A) (b b' : B), Some (a, b) = Some (a', b') -> a = a' /\ b = b') by (intros ? ? ? ? ? ? E; injection E; auto).
  apply G in H as [-> ->]. exact Eb.
Qed.

(** ** task processes *)
Section Process.
  Variables (fuel : nat) (cfg : escfg) (sc : scfg) (tz st : Z) (now : nat -> Z) (calls : list ucall) (ns : dict str obj) (dates : list Z).
  Variables (s4 : strat) (s0 s : lstate scb sworld) (ls : list (label scb sout)) (ps : list (Z * Z)).
  Hypothesis Hstart : start fuel cfg sc tz st None now calls ns dates = Some (s4, s0).
  Hypothesis Hlen : length dates = length (st_srcs s4).
  Notation h := (sched_handler fuel (loop_cfg cfg sc s4) tz).
  Hypothesis Hex : l_exec h s0 ls = Some s.
  Hypothesis Hhist : cf_hist cfg = false.
  Hypothesis Hmp : market_period sc s4 = raw_of ps.
  Hypothesis Hps : Forall (fun p => tod_ok (fst p) /\ tod_ok (snd p)) ps.
  Hypothesis Hwhole : Forall (fun p => fst p mod US = 0 /\ snd p mod US = 0) ps.
  Hypothesis Hne : ps <> [].
  Hypothesis Hf1 : (1441 <= fuel)%nat.
  Hypothesis Hf2 : (Z.to_nat (cf_count cfg) < fuel)%nat.
  Hypothesis Htz : tz mod US = 0.
  Hypothesis Hcnt : 2 <= cf_count cfg.
  Hypothesis Hpush : Forall no_push ls.
  Hypothesis Hdefer : Forall no_defer ls.
  Context (w : msg scb -> Z) (lat due e : Z) (tasks : list (Z * Z)).
  Hypothesis Htime : in_time h w lat due s0 ls.
  Hypothesis Hdue : forall m, In m (queued s0) -> due <= m_time m + lat.
  Hypothesis Huntil : Forall (until e) ls.
  Hypothesis Hcost : forall m c T, m_cb m <> COther -> nth_error tasks (source m) = Some (c, T) -> w m <= c.
  Hypothesis Hfits : fits tasks.
  Hypothesis Hlentasks : length tasks = length (st_srcs s4).
  Hypothesis Hentry : forall k n id t c T, nth_error (asked calls) k = Some (n, id, t) -> nth_error tasks (npre calls s4 + k) = Some (c, T) ->
    0 <= c /\ 0 < T /\ exists offs d, owes ps t offs /\ nth_error dates (npre calls s4 + k) = Some d /\
      apart T offs /\ Forall tod_ok offs /\ offs <> [] /\ dt_date (now k) <= d /\ e * 1000 + tz <= (d + cf_count cfg - 1) * DAY.

  Lemma late_runs ls' s' : Forall ok_label ls' -> l_exec h s0 ls' = Some s' -> runs fuel cfg sc tz st None now calls ns dates s4 s'.
  Proof. intros H1 H2. exists s0, ls'. auto. Qed.

  (** the sync source, if any *)
  Hypothesis Hsync : forall k c T, (k < npre calls s4)%nat -> nth_error tasks k = Some (c, T) -> 0 <= c /\ 0 < T /\
    forall ls' s', Forall ok_label ls' -> Forall (until e) ls' -> l_exec h s0 ls' = Some s' ->
      spaced T (map (fun ev => dt_to_milliseconds tz (fst ev)) (emitted k (l_w s'))).

  Lemma ok_labels ls' : Forall no_push ls' -> Forall ok_label ls'.
  Proof. intros H. eapply Forall_impl; [apply no_push_ok|exact H]. Qed.

  Lemma process_late_quiet ls' s' : Forall no_push ls' -> Forall no_defer ls' -> Forall (until e) ls' -> in_time h w lat due s0 ls' -> l_exec h s0 ls' = Some s' ->
    (forall m, l_mode s' <> Running m) -> forall m t, In (m, t) (l_log s') -> t <= m_time m + lat + one_each tasks.
  Proof.
    intros Hp Hd Hu Hti Hx Hm.
    pose proof (late_runs ls' s' (ok_labels _ Hp) Hx) as Hrun.
    destruct (run_parts fuel cfg sc tz st now calls ns dates s4 s' Hrun) as (s1 & ls1 & Hb & _ & _ & _ & _).
    assert (Hboot := start_boot _ _ _ _ _ _ _ _ _ _ _ Hstart).
    eapply (sched_late fuel (loop_cfg cfg sc s4) tz (st_srcs s4) ltac:(lia) dates s0 s' ls'); try eassumption.
    intros k c T Hk. destruct (Nat.lt_ge_cases k (npre calls s4)) as [Hlt|Hge].
    - destruct (Hsync k c T Hlt Hk) as (H1 & H2 & H3). split; [exact H1|]. split; [exact H2|]. exact (H3 ls' s' (ok_labels _ Hp) Hu Hx).
    - destruct (srcs_shape fuel cfg sc tz st now calls ns dates s4 s' Hrun Hhist Hf1 Hf2) as (pre & ts & E1 & E2 & E3 & _).
      assert (Hka : (k - npre calls s4 < length (asked calls))%nat).
      { assert (k < length tasks)%nat by (apply nth_error_Some; congruence). rewrite Hlentasks, E1, app_length in H. lia. }
      apply nth_error_Some in Hka. destruct (nth_error (asked calls) (k - npre calls s4)) as [[[n id] t]|] eqn:Ea; [|congruence].
      set (j := (k - npre calls s4)%nat) in *. assert (Ekj : k = (npre calls s4 + j)%nat) by lia. rewrite Ekj in Hk |- *.
      destruct (Hentry j n id t c T Ea Hk) as (G1 & G2 & offs & d & Ho & Hd' & Ha & Htod & Hno & Hst & He).
      split; [exact G1|]. split; [exact G2|].
      destruct (entry_good fuel cfg sc tz st now calls ns dates s4 s' ps Hrun Hhist Hmp Hps Hwhole Hne Hf1 Hf2 j n id t offs d s0 Hboot Hlen Ea Ho Hd') as [Hlt Hg].
      eapply (daily_spaced fuel (loop_cfg cfg sc s4) tz (st_srcs s4) dates s0 s' ls' e ltac:(lia) Hlen Hboot (ok_labels _ Hp) Hx Htz Hu); try eassumption.
      eapply owes_whole; eassumption.
  Qed.

  Lemma exec_snoc (C W O : Type) (hh : handler C W O) l a : forall x y z, l_exec hh x l = Some y -> l_step hh y a = Some z -> l_exec hh x (l ++ [a]) = Some z.
  Proof.
    induction l as [|b l IH]; intros x y z Hx Hy; cbn [l_exec app] in *.
    - injection Hx as ->. rewrite Hy. reflexivity.
    - destruct (l_step hh x b) as [x1|]; [|discriminate]. eapply IH; eassumption.
  Qed.
  Lemma in_time_snoc (C W O : Type) (hh : handler C W O) ww la o l : forall du x, in_time hh ww la du x l -> in_time hh ww la du x (l ++ [LDone o]).
  Proof.
    induction l as [|b l IH]; intros du x H; cbn [in_time app] in *.
    - split; [exact I|]. destruct (l_step hh x (LDone o)); exact I.
    - destruct H as [H1 H2]. split; [exact H1|]. destruct (l_step hh x b); [|exact I]. apply IH, H2.
  Qed.

  Lemma process_late : forall m t, In (m, t) (l_log s) -> t <= m_time m + lat + one_each tasks.
  Proof.
    intros m t Hin. assert (Hc : (exists m0, l_mode s = Running m0) \/ forall m0, l_mode s <> Running m0).
    { destruct (l_mode s); [right; discriminate|right; discriminate|right; discriminate|left; eauto|right; discriminate]. }
    destruct Hc as [[m0 Em]|Hm]; [|eapply process_late_quiet; eassumption].
    set (o := SOut 0 0 [] None).
    assert (Hst : l_step h s (LDone o) = Some (finish h m0 o s)) by (unfold l_step; rewrite Em; reflexivity).
    assert (El : l_log (finish h m0 o s) = l_log s) by (destruct (log_step h s _ _ Hst) as [E|(n & ex & m1 & E & _)]; [exact E|discriminate]).
    rewrite <- El in Hin. revert m t Hin. eapply (process_late_quiet (ls ++ [LDone o])).
    - apply Forall_app. split; [exact Hpush|repeat constructor].
    - apply Forall_app. split; [exact Hdefer|repeat constructor].
    - apply Forall_app. split; [exact Huntil|repeat constructor].
    - apply in_time_snoc, Htime.
    - eapply exec_snoc; eassumption.
    - unfold finish. destruct (h _ o _) as [[w' acts] x]. discriminate.
  Qed.
End Process.
