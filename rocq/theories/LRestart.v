(** Restarts: no event of a source lies before the source's start, and what a process has
    called when it goes to sleep. *)
From Coq Require Import Permutation Sorted.
From Verif Require Import PyBase PyStr LStr MTime MTimeExpr LTimeExpr SExpr MEventSource MQueue MLoop MSched MBus SBus LBus
  SQueue LQueue LLoop SEvent SSched LSort LEventSource LEventSource2 LSched LSched2 LSched3 MStrategy SStrategy LStrategy LStrategy2
  LLive LTie MProcess SProcess LProcess SRestart.
Open Scope Z_scope.

(** ** every event of a source is at or after the source's start *)
Section After.
  Variables (fuel : nat) (cfg : escfg).

  Definition since (es : esrc) (e : Z * ecls) : Prop := exists st, es_start es = Some st /\ st <= fst e.
  Definition evs_since (es : esrc) : Prop := Forall (since es) (es_events es).

  Lemma add_daily_since es day : forall daily evs evs',
    Forall (since es) evs -> add_daily_events cfg es day daily evs = Ok evs' -> Forall (since es) evs'.
  Proof.
    induction daily as [|[expr c] daily IH]; intros evs evs' Hf; cbn [add_daily_events].
    - intros H. apply Ok_inj in H. subst; exact Hf.
    - unfold add_event. destruct (expr_offset (cf_mp cfg) expr) as [off|] eqn:E; [|discriminate]. cbn [rbind].
      destruct (es_start es) as [st|] eqn:Es; [|discriminate].
      destruct (combine day off <? st) eqn:El; cbn [rbind]; [apply IH; assumption|].
      destruct (match es_end es with Some e => e <? combine day off | None => false end); cbn [rbind]; [apply IH; assumption|].
      apply IH. apply Forall_app. split; [exact Hf|]. constructor; [|constructor]. exists st. split; [exact Es|].
      cbn [fst]. apply Z.ltb_ge in El. exact El.
  Qed.

  Lemma gen_loop_since : forall fuel today es es2, evs_since es -> gen_loop fuel cfg today es = GOk es2 ->
    evs_since es2 /\ es_start es2 = es_start es.
  Proof.
    induction fuel0 as [|f IH]; intros today es es2 Hf; cbn [gen_loop]; [discriminate|].
    destruct (es_events es) as [|e evs] eqn:Ev.
    - destruct (match es_days es with [] => get_days cfg today es | _ => Ok (es_days es, es_his es) end) as [[days his]|]; [|discriminate].
      destruct days as [|day days'].
      + intros H; injection H as <-. split; [constructor|reflexivity].
      + destruct (add_daily_events cfg es day (es_daily es) []) as [evs|] eqn:Ea; [|discriminate].
        intros H. pose proof (add_daily_since es day (es_daily es) [] evs (Forall_nil _) Ea) as Hn.
        apply IH in H; [exact H|]. exact Hn.
    - intros H; injection H as <-. auto.
  Qed.

  Lemma gen_since today es es1 : evs_since es -> gen_events fuel cfg today es = GOk es1 -> evs_since es1 /\ es_start es1 = es_start es.
  Proof.
    intros Hf. unfold gen_events. destruct (reset_if_needed cfg today es) as [es0|] eqn:Er; [|discriminate].
    assert (H0 : evs_since es0 /\ es_start es0 = es_start es).
    { revert Er. unfold reset_if_needed. destruct (es_need es); [|intros H; apply Ok_inj in H; subst; auto].
      destruct (get_days cfg today _) as [[days his]|]; [|discriminate]. cbn [rbind]. intros H; apply Ok_inj in H; subst. split; [constructor|reflexivity]. }
    destruct H0 as [H1 H2]. destruct (es_events es0) as [|e evs] eqn:Ev.
    - destruct (gen_loop fuel cfg today es0) as [es2| |] eqn:Eg; try discriminate.
      destruct (gen_loop_since _ _ _ _ H1 Eg) as [G1 G2].
      intros H; injection H as <-. split; [|cbn; congruence].
      unfold evs_since in *. cbn. apply Forall_forall. intros x Hx. rewrite Forall_forall in G1. apply (G1 x).
      apply (Permutation_in _ (sort_perm _ _)) in Hx. exact Hx.
    - intros H; injection H as <-. auto.
  Qed.

  Lemma get_since today es r es1 : evs_since es -> get_next_event fuel cfg today es = GOk (r, es1) ->
    evs_since es1 /\ es_start es1 = es_start es /\ forall e, r = Some e -> since es e.
  Proof.
    intros Hf. unfold get_next_event. destruct (gen_events fuel cfg today es) as [es2| |] eqn:E; try discriminate.
    destruct (gen_since _ _ _ Hf E) as [H1 H2]. unfold evs_since in H1.
    destruct (es_events es2) as [|e evs] eqn:Ev; intros H; injection H as <- <-.
    - split; [unfold evs_since; rewrite Ev; constructor|]. split; [exact H2|discriminate].
    - inversion H1 as [|? ? Ha Hb]; subst. split; [exact Hb|]. split; [exact H2|]. intros e0 H0; injection H0 as <-.
      unfold since in *. rewrite <- H2. exact Ha.
  Qed.

  Lemma get_events_since dates : forall es rs es1, evs_since es -> get_events fuel cfg dates es = GOk (rs, es1) ->
    forall e, In (Some e) rs -> since es e.
  Proof.
    induction dates as [|d dates IH]; intros es rs es1 Hf; cbn [get_events]; [intros H; injection H as <- _; intros e []|].
    destruct (get_next_event fuel cfg d es) as [[r es2]| |] eqn:E; try discriminate.
    destruct (get_events fuel cfg dates es2) as [[rs' es3]| |] eqn:E2; try discriminate.
    intros H; injection H as <- _. destruct (get_since _ _ _ _ Hf E) as (H1 & H2 & H3).
    intros e [He|He]; [apply H3; exact He|].
    pose proof (IH _ _ _ H1 E2 e He) as (st & G1 & G2). exists st. rewrite <- H2. auto.
  Qed.

  Lemma rel_since es0 em es : evs_since es0 -> rel fuel cfg es0 em es -> forall e, In e em -> since es0 e.
  Proof.
    intros Hf (dates & esa & H & _) e He. eapply get_events_since; [exact Hf|exact H|]. apply in_map; exact He.
  Qed.
End After.

Section One.
  Variables (fuel : nat) (cfg : escfg) (tz : Z) (srcs : list esrc) (dates : list Z) (s0 : lstate scb sworld).
  Context (Hfuel : (0 < fuel)%nat) (Hlen : length dates = length srcs) (Hboot : boot fuel cfg tz srcs dates = Some s0).
  Variables (ls : list (label scb sout)) (s : lstate scb sworld).
  Context (Hok : Forall ok_label ls) (Hex : l_exec (sched_handler fuel cfg tz) s0 ls = Some s).

  Lemma one_since : (forall es, In es srcs -> evs_since es) -> forall k e, In (k, e) (w_emits (l_w s)) ->
    exists es, nth_error srcs k = Some es /\ since es e.
  Proof.
    intros Hfrom k e Hin.
    assert (Hr : sreach fuel cfg tz srcs s) by (exists dates, s0, ls; auto).
    pose proof (emits_idx fuel cfg tz srcs Hfuel s Hr k e Hin) as Hk.
    pose proof (FI_reach fuel cfg tz srcs Hfuel s Hr) as F.
    destruct (nth_error srcs k) as [es|] eqn:Ek; [|apply nth_error_None in Ek; lia]. exists es. split; [reflexivity|].
    pose proof (f_SI _ _ _ _ _ F) as HSI.
    destruct (nth_error (w_srcs (l_w s)) k) as [es'|] eqn:Ek'; [|apply nth_error_None in Ek'; rewrite (s_len _ _ _ _ _ _ _ HSI) in Ek'; lia].
    eapply rel_since; [apply Hfrom; eapply nth_error_In; exact Ek|exact (s_rel _ _ _ _ _ _ _ HSI k es es' Ek Ek')|].
    apply emits_in_emitted; exact Hin.
  Qed.
End One.

Lemma F2_in_l {A B} (R : A -> B -> Prop) la lb : Forall2 R la lb -> forall a, In a la -> exists b, In b lb /\ R a b.
Proof.
  induction 1 as [|a b la lb H HF IH]; intros x []; [subst; exists b; split; [left; reflexivity|exact H]|].
  destruct (IH x H0) as (y & Hy & E). exists y. split; [right; exact Hy|exact E].
Qed.
Lemma F2_in_r {A B} (R : A -> B -> Prop) la lb : Forall2 R la lb -> forall b, In b lb -> exists a, In a la /\ R a b.
Proof.
  induction 1 as [|a b la lb H HF IH]; intros x []; [subst; exists a; split; [left; reflexivity|exact H]|].
  destruct (IH x H0) as (y & Hy & E). exists y. split; [right; exact Hy|exact E].
Qed.

(** the instants owed over some days *)
Lemma owed_in now offs lo hi S : owed_on now offs lo hi S ->
  forall x, In x S <-> now <= x /\ exists d o, lo <= d <= hi /\ In o offs /\ x = d * DAY + o.
Proof.
  intros (days & ls & [Hd _] & HF & ->) x. rewrite in_concat. split.
  - intros (l & Hl & Hx). destruct (F2_in_r _ _ _ HF l Hl) as (d & Hin & HP & _).
    apply (Permutation_in _ HP) in Hx. apply filter_In in Hx as [Hx Hn]. apply in_map_iff in Hx as (o & <- & Ho).
    split; [lia|]. exists d, o. split; [apply Hd; exact Hin|auto].
  - intros (Hn & d & o & Hr & Ho & ->). apply Hd in Hr.
    destruct (F2_in_l _ _ _ HF d Hr) as (l & Hl & HP & _). exists l. split; [exact Hl|].
    apply (Permutation_in _ (Permutation_sym HP)). apply filter_In. split; [|lia]. apply in_map_iff. eauto.
Qed.

Lemma sorted_lt (l : list Z) : StronglySorted Z.le l -> NoDup l -> StronglySorted Z.lt l.
Proof.
  induction 1 as [|a l Hs IH Hle]; intros Hn; [constructor|]. inversion Hn as [|? ? Hni Hn']; subst. constructor; [exact (IH Hn')|].
  rewrite Forall_forall in *. intros x Hx. specialize (Hle x Hx). destruct (Z.eq_dec a x) as [->|]; [contradiction|lia].
Qed.

(** with distinct times of day the owed instants are distinct *)
Lemma owed_nodup now offs lo hi S : (forall a b, In a offs -> In b offs -> a - b < DAY) -> NoDup offs -> owed_on now offs lo hi S -> NoDup S.
Proof.
  intros Hspan Hn (days & ls & [_ Hss] & HF & ->).
  assert (Hel : forall d l x, Permutation l (filter (fun t => now <=? t) (map (fun o => d * DAY + o) offs)) -> In x l -> exists o, In o offs /\ x = d * DAY + o).
  { intros d0 l0 x HP0 Hx. apply (Permutation_in _ HP0) in Hx. apply filter_In in Hx as [Hx _]. apply in_map_iff in Hx as (o & <- & Ho). eauto. }
  induction HF as [|d l days ls [HP HS] HF IH]; [constructor|]. cbn [concat]. inversion Hss as [|? ? Hss' Hlt]; subst.
  assert (Hl : NoDup l).
  { apply (Permutation_NoDup (Permutation_sym HP)). apply NoDup_filter. apply FinFun.Injective_map_NoDup; [intros a b H; lia|exact Hn]. }
  specialize (IH Hss').
  assert (Hdis : forall x, In x l -> In x (concat ls) -> False).
  { intros x Hx Hy. destruct (Hel d l x HP Hx) as (o & Ho & Ex). apply in_concat in Hy as (l' & Hl' & Hy).
    destruct (F2_in_r _ _ _ HF l' Hl') as (d' & Hd' & HP' & _). destruct (Hel d' l' x HP' Hy) as (o' & Ho' & Ex').
    rewrite Forall_forall in Hlt. specialize (Hlt d' Hd'). specialize (Hspan o o' Ho Ho'). unfold DAY, US in *. lia. }
  clear - Hl IH Hdis. induction l as [|a l IHl]; [exact IH|]. inversion Hl; subst. cbn [app]. constructor.
  - intros Hin. apply in_app_or in Hin as [Hin|Hin]; [contradiction|]. exact (Hdis a (or_introl eq_refl) Hin).
  - apply IHl; [assumption|]. intros x Hx. apply Hdis. right; exact Hx.
Qed.

(** a beginning that holds all due elements and nothing else *)
Lemma agree_filter (p : Z -> bool) (l S r : list Z) : agree l S -> l = filter p S ++ r -> Forall (fun x => p x = true) l -> (exists y, In y S /\ p y = false) ->
  l = filter p S.
Proof.
  intros (t & [E|E]) El HF (y & Hy & Ey).
  - assert (G : length (filter p S) = (length l + length (filter p t))%nat).
    { rewrite E, filter_app, app_length. f_equal. f_equal. clear - HF. induction HF as [|x l Hx HF IH]; [reflexivity|]. cbn. rewrite Hx, IH. reflexivity. }
    assert (G2 : length l = (length (filter p S) + length r)%nat) by (rewrite El at 1; apply app_length).
    destruct r; [rewrite app_nil_r in El; exact El|cbn in G2; lia].
  - exfalso. rewrite Forall_forall in HF. specialize (HF y ltac:(rewrite E; apply in_or_app; left; exact Hy)). congruence.
Qed.

Section Runs.
  Context (fuel : nat) (cfg : escfg) (sc : scfg) (tz st : Z) (now : nat -> Z) (calls : list ucall) (ns : dict str obj) (dates : list Z).
  Context (s4 : strat) (s : lstate scb sworld) (ps : list (Z * Z)).
  Context (Hrun : runs fuel cfg sc tz st None now calls ns dates s4 s).
  Context (Hhist : cf_hist cfg = false).
  Context (Hmp : market_period sc s4 = raw_of ps).
  Context (Hps : Forall (fun p => tod_ok (fst p) /\ tod_ok (snd p)) ps).
  Context (Hwhole : Forall (fun p => fst p mod US = 0 /\ snd p mod US = 0) ps).
  Context (Hne : ps <> []).
  Context (Hf1 : (1441 <= fuel)%nat).
  Context (Hf2 : (Z.to_nat (cf_count cfg) < fuel)%nat).
  Context (Htz : tz mod US = 0).

  Lemma process_since k n id t x o : nth_error (asked calls) k = Some (n, id, t) ->
    In (x, o) (calls_of k (invoked s4 (l_w s))) -> now k <= x.
  Proof.
    intros Hk Hx. rewrite (calls_emitted fuel cfg sc tz st now calls ns dates s4 s Hrun Hhist Hf1 Hf2 k n id t Hk) in Hx. apply in_map_iff in Hx as (e & Ee & He). injection Ee as Ee _.
    assert (Hin : In ((npre calls s4 + k)%nat, e) (w_emits (l_w s))).
    { unfold emitted in He. apply in_map_iff in He as ([k' e'] & <- & He). apply filter_In in He as [He Ek]. cbn [fst snd] in *. apply Nat.eqb_eq in Ek. subst k'. exact He. }
    destruct (run_parts fuel cfg sc tz st now calls ns dates s4 s Hrun) as (s0 & ls & Hb & Hl & Hok & Hex & Hs).
    destruct (one_since fuel (loop_cfg cfg sc s4) tz (st_srcs s4) dates s0 ltac:(lia) Hl Hb ls s Hok Hex) with (k := (npre calls s4 + k)%nat) (e := e) as (es & Hes & st' & Est & Hle); [|exact Hin|].
    { intros es Hes. unfold evs_since. rewrite (no_events fuel cfg sc tz st now calls ns dates s4 s Hrun Hhist Hf1 Hf2 es Hes). constructor. }
    destruct (srcs_shape fuel cfg sc tz st now calls ns dates s4 s Hrun Hhist Hf1 Hf2) as (pre & ts & H1 & H0 & H2 & H3 & H4). rewrite H1, nth_error_app2 in Hes by lia.
    replace (npre calls s4 + k - length pre)%nat with k in Hes by lia.
    destruct (H4 k _ es Hk Hes) as (l & El & S1 & _). rewrite S1 in Est. injection Est as <-. lia.
  Qed.

  (** a process gone to sleep has called exactly the owed instants since its start *)
  Lemma process_life clock ex s' m k n id t offs d S :
    w_hung (l_w s) = false -> l_step (sched_handler fuel (loop_cfg cfg sc s4) tz) s (LTurn clock ex) = Some s' -> l_mode s' = Arming m ->
    Forall (fun mc => snd mc <= clock) (l_log s) ->
    nth_error (asked calls) k = Some (n, id, t) -> owes ps t offs -> dget n (st_ns s4) = Some (OUser id) ->
    nth_error dates (npre calls s4 + k) = Some d -> owed_on (now k) offs d (d + cf_count cfg - 1) S ->
    (exists y, In y S /\ clock * 1000 + tz < y) ->
    map fst (calls_of k (invoked s4 (l_w s))) = filter (fun y => y <=? clock * 1000 + tz) S.
  Proof.
    intros Hh Hst Hm Hlog Hk Ho Hn Hd HS (y & Hy & Ey).
    destruct (process_sleep fuel cfg sc tz st now calls ns dates s4 s ps Hrun Hhist Hmp Hps Hwhole Hne Hf1 Hf2 Htz clock ex s' m k n id t offs d S Hh Hst Hm Hk Ho Hd HS) as (r & Er).
    destruct (process_calls fuel cfg sc tz st now calls ns dates s4 s ps Hrun Hhist Hmp Hps Hwhole Hne Hf1 Hf2 k n id t offs d S Hk Ho Hd HS Hn) as [Ha _].
    assert (Ef : filter (fun y => y - tz <=? clock * 1000) S = filter (fun y => y <=? clock * 1000 + tz) S) by (apply filter_ext; intros; lia).
    rewrite Ef in Er. eapply agree_filter; [exact Ha|exact Er| |exists y; split; [exact Hy|lia]].
    apply Forall_forall. intros x Hx. apply in_map_iff in Hx as ([x' o] & <- & Hx). cbn [fst].
    destruct (process_not_early fuel cfg sc tz st now calls ns dates s4 s ps Hrun Hhist Hmp Hps Hwhole Hne Hf1 Hf2 Htz k n id t offs x' o Hk Ho Hx) as (m' & c & Hc & Hle).
    rewrite Forall_forall in Hlog. specialize (Hlog _ Hc). cbn [snd] in Hlog. lia.
  Qed.
End Runs.
