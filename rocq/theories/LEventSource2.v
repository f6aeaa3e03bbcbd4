(** Proofs about EventSource, continued: termination (C11), peek (C12), witnesses
    for C09 and C10, millisecond conversion (C52). *)
From Coq Require Import Permutation Sorted.
From Verif Require Import PyBase PyStr MTime MTimeExpr MEventSource SEvent LSort LEventSource LTimeExpr.
Open Scope Z_scope.

(** C11 *)

(** walking over empty days *)
Lemma gen_loop_skip cfg today st tasks : forall days f es,
  es_start es = Some st -> tasks_of (cf_mp cfg) (es_daily es) tasks ->
  es_events es = [] -> es_days es = days ->
  flat_map (day_evs st (es_end es) tasks) days = [] ->
  gen_loop (length days + f) cfg today es =
  gen_loop f cfg today (es_set_gen [] [] (es_need es) (es_his es) es).
Proof.
  induction days as [|d days IH]; intros f es Hst Ht Hev Hd Hne.
  - cbn [length plus]. f_equal. destruct es; cbn in *; subst; reflexivity.
  - cbn [length plus gen_loop]. rewrite Hev, Hd.
    rewrite (add_daily_ok cfg es d st (es_daily es) tasks Hst Ht). cbn [app].
    cbn [flat_map] in Hne. apply app_eq_nil in Hne. destruct Hne as [H1 H2].
    unfold day_evs in H1. apply sort_nil in H1. rewrite H1.
    rewrite IH; try assumption; reflexivity.
Qed.

(** a live source whose next window contains an instant finds it *)
Lemma gen_loop_refill cfg es st tasks fuel t :
  cf_hist cfg = false -> es_start es = Some st -> tasks_of (cf_mp cfg) (es_daily es) tasks ->
  es_end es = None -> es_events es = [] -> es_days es = [] ->
  flat_map (day_evs st None tasks) (day_range t (cf_count cfg)) <> [] ->
  (Z.to_nat (cf_count cfg) < fuel)%nat ->
  exists es', gen_loop fuel cfg t es = GOk es'.
Proof.
  intros Hh Hst Ht Hen Hev Hd Hne Hf.
  destruct (day_range t (cf_count cfg)) as [|d ds] eqn:Er; [cbn in Hne; congruence|].
  assert (El : length (d :: ds) = Z.to_nat (cf_count cfg)) by (rewrite <- Er; apply day_range_length).
  set (es1 := es_set_gen [] (d :: ds) (es_need es) true es).
  assert (E : gen_loop fuel cfg t es = gen_loop fuel cfg t es1).
  { destruct fuel as [|f]; [reflexivity|]. cbn [gen_loop]. rewrite Hev, Hd.
    unfold get_days. rewrite Hh, Hen. cbn [orb]. rewrite Er.
    cbn [es1 es_set_gen es_events es_days es_daily es_his es_need].
    rewrite (add_daily_ok cfg es d st (es_daily es) tasks Hst Ht).
    rewrite (add_daily_ok cfg es1 d st (es_daily es1) tasks Hst Ht). reflexivity. }
  rewrite E.
  destruct (gen_loop_days cfg t st tasks (d :: ds) fuel es1) as (es2 & G & _);
    [exact Hst|exact Ht|reflexivity|reflexivity|cbn [es1 es_end es_set_gen]; rewrite Hen; exact Hne|lia|].
  exists es2; exact G.
Qed.

(** an unparsable entry raises on the first day *)
Lemma gen_loop_bad cfg today st fuel es :
  es_start es = Some st -> es_events es = [] ->
  (exists de, In de (es_daily es) /\ exists x, expr_offset (cf_mp cfg) (fst de) = Err x) ->
  (0 < fuel)%nat -> gen_loop fuel cfg today es <> GFuel.
Proof.
  intros Hst Hev Hbad Hf. destruct fuel as [|f]; [lia|]. cbn [gen_loop]. rewrite Hev.
  assert (H : forall es0 d, es_start es0 = Some st -> es_daily es0 = es_daily es ->
     exists x, add_daily_events cfg es0 d (es_daily es0) [] = Err x).
  { intros es0 d H1 H2. apply (add_daily_err cfg es0 d st (es_daily es0) H1). rewrite H2. exact Hbad. }
  destruct (es_days es) as [|d ds].
  - destruct (get_days cfg today es) as [[[|d ds] his]|]; try discriminate.
    destruct (H es d Hst eq_refl) as [x ->]. discriminate.
  - destruct (H es d Hst eq_refl) as [x ->]. discriminate.
Qed.

(** every task has an instant after [st] within eight days of [today] *)
Lemma window_nonempty mp st today cnt daily tasks :
  times_ok mp -> tasks_of mp daily tasks -> daily <> [] ->
  st < (today + 1) * DAY -> 8 <= cnt ->
  flat_map (day_evs st None tasks) (day_range today cnt) <> [].
Proof.
  intros Hmp Ht Hd Hst Hc.
  destruct Ht as [|[expr c] [off c'] daily tasks [H1 H2] Ht]; [congruence|]. clear Hd. cbn [fst snd] in *.
  apply expr_offset_bound in H1; [|exact Hmp].
  assert (Hin : In (today + 7) (day_range today cnt)).
  { unfold day_range. apply in_map_iff. exists 7%nat. split; [reflexivity|]. apply in_seq. lia. }
  intros E.
  assert (Hn : day_evs st None ((off, c') :: tasks) (today + 7) = []).
  { assert (H : forall e, ~ In e (flat_map (day_evs st None ((off, c') :: tasks)) (day_range today cnt))).
    { intros e He. rewrite E in He. exact He. }
    destruct (day_evs st None ((off, c') :: tasks) (today + 7)) as [|e es] eqn:Ed; [reflexivity|].
    exfalso. apply (H e). apply in_flat_map. exists (today + 7). split; [exact Hin|]. rewrite Ed. left; reflexivity. }
  unfold day_evs in Hn. apply sort_nil in Hn. unfold day_instants in Hn. cbn [map filter fst snd] in Hn.
  destruct (within st None ((today + 7) * DAY + off)) eqn:Ew; [discriminate|].
  unfold within in Ew. rewrite andb_true_r in Ew. apply Z.leb_gt in Ew.
  unfold OFFMAX, US, DAY in *. lia.
Qed.

Lemma gen_loop_live_term cfg today st es fuel :
  times_ok (cf_mp cfg) -> cf_hist cfg = false -> es_end es = None -> 8 <= cf_count cfg ->
  es_daily es <> [] -> es_start es = Some st -> st < (today + 1) * DAY -> es_events es = [] ->
  (length (es_days es) + Z.to_nat (cf_count cfg) < fuel)%nat ->
  gen_loop fuel cfg today es <> GFuel.
Proof.
  intros Hmp Hh Hen Hc Hd Hst Hlt Hev Hf.
  destruct (tasks_or_err (cf_mp cfg) (es_daily es)) as [[tasks Ht]|Hbad].
  2:{ apply (gen_loop_bad cfg today st fuel es Hst Hev Hbad). lia. }
  destruct (flat_map (day_evs st (es_end es) tasks) (es_days es)) as [|e evs] eqn:Ef.
  - replace fuel with (length (es_days es) + (fuel - length (es_days es)))%nat by lia.
    rewrite (gen_loop_skip cfg today st tasks (es_days es)); try assumption; try reflexivity.
    destruct (gen_loop_refill cfg (es_set_gen [] [] (es_need es) (es_his es) es) st tasks
                (fuel - length (es_days es)) today) as [es' ->]; try assumption; try reflexivity.
    + eapply window_nonempty; eauto.
    + lia.
    + discriminate.
  - destruct (gen_loop_days cfg today st tasks (es_days es) fuel es) as (es2 & -> & _); try assumption; try reflexivity.
    + rewrite Ef; discriminate.
    + lia.
    + discriminate.
Qed.

Lemma live_terminates cfg today st es fuel :
  times_ok (cf_mp cfg) -> cf_hist cfg = false -> es_end es = None -> 8 <= cf_count cfg ->
  es_daily es <> [] -> es_start es = Some st -> st < (today + 1) * DAY ->
  (length (es_days es) + 2 * Z.to_nat (cf_count cfg) < fuel)%nat ->
  gen_events fuel cfg today es <> GFuel.
Proof.
  intros Hmp Hh Hen Hc Hd Hst Hlt Hf. unfold gen_events.
  destruct (reset_if_needed cfg today es) as [es1|] eqn:Er; [|discriminate].
  destruct (es_events es1) as [|e evs] eqn:Ev; [|discriminate].
  assert (H : gen_loop fuel cfg today es1 <> GFuel).
  { unfold reset_if_needed in Er. destruct (es_need es) eqn:En.
    - pose proof (reset_fresh cfg today st es Hst En) as Hr. unfold reset_if_needed in Hr. rewrite En in Hr.
      rewrite Hr in Er. apply Ok_inj in Er. subst es1.
      apply (gen_loop_live_term cfg today st); try assumption.
      cbn [es_set_gen es_days]. rewrite Hen. cbn [days_of]. rewrite Hh, day_range_length. lia.
    - apply Ok_inj in Er; subst es1. apply (gen_loop_live_term cfg today st); try assumption. lia. }
  destruct (gen_loop fuel cfg today es1); congruence.
Qed.

Lemma gen_loop_bounded_term cfg today st : forall days es fuel,
  bounded cfg es = true -> es_his es = true -> es_start es = Some st -> es_events es = [] ->
  es_days es = days -> (length days < fuel)%nat ->
  gen_loop fuel cfg today es <> GFuel.
Proof.
  intros days es fuel Hb Hh Hst Hev Hd Hf.
  destruct (tasks_or_err (cf_mp cfg) (es_daily es)) as [[tasks Ht]|Hbad].
  2:{ apply (gen_loop_bad cfg today st fuel es Hst Hev Hbad). lia. }
  destruct (flat_map (day_evs st (es_end es) tasks) days) as [|e evs] eqn:Ef.
  - rewrite (gen_loop_none cfg today st tasks days); try assumption. discriminate.
  - destruct (gen_loop_days cfg today st tasks days fuel es) as (es2 & -> & _); try assumption.
    + rewrite Ef; discriminate.
    + discriminate.
Qed.

Lemma bounded_terminates cfg today st es fuel :
  bounded cfg es = true -> es_need es = true \/ es_his es = true -> es_start es = Some st ->
  (length (es_days es) < fuel)%nat -> (length (days_of cfg today st (es_end es)) < fuel)%nat ->
  gen_events fuel cfg today es <> GFuel.
Proof.
  intros Hb Hnh Hst Hf Hf2. unfold gen_events.
  destruct (es_need es) eqn:En.
  - rewrite (reset_fresh cfg today st es Hst En).
    set (es1 := es_set_gen _ _ _ _ es).
    assert (H : gen_loop fuel cfg today es1 <> GFuel).
    { apply (gen_loop_bounded_term cfg today st (days_of cfg today st (es_end es))); try assumption; reflexivity. }
    cbn [es1 es_events es_set_gen]. destruct (gen_loop fuel cfg today es1); congruence.
  - unfold reset_if_needed. rewrite En. destruct (es_events es) eqn:Ev; [|discriminate].
    destruct Hnh as [|Hh]; [discriminate|].
    assert (H : gen_loop fuel cfg today es <> GFuel).
    { apply (gen_loop_bounded_term cfg today st (es_days es)); try assumption; reflexivity. }
    destruct (gen_loop fuel cfg today es); congruence.
Qed.

(** C12 *)

(** what a finished generation looks like *)
Definition settled (cfg : escfg) (es : esrc) : Prop :=
  es_need es = false /\
  (es_events es = [] -> es_days es = [] /\ forall t2, get_days cfg t2 es = Ok ([], es_his es)).

Lemma gen_loop_settled cfg today : forall fuel es es2,
  es_need es = false -> gen_loop fuel cfg today es = GOk es2 -> settled cfg es2.
Proof.
  induction fuel as [|f IH]; intros es es2 Hn; cbn [gen_loop]; [discriminate|].
  destruct (es_events es) as [|e evs] eqn:Ev.
  - destruct (es_days es) as [|d ds] eqn:Ed.
    + destruct (get_days cfg today es) as [[[|d ds] his]|x] eqn:Eg; [| |discriminate].
      * intros H; injection H as <-. split; [exact Hn|]. intros _. split; [reflexivity|].
        intros t2. cbn [es_set_gen es_his].
        unfold get_days in *. cbn [es_set_gen es_end es_his es_start].
        destruct (cf_hist cfg || _).
        -- destruct (es_his es); [injection Eg as <-; reflexivity|].
           destruct (es_start es); [|discriminate]. injection Eg as _ <-. reflexivity.
        -- injection Eg as E1 <-.
           assert (E : day_range t2 (cf_count cfg) = []).
           { apply (f_equal (@length Z)) in E1. rewrite day_range_length in E1. cbn in E1.
             apply length_zero_iff_nil. rewrite day_range_length. exact E1. }
           rewrite E. reflexivity.
      * destruct (add_daily_events cfg es d (es_daily es) []) as [evs|]; [|discriminate].
        apply IH. exact Hn.
    + destruct (add_daily_events cfg es d (es_daily es) []) as [evs|]; [|discriminate].
      apply IH. exact Hn.
  - intros H; injection H as <-. split; [exact Hn|]. intros H; congruence.
Qed.

Lemma gen_settled cfg today fuel es es1 : gen_events fuel cfg today es = GOk es1 -> settled cfg es1.
Proof.
  unfold gen_events. destruct (reset_if_needed cfg today es) as [es0|] eqn:Er; [|discriminate].
  apply reset_idem in Er. destruct (es_events es0) as [|e evs] eqn:Ev.
  - destruct (gen_loop fuel cfg today es0) as [es2| |] eqn:Eg; try discriminate.
    apply gen_loop_settled in Eg; [|exact Er]. destruct Eg as [G1 G2].
    intros H; injection H as <-. split; [exact G1|]. cbn [es_set_gen es_events es_days es_his].
    intros H. apply sort_nil in H. destruct (G2 H) as [G3 G4]. split; [exact G3|].
    intros t2. rewrite <- (G4 t2). reflexivity.
  - intros H; injection H as <-. split; [exact Er|]. intros H; congruence.
Qed.

Lemma settled_gen cfg today fuel es : settled cfg es -> (0 < fuel)%nat -> gen_events fuel cfg today es = GOk es.
Proof.
  intros [Hn H] Hf. unfold gen_events, reset_if_needed. rewrite Hn.
  destruct (es_events es) as [|e evs] eqn:Ev; [|reflexivity].
  destruct (H eq_refl) as [H1 H2]. destruct fuel as [|f]; [lia|].
  cbn [gen_loop]. rewrite Ev, H1, (H2 today). cbn [es_set_gen es_events sort_by].
  f_equal. destruct es; cbn in *; subst; reflexivity.
Qed.

Definition es_drop_first (es : esrc) : esrc :=
  es_set_gen (tl (es_events es)) (es_days es) (es_need es) (es_his es) es.

(** after a peek: further peeks and the next get, whatever the date, agree with it *)
Lemma peek_preview cfg t1 f1 es r es1 :
  peek_next_event f1 cfg t1 es = GOk (r, es1) ->
  r = hd_error (es_events es1) /\
  get_next_event f1 cfg t1 es = GOk (r, es_drop_first es1) /\
  (forall f2 t2, (0 < f2)%nat ->
     peek_next_event f2 cfg t2 es1 = GOk (r, es1) /\
     get_next_event f2 cfg t2 es1 = GOk (r, es_drop_first es1)).
Proof.
  unfold peek_next_event, get_next_event. destruct (gen_events f1 cfg t1 es) as [es0| |] eqn:E; try discriminate.
  intros H; injection H as <- <-. pose proof (gen_settled _ _ _ _ _ E) as Hs.
  assert (Hg : (match es_events es0 with
     | [] => GOk (None, es0)
     | e :: evs => GOk (Some e, es_set_gen evs (es_days es0) (es_need es0) (es_his es0) es0)
     end) = GOk (hd_error (es_events es0), es_drop_first es0)).
  { unfold es_drop_first. destruct (es_events es0) as [|e evs] eqn:Ev; cbn [hd_error tl]; [|reflexivity].
    do 2 f_equal. destruct es0; cbn in *; subst; reflexivity. }
  split; [reflexivity|]. split; [exact Hg|]. intros f2 t2 Hf.
  rewrite (settled_gen cfg t2 f2 es0 Hs Hf). split; [reflexivity|exact Hg].
Qed.

(** C52 *)
Lemma ms_whole tz dt : tz mod US = 0 -> dt mod US = 0 ->
  dt_to_milliseconds tz dt = (dt - tz) / 1000 /\ milliseconds_to_dt tz (dt_to_milliseconds tz dt) = dt.
Proof.
  unfold dt_to_milliseconds, milliseconds_to_dt, US. intros Ht Hd. rewrite Hd, Z.add_0_r.
  assert (E : (dt - tz) = 1000 * ((dt - tz) / 1000)).
  { apply Z_div_exact_full_2; [lia|].
    assert (E1 : dt = 1000000 * (dt / 1000000)) by (apply Z_div_exact_full_2; lia).
    assert (E2 : tz = 1000000 * (tz / 1000000)) by (apply Z_div_exact_full_2; lia).
    rewrite E1, E2. replace (1000000 * (dt / 1000000) - 1000000 * (tz / 1000000)) with ((1000 * (dt / 1000000) - 1000 * (tz / 1000000)) * 1000) by lia.
    apply Z.mod_mul; lia. }
  assert (Eq : Z.quot (dt - tz) 1000 = (dt - tz) / 1000).
  { rewrite E at 1. rewrite Z.mul_comm. apply Z.quot_mul; lia. }
  rewrite Eq. split; [reflexivity|]. rewrite Z.mul_comm. rewrite <- E. lia.
Qed.

(** the other round trip, for whole seconds *)
Lemma ms_round tz ms : tz mod US = 0 -> ms mod 1000 = 0 ->
  dt_to_milliseconds tz (milliseconds_to_dt tz ms) = ms.
Proof.
  intros Ht Hm.
  assert (E : ms = 1000 * (ms / 1000)) by (apply Z_div_exact_full_2; lia).
  assert (Hd : milliseconds_to_dt tz ms mod US = 0).
  { unfold milliseconds_to_dt. assert (E2 : tz = US * (tz / US)) by (apply Z_div_exact_full_2; [unfold US; lia|exact Ht]).
    rewrite E, E2. replace (1000 * (ms / 1000) * 1000 + US * (tz / US)) with ((ms / 1000 + tz / US) * US) by (unfold US; lia).
    apply Z.mod_mul. unfold US; lia. }
  destruct (ms_whole tz _ Ht Hd) as [H _]. rewrite H. unfold milliseconds_to_dt.
  replace (ms * 1000 + tz - tz) with (ms * 1000) by lia. apply Z.div_mul; lia.
Qed.

(** the conversion always overshoots by the sub-second part: exact characterisation
    for instants after the epoch *)
Lemma ms_exact tz dt : 0 <= dt - tz -> tz mod US = 0 ->
  dt_to_milliseconds tz dt = ((dt - tz) + dt mod US) / 1000.
Proof.
  intros H Ht. unfold dt_to_milliseconds. apply Z.quot_div_nonneg; [|lia].
  pose proof (Z.mod_pos_bound dt US ltac:(unfold US; lia)). lia.
Qed.

(** with valid entries nothing is raised *)
Lemma gen_loop_no_err cfg today st : forall fuel es tasks x,
  es_start es = Some st -> tasks_of (cf_mp cfg) (es_daily es) tasks ->
  gen_loop fuel cfg today es <> GErr x.
Proof.
  induction fuel as [|f IH]; intros es tasks x Hst Ht; cbn [gen_loop]; [discriminate|].
  destruct (es_events es); [|discriminate].
  assert (Hg : exists p, get_days cfg today es = Ok p).
  { unfold get_days. rewrite Hst. destruct (cf_hist cfg || _); [|eexists; reflexivity].
    destruct (es_his es); eexists; reflexivity. }
  destruct Hg as [p Hg].
  assert (H : forall days his, match days with
     | [] => GOk (es_set_gen [] [] (es_need es) his es)
     | day :: days' => match add_daily_events cfg es day (es_daily es) [] with
          | Err e => GErr e
          | Ok evs => gen_loop f cfg today (es_set_gen evs days' (es_need es) his es) end
     end <> GErr x).
  { intros [|d days] his; [discriminate|].
    rewrite (add_daily_ok cfg es d st (es_daily es) tasks Hst Ht).
    eapply IH; [exact Hst|exact Ht]. }
  destruct (es_days es) as [|d ds].
  - rewrite Hg. destruct p as [days his]. apply H.
  - apply (H (d :: ds) (es_his es)).
Qed.

Lemma gen_no_err cfg today st fuel es tasks x :
  es_start es = Some st -> tasks_of (cf_mp cfg) (es_daily es) tasks ->
  gen_events fuel cfg today es <> GErr x.
Proof.
  intros Hst Ht. unfold gen_events.
  destruct (es_need es) eqn:En.
  - rewrite (reset_fresh cfg today st es Hst En). set (es1 := es_set_gen _ _ _ _ es).
    pose proof (gen_loop_no_err cfg today st fuel es1 tasks x Hst Ht) as H.
    destruct (es_events es1); [|discriminate]. destruct (gen_loop fuel cfg today es1); congruence.
  - unfold reset_if_needed. rewrite En.
    pose proof (gen_loop_no_err cfg today st fuel es tasks x Hst Ht) as H.
    destruct (es_events es); [|discriminate]. destruct (gen_loop fuel cfg today es); congruence.
Qed.

(** "returns": an event or None *)
Definition returns {A} (r : gres A) : Prop := exists a, r = GOk a.

Lemma gen_returns_both fuel cfg today es : returns (gen_events fuel cfg today es) ->
  returns (peek_next_event fuel cfg today es) /\ returns (get_next_event fuel cfg today es).
Proof.
  intros [es1 E]. unfold peek_next_event, get_next_event. rewrite E. split; [eexists; reflexivity|].
  destruct (es_events es1); eexists; reflexivity.
Qed.

Lemma live_returns cfg today st es tasks fuel :
  times_ok (cf_mp cfg) -> cf_hist cfg = false -> es_end es = None -> 8 <= cf_count cfg ->
  es_daily es <> [] -> tasks_of (cf_mp cfg) (es_daily es) tasks ->
  es_start es = Some st -> st < (today + 1) * DAY ->
  (length (es_days es) + 2 * Z.to_nat (cf_count cfg) < fuel)%nat ->
  returns (peek_next_event fuel cfg today es) /\ returns (get_next_event fuel cfg today es).
Proof.
  intros Hmp Hh Hen Hc Hd Ht Hst Hlt Hf. apply gen_returns_both.
  pose proof (live_terminates cfg today st es fuel Hmp Hh Hen Hc Hd Hst Hlt Hf) as H1.
  pose proof (fun x => gen_no_err cfg today st fuel es tasks x Hst Ht) as H2.
  destruct (gen_events fuel cfg today es) as [a|x|]; [exists a; reflexivity| |congruence].
  exfalso. apply (H2 x eq_refl).
Qed.

Lemma bounded_returns cfg today st es tasks fuel :
  bounded cfg es = true -> es_need es = true \/ es_his es = true -> es_start es = Some st ->
  tasks_of (cf_mp cfg) (es_daily es) tasks ->
  (length (es_days es) < fuel)%nat -> (length (days_of cfg today st (es_end es)) < fuel)%nat ->
  returns (peek_next_event fuel cfg today es) /\ returns (get_next_event fuel cfg today es).
Proof.
  intros Hb Hnh Hst Ht Hf Hf2. apply gen_returns_both.
  pose proof (bounded_terminates cfg today st es fuel Hb Hnh Hst Hf Hf2) as H1.
  pose proof (fun x => gen_no_err cfg today st fuel es tasks x Hst Ht) as H2.
  destruct (gen_events fuel cfg today es) as [a|x|]; [exists a; reflexivity| |congruence].
  exfalso. apply (H2 x eq_refl).
Qed.

Lemma empty_live_never cfg es : cf_hist cfg = false -> 0 < cf_count cfg ->
  es_end es = None -> es_daily es = [] -> es_start es <> None ->
  (es_need es = false -> es_events es = []) ->
  forall fuel today, peek_next_event fuel cfg today es = GFuel /\ get_next_event fuel cfg today es = GFuel.
Proof.
  intros H1 H2 H3 H4 H5 H6 fuel today. unfold peek_next_event, get_next_event.
  rewrite (empty_live_diverges cfg es H1 H2 H3 H4 H5 H6 fuel today). split; reflexivity.
Qed.

(** default configuration (config.py:15-32) and a source with one task *)
Definition mp_default : periods := [(34200 * US, 41400 * US); (46800 * US, 54000 * US)].
Definition cfg_default : escfg := ESCfg false 365 mp_default.
Definition cls0 : ecls := ECls (lit "Scheduler_f_0") 0.
Definition src1 (expr : str) (st : Z) (en : option Z) : esrc := es_add_daily cls0 expr (es_new (Some st) en).

(** C09: the instant of a "close+10h" task of the day before the start is missed *)
Lemma cross_midnight_witness :
  exists cfg es st e tasks d off c,
    es_start es = Some st /\ es_end es = Some e /\ es_need es = true /\
    tasks_of (cf_mp cfg) (es_daily es) tasks /\
    In (off, c) tasks /\ st <= d * DAY + off <= e /\
    forall fuel todays, (10 <= fuel)%nat ->
      exists rs es', get_events fuel cfg todays es = GOk (rs, es') /\ ~ In (Some (d * DAY + off, c)) rs.
Proof.
  exists cfg_default, (src1 (lit "close+10h") (100 * DAY + 1800 * US) (Some (101 * DAY))),
    (100 * DAY + 1800 * US), (101 * DAY), [(25 * 3600 * US, cls0)], 99, (25 * 3600 * US), cls0.
  assert (Ht : tasks_of (cf_mp cfg_default) (es_daily (src1 (lit "close+10h") (100 * DAY + 1800 * US) (Some (101 * DAY))))
                 [(25 * 3600 * US, cls0)]).
  { constructor; [split; reflexivity|constructor]. }
  split; [reflexivity|]. split; [reflexivity|]. split; [reflexivity|]. split; [exact Ht|].
  split; [left; reflexivity|]. split; [unfold DAY, US; lia|].
  intros fuel todays Hf.
  destruct (bounded_stream cfg_default (src1 (lit "close+10h") (100 * DAY + 1800 * US) (Some (101 * DAY)))
     (100 * DAY + 1800 * US) (101 * DAY) [(25 * 3600 * US, cls0)] fuel todays eq_refl eq_refl eq_refl Ht) as (S & es' & HS & E).
  { replace (Z.to_nat _) with 2%nat by reflexivity. lia. }
  exists (answers (length todays) S), es'. split; [exact E|]. intros Hin.
  unfold answers in Hin. apply in_app_or in Hin. destruct Hin as [Hin|Hin]; [|apply repeat_spec in Hin; discriminate].
  apply in_map_iff in Hin. destruct Hin as (x & Hx & Hin). injection Hx as ->.
  assert (HinS : In (99 * DAY + 25 * 3600 * US, cls0) S).
  { rewrite <- (firstn_skipn (length todays) S). apply in_or_app. left; exact Hin. }
  destruct HS as (days & ls & [Hc _] & HF & ->). apply in_concat in HinS. destruct HinS as (l & Hl & Hx).
  assert (Hd : exists d, In d days /\ day_ok (100 * DAY + 1800 * US) (Some (101 * DAY)) [(25 * 3600 * US, cls0)] d l).
  { clear - HF Hl. induction HF as [|d l0 days ls H HF IH]; [destruct Hl|].
    destruct Hl as [->|Hl]; [exists d; split; [left; reflexivity|exact H]|].
    destruct (IH Hl) as (d' & H1 & H2). exists d'. split; [right; exact H1|exact H2]. }
  destruct Hd as (d & Hd & (Hp & _)). apply Hc in Hd.
  apply (Permutation_in _ Hp) in Hx. unfold day_instants in Hx. apply filter_In in Hx. destruct Hx as [Hx _].
  cbn [map In] in Hx. destruct Hx as [Hx|[]]. injection Hx as Hx. cbn in Hd. unfold dt_date, DAY, US in *.
  change ((100 * 86400000000 + 1800 * 1000000) / 86400000000) with 100 in Hd. lia.
Qed.

(** C10: after 365 days the last day's event is delivered a second time *)
Definition replay_days : list Z := map Z.of_nat (seq 0 365) ++ [364].
Definition replay_check : bool :=
  match get_events 400 cfg_default replay_days (src1 (lit "9:30:00") 0 None) with
  | GOk (rs, _) =>
      match nth_error rs 364, nth_error rs 365 with
      | Some (Some (t1, _)), Some (Some (t2, _)) =>
          (t1 =? 364 * DAY + 34200 * US) && (t2 =? 364 * DAY + 34200 * US)
      | _, _ => false
      end
  | _ => false
  end.
Lemma replay_check_true : replay_check = true.
Proof. vm_compute. reflexivity. Qed.

Lemma replay_witness :
  exists rs es' c1 c2, get_events 400 cfg_default replay_days (src1 (lit "9:30:00") 0 None) = GOk (rs, es') /\
    nth_error rs 364 = Some (Some (364 * DAY + 34200 * US, c1)) /\
    nth_error rs 365 = Some (Some (364 * DAY + 34200 * US, c2)).
Proof.
  pose proof replay_check_true as H. unfold replay_check in H.
  destruct (get_events 400 cfg_default replay_days (src1 (lit "9:30:00") 0 None)) as [[rs es']| |]; try discriminate.
  destruct (nth_error rs 364) as [[[t1 c1]|]|] eqn:E1; try discriminate.
  destruct (nth_error rs 365) as [[[t2 c2]|]|] eqn:E2; try discriminate.
  apply andb_true_iff in H. destruct H as [H1 H2]. apply Z.eqb_eq in H1. apply Z.eqb_eq in H2.
  exists rs, es', c1, c2. split; [reflexivity|]. rewrite <- H1 at 1. rewrite E1, E2, H1, H2. split; reflexivity.
Qed.

Lemma ms_overshoot tz dt : 0 <= dt - tz -> tz mod US = 0 -> 1000 <= dt mod US ->
  (dt - tz) / 1000 < dt_to_milliseconds tz dt.
Proof.
  intros H Ht Hs. rewrite ms_exact by assumption.
  assert (E : (dt - tz) / 1000 + 1 = ((dt - tz) + 1 * 1000) / 1000) by (rewrite Z.div_add; lia).
  assert (((dt - tz) + 1 * 1000) / 1000 <= ((dt - tz) + dt mod US) / 1000) by (apply Z.div_le_mono; lia).
  lia.
Qed.

Lemma ms_not_monotone : exists tz a b, a < b /\ dt_to_milliseconds tz b < dt_to_milliseconds tz a.
Proof. exists 0, 999000, 1000000. split; vm_compute; reflexivity. Qed.

Lemma ms_back_bad : exists tz ms, tz mod US = 0 /\ dt_to_milliseconds tz (milliseconds_to_dt tz ms) <> ms.
Proof. exists 0, 1500. split; vm_compute; [reflexivity|discriminate]. Qed.
