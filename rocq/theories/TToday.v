(** C11, C10: one generation of events reads the date once that matters. *)
From Coq Require Import Permutation.
From Verif Require Import PyBase PyStr MTime MTimeExpr MEventSource MToday SEvent LSort LEventSource LTimeExpr LEventSource2.
Open Scope Z_scope.

(** ** Lemmas *)
Lemma loop_no_reading cfg st tasks : forall days fuel es dates today,
  es_start es = Some st -> tasks_of (cf_mp cfg) (es_daily es) tasks -> es_days es = days -> es_events es = [] ->
  flat_map (day_evs st (es_end es) tasks) days <> [] ->
  gen_loop_t fuel cfg dates es = gen_loop fuel cfg today es.
Proof.
  induction days as [|d days IH]; intros fuel es dates today Hst Ht Hd Hev Hne; [cbn in Hne; congruence|].
  destruct fuel as [|f]; [reflexivity|]. cbn [gen_loop gen_loop_t]. rewrite Hev, Hd.
  rewrite (add_daily_ok cfg es d st (es_daily es) tasks Hst Ht). cbn [app].
  destruct (day_instants st (es_end es) tasks d) as [|e l] eqn:Ei.
  - apply IH; try assumption; try reflexivity. cbn [flat_map] in Hne. unfold day_evs at 1 in Hne. rewrite Ei in Hne. exact Hne.
  - destruct f as [|f]; [reflexivity|]. reflexivity.
Qed.
Lemma loop_reading cfg st tasks : forall days fuel es dates,
  cf_hist cfg = false -> es_end es = None -> es_start es = Some st -> tasks_of (cf_mp cfg) (es_daily es) tasks -> es_days es = days -> es_events es = [] ->
  flat_map (day_evs st None tasks) (day_range (dates 0%nat) (cf_count cfg)) <> [] ->
  gen_loop_t fuel cfg dates es = gen_loop fuel cfg (dates 0%nat) es.
Proof.
  induction days as [|d days IH]; intros fuel es dates Hh Hen Hst Ht Hd Hev Hne; (destruct fuel as [|f]; [reflexivity|]); cbn [gen_loop gen_loop_t]; rewrite Hev, Hd.
  - unfold get_days. rewrite Hh, Hen. cbn [orb].
    destruct (day_range (dates 0%nat) (cf_count cfg)) as [|d ds] eqn:Er; [reflexivity|].
    rewrite (add_daily_ok cfg es d st (es_daily es) tasks Hst Ht). cbn [app]. rewrite Hen.
    destruct (day_instants st None tasks d) as [|e l] eqn:Ei; [|destruct f; reflexivity].
    apply (loop_no_reading cfg st tasks ds); try assumption; try reflexivity. cbn [es_set_gen es_end]. rewrite Hen.
    cbn [flat_map] in Hne. unfold day_evs at 1 in Hne. rewrite Ei in Hne. exact Hne.
  - rewrite (add_daily_ok cfg es d st (es_daily es) tasks Hst Ht). cbn [app]. rewrite Hen.
    destruct (day_instants st None tasks d) as [|e l] eqn:Ei; [|destruct f; reflexivity].
    apply IH; assumption || reflexivity.
Qed.
Lemma loop_bad cfg st fuel es dates today :
  cf_hist cfg = false -> es_end es = None -> es_start es = Some st -> es_events es = [] ->
  (exists de, In de (es_daily es) /\ exists x, expr_offset (cf_mp cfg) (fst de) = Err x) ->
  (es_days es = [] -> dates 0%nat = today) ->
  gen_loop_t fuel cfg dates es = gen_loop fuel cfg today es.
Proof.
  intros Hh Hen Hst Hev Hbad Hd0. destruct fuel as [|f]; [reflexivity|]. cbn [gen_loop gen_loop_t]. rewrite Hev.
  destruct (es_days es) as [|d ds].
  - rewrite (Hd0 eq_refl). unfold get_days. rewrite Hh, Hen. cbn [orb]. destruct (day_range today (cf_count cfg)) as [|d ds]; [reflexivity|].
    destruct (add_daily_err cfg es d st (es_daily es) Hst Hbad []) as [x ->]. reflexivity.
  - destruct (add_daily_err cfg es d st (es_daily es) Hst Hbad []) as [x ->]. reflexivity.
Qed.

(** In live mode a source with entries, started not after the first date read, generates the
    same events whatever the later readings of the date are; so the simplification of
    MEventSource.v loses nothing, and midnight or a change of the clock during a generation
    neither repeats nor loses a day. *)
Theorem C11_reading :
  forall fuel cfg dates st es,
    times_ok (cf_mp cfg) -> cf_hist cfg = false -> es_end es = None -> 8 <= cf_count cfg ->
    es_daily es <> [] -> es_start es = Some st -> st < (dates 0%nat + 1) * DAY ->
    gen_events_t fuel cfg dates es = gen_events fuel cfg (dates 0%nat) es.
Proof.
  intros fuel cfg dates st es Hmp Hh Hen Hc Hd Hst Hlt. unfold gen_events_t, gen_events.
  destruct (reset_if_needed cfg (dates 0%nat) es) as [es1|] eqn:Er; [|reflexivity].
  destruct (es_events es1) as [|e evs] eqn:Ev; [|reflexivity].
  assert (H : gen_loop_t fuel cfg (if es_need es then later cfg es dates else dates) es1 = gen_loop fuel cfg (dates 0%nat) es1); [|rewrite H; reflexivity].
  destruct (es_need es) eqn:En.
  - pose proof (reset_fresh cfg (dates 0%nat) st es Hst En) as Hr. rewrite Hr in Er. apply Ok_inj in Er. subst es1.
    rewrite Hen. cbn [days_of]. rewrite Hh.
    destruct (tasks_or_err (cf_mp cfg) (es_daily es)) as [[tasks Ht]|Hbad].
    + apply (loop_no_reading cfg st tasks (day_range (dates 0%nat) (cf_count cfg))); try assumption; try reflexivity.
      cbn [es_set_gen es_end]. rewrite Hen. eapply window_nonempty; eauto.
    + apply (loop_bad cfg st); try assumption; try reflexivity. cbn [es_set_gen es_days]. intro E. exfalso.
      assert (L := day_range_length (dates 0%nat) (cf_count cfg)). rewrite E in L. cbn in L. lia.
  - unfold reset_if_needed in Er. rewrite En in Er. apply Ok_inj in Er. subst es1.
    destruct (tasks_or_err (cf_mp cfg) (es_daily es)) as [[tasks Ht]|Hbad].
    + apply (loop_reading cfg st tasks (es_days es)); try assumption; try reflexivity. eapply window_nonempty; eauto.
    + apply (loop_bad cfg st); auto.
Qed.
Print Assumptions C11_reading.
(** With an end, or in history mode, the date is not read at all. *)
Theorem C11_no_reading :
  forall fuel cfg dates today es, bounded cfg es = true -> gen_events_t fuel cfg dates es = gen_events fuel cfg today es.
Proof.
  intros fuel cfg dates today es Hb. unfold bounded in Hb.
  assert (D : forall d d' es', (cf_hist cfg || match es_end es' with Some _ => true | None => false end) = true -> get_days cfg d es' = get_days cfg d' es').
  { intros d d' es' H. unfold get_days. rewrite H. reflexivity. }
  assert (G : forall f dates es', (cf_hist cfg || match es_end es' with Some _ => true | None => false end) = true -> gen_loop_t f cfg dates es' = gen_loop f cfg today es').
  { induction f as [|f IH]; intros ds es' H; [reflexivity|]. cbn [gen_loop gen_loop_t]. destruct (es_events es'); [|reflexivity]. rewrite (D (ds 0%nat) today es' H).
    destruct (es_days es') as [|d days].
    - destruct (get_days cfg today es') as [[[|d days] his]|x]; try reflexivity. destruct (add_daily_events _ _ _ _ _); [|reflexivity]. apply IH. exact H.
    - destruct (add_daily_events _ _ _ _ _); [|reflexivity]. apply IH. exact H. }
  unfold gen_events_t, gen_events.
  assert (R : reset_if_needed cfg (dates 0%nat) es = reset_if_needed cfg today es).
  { unfold reset_if_needed. destruct (es_need es); [|reflexivity]. rewrite (D (dates 0%nat) today (es_set_gen [] (es_days es) true false es)) by exact Hb. reflexivity. }
  rewrite R. destruct (reset_if_needed cfg today es) as [es1|] eqn:E; [|reflexivity]. destruct (es_events es1); [|reflexivity].
  rewrite G; [reflexivity|]. unfold reset_if_needed in E. destruct (es_need es); [|injection E as <-; exact Hb].
  destruct (get_days _ _ _) as [[days his]|x]; [|discriminate]. cbn [rbind] in E. injection E as <-. exact Hb.
Qed.
Print Assumptions C11_no_reading.

(** When no entry has an instant in the window counted from the date read (the start lies
    further ahead), the date is read anew and the generation goes on from the next reading. *)
Lemma loop_skip cfg st tasks : forall days f es dates,
  es_start es = Some st -> es_end es = None -> tasks_of (cf_mp cfg) (es_daily es) tasks -> es_days es = days -> es_events es = [] -> es_his es = true ->
  flat_map (day_evs st None tasks) days = [] ->
  gen_loop_t (length days + f) cfg dates es = gen_loop_t f cfg dates (es_set_gen [] [] (es_need es) true es).
Proof.
  induction days as [|d days IH]; intros f es dates Hst Hen Ht Hd Hev Hh Hne.
  - cbn [length Nat.add]. f_equal. destruct es; cbn in *; subst; reflexivity.
  - cbn [flat_map] in Hne. apply app_eq_nil in Hne as [H1 H2]. cbn [length Nat.add gen_loop_t]. rewrite Hev, Hd.
    rewrite (add_daily_ok cfg es d st (es_daily es) tasks Hst Ht). cbn [app]. rewrite Hen.
    assert (E : day_instants st None tasks d = []).
    { pose proof (day_evs_ok st None tasks d) as [P _]. rewrite H1 in P. apply Permutation_nil, P. }
    rewrite E, Hh. rewrite IH; try assumption; reflexivity.
Qed.
Theorem C11_next_reading :
  forall f cfg dates st es tasks,
    cf_hist cfg = false -> es_end es = None -> es_start es = Some st -> 1 <= cf_count cfg ->
    es_need es = false -> es_his es = true -> es_days es = [] -> es_events es = [] -> tasks_of (cf_mp cfg) (es_daily es) tasks ->
    (forall d, dates 0%nat <= d < dates 0%nat + cf_count cfg -> day_instants st None tasks d = []) ->
    gen_events_t (Z.to_nat (cf_count cfg) + f) cfg dates es = gen_events_t f cfg (fun k => dates (S k)) es.
Proof.
  intros f cfg dates st es tasks Hh Hen Hst Hc Hn Hhis Hd Hev Ht Hw. unfold gen_events_t, reset_if_needed. rewrite Hn, Hev.
  assert (H : gen_loop_t (Z.to_nat (cf_count cfg) + f) cfg dates es = gen_loop_t f cfg (fun k => dates (S k)) es); [|rewrite H; reflexivity].
  pose proof (day_range_length (dates 0%nat) (cf_count cfg)) as L.
  assert (E0 : flat_map (day_evs st None tasks) (day_range (dates 0%nat) (cf_count cfg)) = []).
  { assert (X : forall l, (forall d, In d l -> dates 0%nat <= d < dates 0%nat + cf_count cfg) -> flat_map (day_evs st None tasks) l = []).
    { induction l as [|d l IH]; intro Hl; [reflexivity|]. cbn [flat_map]. rewrite IH by (intros d' Hd'; apply Hl; right; exact Hd').
      unfold day_evs. rewrite (Hw d (Hl d (or_introl eq_refl))). reflexivity. }
    apply X. intros d Hin. unfold day_range in Hin. apply in_map_iff in Hin as (i & <- & Hi). apply in_seq in Hi. lia. }
  destruct (day_range (dates 0%nat) (cf_count cfg)) as [|d ds] eqn:Er; [cbn in L; lia|].
  rewrite <- L. cbn [length Nat.add gen_loop_t]. rewrite Hev, Hd. unfold get_days at 1. rewrite Hh, Hen. cbn [orb]. rewrite Er.
  rewrite (add_daily_ok cfg es d st (es_daily es) tasks Hst Ht). cbn [app]. rewrite Hen.
  cbn [flat_map] in E0. apply app_eq_nil in E0 as [H1 H2].
  assert (E : day_instants st None tasks d = []).
  { pose proof (day_evs_ok st None tasks d) as [P _]. rewrite H1 in P. apply Permutation_nil, P. }
  rewrite E. rewrite (loop_skip cfg st tasks ds); try assumption; try reflexivity.
  unfold later, reads_date. rewrite Hh, Hen. cbn [orb negb]. f_equal. destruct es; cbn in *; subst; reflexivity.
Qed.
Print Assumptions C11_next_reading.

(** a live source whose days are used up, at midnight: the first reading is the 20000th day, all
    later ones the next *)
Example C11_reading_demo :
  let es := ES [(lit "9:30:00", ECls (lit "E") 0)] [] [] (Some (19000 * DAY)) None false true [] in
  gen_events_t 30 cfg_default (fun k => 20000 + Z.of_nat (Nat.min k 1)) es = gen_events 30 cfg_default 20000 es /\
  match gen_events_t 30 cfg_default (fun k => 20000 + Z.of_nat (Nat.min k 1)) es with GOk es' => map fst (es_events es') = [20000 * DAY + 34200 * US] | _ => False end.
Proof. vm_compute. auto. Qed.
(** a source that starts in ten days: the first reading's window is empty, the second's is not *)
Example C11_next_reading_demo :
  let es := ES [(lit "9:30:00", ECls (lit "E") 0)] [] [] (Some (20010 * DAY)) None false true [] in
  match gen_events_t 20 (ESCfg false 8 mp_default) (fun k => 20000 + 10 * Z.of_nat (Nat.min k 1)) es with
  | GOk es' => map fst (es_events es') = [20010 * DAY + 34200 * US] | _ => False end.
Proof. vm_compute. reflexivity. Qed.
