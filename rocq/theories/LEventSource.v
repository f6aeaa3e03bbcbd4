(** Proofs about EventSource (C09-C12). *)
From Coq Require Import Permutation Sorted.
From Verif Require Import PyBase PyStr MTime MTimeExpr MEventSource SEvent LSort.
Open Scope Z_scope.

(** the daily entries all parse, with these offsets *)
Definition tasks_of (mp : periods) (daily : list (str * ecls)) (tasks : list task) : Prop :=
  Forall2 (fun de t => expr_offset mp (fst de) = Ok (fst t) /\ snd de = snd t) daily tasks.

Definition day_evs (st : Z) (en : option Z) (tasks : list task) (d : Z) : list (Z * ecls) :=
  sort_by fst (day_instants st en tasks d).

Definition pend (st : Z) (tasks : list task) (es : esrc) : list (Z * ecls) :=
  es_events es ++ flat_map (day_evs st (es_end es) tasks) (es_days es).

Lemma day_evs_ok st en tasks d : day_ok st en tasks d (day_evs st en tasks d).
Proof.
  unfold day_ok, day_evs. split; [apply sort_perm|]. split.
  - exact (sort_sorted fst _).
  - intros t. apply sort_stable.
Qed.

Lemma add_event_ok cfg es day expr c evs st off :
  es_start es = Some st -> expr_offset (cf_mp cfg) expr = Ok off ->
  add_event cfg es day expr c evs =
  Ok (evs ++ (if within st (es_end es) (day * DAY + off) then [(day * DAY + off, c)] else [])).
Proof.
  intros Hst Hoff. unfold add_event. rewrite Hoff. cbn [rbind]. rewrite Hst.
  unfold within, combine.
  destruct (Z.ltb_spec (day * DAY + off) st) as [H1|H1];
    destruct (Z.leb_spec st (day * DAY + off)) as [H2|H2]; try lia; cbn [andb].
  - rewrite app_nil_r; reflexivity.
  - destruct (es_end es) as [e|]; [|reflexivity].
    destruct (Z.ltb_spec e (day * DAY + off)) as [H3|H3];
      destruct (Z.leb_spec (day * DAY + off) e) as [H4|H4]; try lia; [rewrite app_nil_r|]; reflexivity.
Qed.

Lemma add_daily_ok cfg es day st daily tasks : es_start es = Some st ->
  tasks_of (cf_mp cfg) daily tasks -> forall evs,
  add_daily_events cfg es day daily evs = Ok (evs ++ day_instants st (es_end es) tasks day).
Proof.
  intros Hst Ht. induction Ht as [|[expr c] [off c'] daily tasks [H1 H2] Ht IH]; intros evs.
  - cbn. rewrite app_nil_r; reflexivity.
  - cbn [fst snd] in H1, H2. subst c'. cbn [add_daily_events].
    rewrite (add_event_ok cfg es day expr c evs st off Hst H1). cbn [rbind].
    rewrite IH. unfold day_instants. cbn [map filter fst snd].
    destruct (within st (es_end es) (day * DAY + off)); cbn [app];
      rewrite <- app_assoc; reflexivity.
Qed.

(** if some entry does not parse, processing any day raises *)
Lemma add_daily_err cfg es day st daily : es_start es = Some st ->
  (exists de, In de daily /\ exists x, expr_offset (cf_mp cfg) (fst de) = Err x) ->
  forall evs, exists x, add_daily_events cfg es day daily evs = Err x.
Proof.
  intros Hst. induction daily as [|[expr c] daily IH]; intros (de & Hin & x & Hx) evs; [destruct Hin|].
  cbn [add_daily_events]. destruct (expr_offset (cf_mp cfg) expr) as [off|y] eqn:E.
  - rewrite (add_event_ok cfg es day expr c evs st off Hst E). cbn [rbind].
    apply IH. destruct Hin as [<-|Hin]; [cbn [fst] in Hx; congruence|].
    exists de; split; [exact Hin|exists x; exact Hx].
  - exists y. unfold add_event. rewrite E. reflexivity.
Qed.

Lemma tasks_or_err mp daily :
  (exists tasks, tasks_of mp daily tasks) \/
  (exists de, In de daily /\ exists x, expr_offset mp (fst de) = Err x).
Proof.
  induction daily as [|[expr c] daily [[tasks IH]|(de & Hin & x & Hx)]].
  - left; exists []; constructor.
  - destruct (expr_offset mp expr) as [off|y] eqn:E.
    + left; exists ((off, c) :: tasks). constructor; [split; [exact E|reflexivity]|exact IH].
    + right; exists (expr, c). split; [left; reflexivity|exists y; exact E].
  - right; exists de; split; [right; exact Hin|exists x; exact Hx].
Qed.

(** what generation never changes *)
Definition same_src (a b : esrc) : Prop :=
  es_daily a = es_daily b /\ es_start a = es_start b /\ es_end a = es_end b /\ es_cbs a = es_cbs b.

Lemma same_src_refl a : same_src a a. Proof. repeat split. Qed.

(** (A) some event is pending in the already generated days *)
Lemma gen_loop_days cfg today st tasks :
  forall days fuel es,
  es_start es = Some st -> tasks_of (cf_mp cfg) (es_daily es) tasks ->
  es_events es = [] -> es_days es = days ->
  flat_map (day_evs st (es_end es) tasks) days <> [] ->
  (length days < fuel)%nat ->
  exists es2, gen_loop fuel cfg today es = GOk es2 /\ same_src es2 es /\
    es_need es2 = es_need es /\ es_his es2 = es_his es /\ es_events es2 <> [] /\
    (length (es_days es2) <= length days)%nat /\
    sort_by fst (es_events es2) ++ flat_map (day_evs st (es_end es) tasks) (es_days es2) =
    flat_map (day_evs st (es_end es) tasks) days.
Proof.
  induction days as [|d days IH]; intros fuel es Hst Ht Hev Hd Hne Hf; [cbn in Hne; congruence|].
  destruct fuel as [|f]; [cbn in Hf; lia|]. cbn [length] in Hf.
  cbn [gen_loop]. rewrite Hev, Hd.
  rewrite (add_daily_ok cfg es d st (es_daily es) tasks Hst Ht). cbn [app].
  set (es1 := es_set_gen _ days _ _ es).
  destruct (day_instants st (es_end es) tasks d) as [|e evs] eqn:E.
  - cbn [flat_map] in Hne |- *. unfold day_evs at 1 in Hne. rewrite E in Hne. cbn in Hne.
    destruct (IH f es1) as (es2 & G1 & G2 & G3 & G4 & G5 & G6 & G7);
      [exact Hst|exact Ht|reflexivity|reflexivity|exact Hne|lia|].
    exists es2. split; [exact G1|]. split; [exact G2|]. split; [exact G3|]. split; [exact G4|].
    split; [exact G5|]. split; [cbn [length]; lia|].
    unfold day_evs at 2. rewrite E. exact G7.
  - destruct f as [|f]; [lia|]. cbn [gen_loop]. unfold es1 at 1; cbn [es_events es_set_gen].
    exists es1. repeat split; try reflexivity.
    + unfold es1; cbn. discriminate.
    + unfold es1; cbn. lia.
    + unfold es1; cbn [es_events es_days es_set_gen flat_map].
      unfold day_evs at 2. rewrite E. reflexivity.
Qed.

Lemma gen_pend cfg today st tasks fuel es :
  es_start es = Some st -> tasks_of (cf_mp cfg) (es_daily es) tasks ->
  es_need es = false -> pend st tasks es <> [] -> (length (es_days es) < fuel)%nat ->
  exists es', gen_events fuel cfg today es = GOk es' /\ same_src es' es /\
    es_need es' = false /\ es_his es' = es_his es /\ es_events es' <> [] /\
    (length (es_days es') <= length (es_days es))%nat /\
    pend st tasks es' = pend st tasks es.
Proof.
  intros Hst Ht Hn Hp Hf. unfold gen_events, reset_if_needed. rewrite Hn.
  destruct (es_events es) as [|e evs] eqn:Eev.
  - unfold pend in Hp |- *. rewrite Eev in Hp |- *. cbn [app] in Hp |- *.
    destruct (gen_loop_days cfg today st tasks (es_days es) fuel es Hst Ht Eev eq_refl Hp Hf)
      as (es2 & G1 & G2 & G3 & G4 & G5 & G6 & G7).
    rewrite G1. destruct G2 as (S1 & S2 & S3 & S4).
    eexists. split; [reflexivity|]. cbn.
    repeat split; try assumption; try congruence.
    + intros E. apply sort_nil in E. contradiction.
  - exists es. repeat split; try assumption; try reflexivity; try (rewrite Eev; discriminate).
Qed.

(** (B) a bounded source with nothing pending stays empty *)
Definition bounded (cfg : escfg) (es : esrc) : bool :=
  cf_hist cfg || match es_end es with Some _ => true | None => false end.

Lemma gen_loop_none cfg today st tasks : forall days fuel es,
  es_start es = Some st -> tasks_of (cf_mp cfg) (es_daily es) tasks ->
  bounded cfg es = true -> es_his es = true ->
  es_events es = [] -> es_days es = days ->
  flat_map (day_evs st (es_end es) tasks) days = [] ->
  (length days < fuel)%nat ->
  gen_loop fuel cfg today es = GOk (es_set_gen [] [] (es_need es) true es).
Proof.
  induction days as [|d days IH]; intros fuel es Hst Ht Hb Hh Hev Hd Hne Hf;
    (destruct fuel as [|f]; [cbn in Hf; lia|]); cbn [length] in Hf; cbn [gen_loop]; rewrite Hev, Hd.
  - unfold get_days. unfold bounded in Hb. rewrite Hb, Hh. reflexivity.
  - rewrite (add_daily_ok cfg es d st (es_daily es) tasks Hst Ht). cbn [app].
    cbn [flat_map] in Hne. apply app_eq_nil in Hne. destruct Hne as [H1 H2].
    unfold day_evs in H1. apply sort_nil in H1. rewrite H1.
    rewrite IH; try assumption; try reflexivity. lia.
Qed.

Lemma gen_none cfg today st tasks fuel es :
  es_start es = Some st -> tasks_of (cf_mp cfg) (es_daily es) tasks ->
  es_need es = false -> bounded cfg es = true -> es_his es = true ->
  pend st tasks es = [] -> (length (es_days es) < fuel)%nat ->
  gen_events fuel cfg today es = GOk (es_set_gen [] [] false true es).
Proof.
  intros Hst Ht Hn Hb Hh Hp Hf. unfold pend in Hp. apply app_eq_nil in Hp. destruct Hp as [H1 H2].
  unfold gen_events, reset_if_needed. rewrite Hn, H1.
  rewrite (gen_loop_none cfg today st tasks (es_days es)) by (try assumption; reflexivity).
  cbn. rewrite Hn. reflexivity.
Qed.

(** get_next_event on a source with its days generated *)
Definition ready (cfg : escfg) (st : Z) (tasks : list task) (es : esrc) : Prop :=
  es_start es = Some st /\ tasks_of (cf_mp cfg) (es_daily es) tasks /\ es_need es = false.

Lemma get_cons cfg today st tasks fuel es e rest :
  ready cfg st tasks es -> pend st tasks es = e :: rest -> (length (es_days es) < fuel)%nat ->
  exists es', get_next_event fuel cfg today es = GOk (Some e, es') /\ same_src es' es /\
    ready cfg st tasks es' /\ es_his es' = es_his es /\
    (length (es_days es') <= length (es_days es))%nat /\ pend st tasks es' = rest.
Proof.
  intros (Hst & Ht & Hn) Hp Hf.
  destruct (gen_pend cfg today st tasks fuel es Hst Ht Hn) as (es1 & G1 & G2 & G3 & G4 & G5 & G6 & G7);
    [rewrite Hp; discriminate|exact Hf|].
  unfold get_next_event. rewrite G1. destruct (es_events es1) as [|e0 evs] eqn:E; [congruence|].
  unfold pend in G7 at 1. rewrite E in G7. rewrite Hp in G7. cbn [app] in G7. injection G7 as -> Hrest.
  destruct G2 as (S1 & S2 & S3 & S4).
  eexists. split; [reflexivity|]. split; [repeat split; assumption|]. split.
  - repeat split; cbn; [congruence|rewrite S1; exact Ht|exact G3].
  - split; [exact G4|]. split; [exact G6|]. unfold pend; cbn. exact Hrest.
Qed.

Lemma get_nil cfg today st tasks fuel es :
  ready cfg st tasks es -> bounded cfg es = true -> es_his es = true ->
  pend st tasks es = [] -> (length (es_days es) < fuel)%nat ->
  exists es', get_next_event fuel cfg today es = GOk (None, es') /\ same_src es' es /\
    ready cfg st tasks es' /\ es_his es' = true /\
    (length (es_days es') <= length (es_days es))%nat /\ pend st tasks es' = [].
Proof.
  intros (Hst & Ht & Hn) Hb Hh Hp Hf.
  unfold get_next_event. rewrite (gen_none cfg today st tasks fuel es) by assumption.
  cbn. eexists. split; [reflexivity|]. split; [repeat split|]. split; [repeat split; assumption|].
  split; [reflexivity|]. split; [cbn; lia|]. unfold pend. reflexivity.
Qed.

Lemma answers_cons n e S : answers (Datatypes.S n) (e :: S) = Some e :: answers n S.
Proof. reflexivity. Qed.
Lemma answers_nil n : answers (Datatypes.S n) [] = None :: answers n [].
Proof. unfold answers. rewrite !firstn_nil. cbn. rewrite Nat.sub_0_r. reflexivity. Qed.

Lemma get_events_bounded cfg st tasks fuel todays : forall es,
  ready cfg st tasks es -> bounded cfg es = true -> es_his es = true ->
  (length (es_days es) < fuel)%nat ->
  exists es', get_events fuel cfg todays es = GOk (answers (length todays) (pend st tasks es), es').
Proof.
  induction todays as [|t ts IH]; intros es Hr Hb Hh Hf; cbn [get_events length].
  - exists es. unfold answers. cbn [firstn map app]. rewrite Nat.sub_0_l. reflexivity.
  - assert (Hbb : forall es', same_src es' es -> bounded cfg es' = true).
    { intros es' (_ & _ & S3 & _). unfold bounded in *. rewrite S3. exact Hb. }
    destruct (pend st tasks es) as [|e rest] eqn:Ep.
    + destruct (get_nil cfg t st tasks fuel es Hr Hb Hh Ep Hf) as (es1 & G1 & G2 & G3 & G4 & G5 & G6).
      rewrite G1. destruct (IH es1 G3 (Hbb _ G2) G4 ltac:(lia)) as (es2 & E2). rewrite E2.
      exists es2. rewrite answers_nil, G6. reflexivity.
    + destruct (get_cons cfg t st tasks fuel es e rest Hr Ep Hf) as (es1 & G1 & G2 & G3 & G4 & G5 & G6).
      rewrite G1. destruct (IH es1 G3 (Hbb _ G2) ltac:(congruence) ltac:(lia)) as (es2 & E2). rewrite E2.
      exists es2. rewrite answers_cons, G6. reflexivity.
Qed.

(** while events are pending the mode does not matter *)
Lemma get_events_prefix cfg st tasks fuel todays : forall es,
  ready cfg st tasks es -> (length (es_days es) < fuel)%nat ->
  (length todays <= length (pend st tasks es))%nat ->
  exists es', get_events fuel cfg todays es =
    GOk (map Some (firstn (length todays) (pend st tasks es)), es') /\
    ready cfg st tasks es' /\ same_src es' es /\ es_his es' = es_his es /\
    (length (es_days es') <= length (es_days es))%nat /\
    pend st tasks es' = skipn (length todays) (pend st tasks es).
Proof.
  induction todays as [|t ts IH]; intros es Hr Hf Hl; cbn [get_events length] in *.
  - exists es. repeat split; try apply Hr; try lia.
  - destruct (pend st tasks es) as [|e rest] eqn:Ep; [cbn in Hl; lia|]. cbn [length] in Hl.
    destruct (get_cons cfg t st tasks fuel es e rest Hr Ep Hf) as (es1 & G1 & G2 & G3 & G4 & G5 & G6).
    rewrite G1. destruct (IH es1 G3 ltac:(lia)) as (es2 & E2 & E3 & E4 & E5 & E6 & E7); [rewrite G6; lia|].
    rewrite E2, G6. exists es2. repeat split; try apply E3; try congruence; try lia.
    + destruct E4 as (? & ? & ? & ?), G2 as (? & ? & ? & ?); congruence.
    + destruct E4 as (? & ? & ? & ?), G2 as (? & ? & ? & ?); congruence.
    + destruct E4 as (? & ? & ? & ?), G2 as (? & ? & ? & ?); congruence.
    + destruct E4 as (? & ? & ? & ?), G2 as (? & ? & ? & ?); congruence.
    + rewrite E7, G6. reflexivity.
Qed.

(** first use: the reset *)
Definition days_of (cfg : escfg) (today st : Z) (en : option Z) : list Z :=
  match en with
  | Some e => day_range (dt_date st) (dt_date e - dt_date st + 1)
  | None => if cf_hist cfg then day_range (dt_date st) (cf_count cfg) else day_range today (cf_count cfg)
  end.

Lemma reset_fresh cfg today st es :
  es_start es = Some st -> es_need es = true ->
  reset_if_needed cfg today es =
  Ok (es_set_gen [] (days_of cfg today st (es_end es)) false true es).
Proof.
  intros Hst Hn. unfold reset_if_needed. rewrite Hn. unfold get_days, days_of. cbn.
  rewrite Hst. destruct (es_end es) as [e|]; destruct (cf_hist cfg); reflexivity.
Qed.

Lemma reset_idem cfg today es es1 : reset_if_needed cfg today es = Ok es1 -> es_need es1 = false.
Proof.
  unfold reset_if_needed. destruct (es_need es) eqn:E; [|congruence].
  destruct (get_days _ _ _) as [[d h]|]; cbn; [|discriminate]. intros H; injection H as <-. reflexivity.
Qed.

Lemma gen_after_reset cfg today es es1 fuel :
  reset_if_needed cfg today es = Ok es1 ->
  gen_events fuel cfg today es = gen_events fuel cfg today es1.
Proof.
  intros H. pose proof (reset_idem _ _ _ _ H) as Hn. unfold gen_events at 1. rewrite H.
  unfold gen_events, reset_if_needed. rewrite Hn. reflexivity.
Qed.

Lemma get_events_reset cfg today todays es es1 fuel :
  reset_if_needed cfg today es = Ok es1 ->
  get_events fuel cfg (today :: todays) es = get_events fuel cfg (today :: todays) es1.
Proof.
  intros H. cbn [get_events]. unfold get_next_event.
  rewrite (gen_after_reset cfg today es es1 fuel H). reflexivity.
Qed.

Lemma day_range_length s n : length (day_range s n) = Z.to_nat n.
Proof. unfold day_range. rewrite map_length, seq_length. reflexivity. Qed.

Lemma day_range_consecutive lo hi : consecutive lo hi (day_range lo (hi - lo + 1)).
Proof.
  unfold consecutive, day_range. split.
  - intros d. rewrite in_map_iff. split.
    + intros (k & <- & Hk). apply in_seq in Hk. lia.
    + intros Hd. exists (Z.to_nat (d - lo)). split; [lia|]. apply in_seq. lia.
  - generalize (Z.to_nat (hi - lo + 1)) as n. intros n. generalize 0%nat as a.
    induction n as [|n IH]; intros a; cbn [seq map]; constructor; [apply IH|].
    apply Forall_forall. intros x Hx. apply in_map_iff in Hx. destruct Hx as (k & <- & Hk).
    apply in_seq in Hk. lia.
Qed.

Lemma stream_of_days st en tasks lo hi :
  stream_ok st en tasks lo hi (flat_map (day_evs st en tasks) (day_range lo (hi - lo + 1))).
Proof.
  exists (day_range lo (hi - lo + 1)), (map (day_evs st en tasks) (day_range lo (hi - lo + 1))).
  split; [apply day_range_consecutive|]. split.
  - induction (day_range lo (hi - lo + 1)) as [|d ds IH]; cbn [map]; constructor; [apply day_evs_ok|exact IH].
  - apply flat_map_concat_map.
Qed.

(** C09 *)
Lemma bounded_stream cfg es st e tasks fuel todays :
  es_start es = Some st -> es_end es = Some e -> es_need es = true ->
  tasks_of (cf_mp cfg) (es_daily es) tasks ->
  (Z.to_nat (dt_date e - dt_date st + 1) < fuel)%nat ->
  exists S es', stream_ok st (Some e) tasks (dt_date st) (dt_date e) S /\
    get_events fuel cfg todays es = GOk (answers (length todays) S, es').
Proof.
  intros Hst Hen Hn Ht Hf.
  exists (flat_map (day_evs st (Some e) tasks) (day_range (dt_date st) (dt_date e - dt_date st + 1))).
  destruct todays as [|t ts].
  { exists es. split; [apply stream_of_days|]. cbn. reflexivity. }
  pose proof (reset_fresh cfg t st es Hst Hn) as Hreset.
  rewrite (get_events_reset cfg t ts es _ fuel Hreset).
  set (es1 := es_set_gen _ _ _ _ es) in *.
  destruct (get_events_bounded cfg st tasks fuel (t :: ts) es1) as (es' & E).
  - repeat split; [exact Hst|exact Ht].
  - unfold bounded, es1; cbn. rewrite Hen. apply orb_true_r.
  - reflexivity.
  - unfold es1; cbn. rewrite Hen. cbn [days_of]. rewrite day_range_length. exact Hf.
  - exists es'. split; [apply stream_of_days|]. rewrite E.
    unfold pend, es1; cbn [es_events es_days es_end es_set_gen app]. rewrite Hen. reflexivity.
Qed.

(** no (day, task) instant outside those days lies in the window, if tasks stay
    within their day *)
Lemma no_instant_outside st e d off :
  0 <= off < DAY -> st <= d * DAY + off <= e -> dt_date st <= d <= dt_date e.
Proof.
  unfold dt_date, DAY. intros Ho Hw.
  split.
  - apply Z.lt_succ_r. apply Z.div_lt_upper_bound; lia.
  - apply Z.div_le_lower_bound; lia.
Qed.

(** C10: the first generation window of a live source *)
Lemma live_window cfg es st tasks fuel today todays :
  cf_hist cfg = false ->
  es_start es = Some st -> es_end es = None -> es_need es = true ->
  tasks_of (cf_mp cfg) (es_daily es) tasks ->
  (Z.to_nat (cf_count cfg) < fuel)%nat ->
  exists S, stream_ok st None tasks today (today + cf_count cfg - 1) S /\
    ((length (today :: todays) <= length S)%nat ->
     exists es', get_events fuel cfg (today :: todays) es =
       GOk (map Some (firstn (length (today :: todays)) S), es')).
Proof.
  intros Hh Hst Hen Hn Ht Hf.
  exists (flat_map (day_evs st None tasks) (day_range today (cf_count cfg))). split.
  - replace (cf_count cfg) with ((today + cf_count cfg - 1) - today + 1) at 2 by lia. apply stream_of_days.
  - intros Hl. pose proof (reset_fresh cfg today st es Hst Hn) as Hreset.
    rewrite (get_events_reset cfg today todays es _ fuel Hreset).
    set (es1 := es_set_gen _ _ _ _ es) in *.
    assert (Ep : pend st tasks es1 = flat_map (day_evs st None tasks) (day_range today (cf_count cfg))).
    { unfold pend, es1; cbn [es_events es_days es_end es_set_gen app]. rewrite Hen. cbn [days_of]. rewrite Hh. reflexivity. }
    destruct (get_events_prefix cfg st tasks fuel (today :: todays) es1) as (es' & E & _).
    + repeat split; [exact Hst|exact Ht].
    + unfold es1; cbn. rewrite Hen. cbn [days_of]. rewrite Hh, day_range_length. exact Hf.
    + rewrite Ep. exact Hl.
    + exists es'. rewrite E, Ep. reflexivity.
Qed.

(** C10: when the window is used up, generation starts again from the current day *)
Lemma live_refill cfg es st tasks fuel t :
  cf_hist cfg = false -> ready cfg st tasks es -> es_end es = None ->
  es_events es = [] -> es_days es = [] ->
  flat_map (day_evs st None tasks) (day_range t (cf_count cfg)) <> [] ->
  (Z.to_nat (cf_count cfg) + 1 < fuel)%nat ->
  exists es', get_next_event fuel cfg t es =
    GOk (hd_error (flat_map (day_evs st None tasks) (day_range t (cf_count cfg))), es').
Proof.
  intros Hh (Hst & Ht & Hn) Hen Hev Hd Hne Hf.
  unfold get_next_event, gen_events, reset_if_needed. rewrite Hn, Hev.
  destruct (day_range t (cf_count cfg)) as [|d ds] eqn:Er; [cbn in Hne; congruence|].
  assert (El : length (d :: ds) = Z.to_nat (cf_count cfg)) by (rewrite <- Er; apply day_range_length).
  destruct fuel as [|f]; [lia|]. cbn [gen_loop]. rewrite Hev, Hd.
  unfold get_days. rewrite Hh, Hen. cbn [orb]. rewrite Er.
  rewrite (add_daily_ok cfg es d st (es_daily es) tasks Hst Ht). cbn [app]. rewrite Hn, Hen.
  destruct (day_instants st None tasks d) as [|e evs] eqn:E.
  - cbn [flat_map] in Hne |- *. unfold day_evs at 1 in Hne. unfold day_evs at 1. rewrite E in Hne |- *. cbn [sort_by app] in Hne |- *.
    set (es2 := es_set_gen [] ds false true es).
    destruct (gen_loop_days cfg t st tasks ds f es2) as (es3 & G1 & G2 & G3 & G4 & G5 & G6 & G7).
    + exact Hst.
    + exact Ht.
    + reflexivity.
    + reflexivity.
    + cbn. rewrite Hen. exact Hne.
    + cbn [length] in El. lia.
    + rewrite G1. cbn [es_set_gen es_events]. unfold es2 in G7; cbn [es_end es_set_gen] in G7. rewrite Hen in G7.
      destruct (sort_by fst (es_events es3)) as [|x xs] eqn:Ex.
      * apply sort_nil in Ex. contradiction.
      * eexists. rewrite <- G7. reflexivity.
  - destruct f as [|f]; [cbn [length] in El; lia|]. cbn [gen_loop es_set_gen es_events].
    cbn [flat_map]. unfold day_evs at 1. rewrite E.
    destruct (sort_by fst (e :: evs)) as [|x xs] eqn:Ex.
    + apply sort_nil in Ex. discriminate.
    + eexists. reflexivity.
Qed.

(** C11, refutation: no task, live mode: the loop never ends *)
Lemma gen_loop_empty cfg : cf_hist cfg = false -> 0 < cf_count cfg ->
  forall fuel today es, es_end es = None -> es_daily es = [] -> es_events es = [] ->
  gen_loop fuel cfg today es = GFuel.
Proof.
  intros Hh Hc. induction fuel as [|f IH]; intros today es Hen Hd Hev; [reflexivity|].
  cbn [gen_loop]. rewrite Hev. destruct (es_days es) as [|d ds].
  - unfold get_days. rewrite Hh, Hen. cbn [orb].
    destruct (day_range today (cf_count cfg)) as [|d ds] eqn:Er.
    + apply (f_equal (@length Z)) in Er. rewrite day_range_length in Er. cbn in Er. lia.
    + rewrite Hd. cbn [add_daily_events]. apply IH; cbn; auto.
  - rewrite Hd. cbn [add_daily_events]. apply IH; cbn; auto.
Qed.

Lemma empty_live_diverges cfg es : cf_hist cfg = false -> 0 < cf_count cfg ->
  es_end es = None -> es_daily es = [] -> es_start es <> None ->
  (es_need es = false -> es_events es = []) ->
  forall fuel today, gen_events fuel cfg today es = GFuel.
Proof.
  intros Hh Hc Hen Hd Hst Hev fuel today. unfold gen_events.
  destruct (es_need es) eqn:Hn.
  - destruct (es_start es) as [st|] eqn:Es; [|congruence].
    rewrite (reset_fresh cfg today st es Es Hn). cbn [es_set_gen es_events].
    rewrite gen_loop_empty; auto.
  - unfold reset_if_needed. rewrite Hn, (Hev eq_refl). rewrite gen_loop_empty; auto.
Qed.
