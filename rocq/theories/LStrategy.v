(** Proofs about strategies (C11, C14-C16, C19, C55). *)
From Coq Require Import Permutation Sorted.
From Verif Require Import PyBase PyStr MTime MTimeExpr MEventSource SEvent SExpr LSort LStr
  LTimeExpr LEventSource LEventSource2 MBus SBus LBus MStrategy SStrategy.
Open Scope Z_scope.

(** ** formatting and parsing a time of day *)
Lemma two_check : forallb (fun z => (match py_int (two (Z.of_nat z)) with Some v => v =? Z.of_nat z | None => false end)
   && forallb is_digit (two (Z.of_nat z))) (seq 0 60) = true.
Proof. vm_compute. reflexivity. Qed.
Lemma two_ok z : 0 <= z < 60 -> py_int (two z) = Some z /\ Forall (fun c => is_digit c = true) (two z).
Proof.
  intros Hz. pose proof two_check as H. rewrite forallb_forall in H.
  specialize (H (Z.to_nat z)). rewrite Z2Nat.id in H by lia.
  assert (Hin : In (Z.to_nat z) (seq 0 60)) by (apply in_seq; lia). apply H in Hin. apply andb_prop in Hin as [H1 H2]. split.
  - destruct (py_int (two z)) as [v|]; [|discriminate]. apply Z.eqb_eq in H1. congruence.
  - rewrite forallb_forall in H2. apply Forall_forall. exact H2.
Qed.

Lemma fmt_split dt : split_on 58%N (fmt_hms dt) =
  [two (dt_time dt / US / 3600); two (dt_time dt / US / 60 mod 60); two (dt_time dt / US mod 60)].
Proof.
  assert (Hd : 0 <= dt_time dt < DAY) by (apply Z.mod_pos_bound; reflexivity).
  unfold fmt_hms. set (t := dt_time dt / US).
  assert (Ht : 0 <= t < 86400) by (unfold t, DAY, US in *; split; [apply Z.div_pos; lia|apply Z.div_lt_upper_bound; lia]).
  destruct (two_ok (t / 3600)) as [_ D1]. { split; [apply Z.div_pos; lia|apply Z.div_lt_upper_bound; lia]. }
  destruct (two_ok (t / 60 mod 60)) as [_ D2]. { apply Z.mod_pos_bound; lia. }
  destruct (two_ok (t mod 60)) as [_ D3]. { apply Z.mod_pos_bound; lia. }
  rewrite split_on_app by (apply digits_no_char; [reflexivity|exact D1]).
  rewrite split_on_app by (apply digits_no_char; [reflexivity|exact D2]).
  rewrite split_on_none by (apply digits_no_char; [reflexivity|exact D3]). reflexivity.
Qed.

Lemma clock_fmt dt : clock_time (fmt_hms dt) = Ok (dt_time dt / US * US).
Proof.
  assert (Hd : 0 <= dt_time dt < DAY) by (apply Z.mod_pos_bound; reflexivity).
  unfold clock_time. rewrite fmt_split. set (t := dt_time dt / US).
  assert (Ht : 0 <= t < 86400) by (unfold t, DAY, US in *; split; [apply Z.div_pos; lia|apply Z.div_lt_upper_bound; lia]).
  assert (H1 : 0 <= t / 3600 < 24) by (split; [apply Z.div_pos; lia|apply Z.div_lt_upper_bound; lia]).
  assert (H2 : 0 <= t / 60 mod 60 < 60) by (apply Z.mod_pos_bound; lia).
  assert (H3 : 0 <= t mod 60 < 60) by (apply Z.mod_pos_bound; lia).
  rewrite (proj1 (two_ok _ (conj (proj1 H1) (Z.lt_trans _ _ _ (proj2 H1) (eq_refl : 24 < 60))))).
  rewrite (proj1 (two_ok _ H2)), (proj1 (two_ok _ H3)).
  unfold mk_time.
  replace ((0 <=? t / 3600) && (t / 3600 <? 24) && (0 <=? t / 60 mod 60) && (t / 60 mod 60 <? 60) && (0 <=? t mod 60) && (t mod 60 <? 60)) with true.
  2:{ symmetry. repeat (apply andb_true_intro; split); rewrite ?Z.leb_le, ?Z.ltb_lt; lia. }
  f_equal. f_equal.
  pose proof (Z.div_mod t 60 ltac:(lia)) as E1. pose proof (Z.div_mod (t / 60) 60 ltac:(lia)) as E2.
  rewrite Z.div_div in E2 by lia. change (60 * 60) with 3600 in E2. lia.
Qed.

Lemma offset_fmt mp dt : expr_offset mp (fmt_hms dt) = Ok (dt_time dt / US * US).
Proof.
  unfold expr_offset. replace (has_char 58%N (fmt_hms dt)) with true; [apply clock_fmt|].
  symmetry. apply has_char_In. unfold fmt_hms. apply in_or_app. right. left. reflexivity.
Qed.

Lemma time_of_combine d t : 0 <= t < DAY -> dt_time (combine d t) = t /\ dt_date (combine d t) = d.
Proof.
  intros H. unfold dt_time, dt_date, combine. split.
  - rewrite Z.add_comm, Z_mod_plus_full. apply Z.mod_small. exact H.
  - rewrite Z.add_comm, Z_div_plus_full by discriminate. rewrite Z.div_small by exact H. lia.
Qed.

(** ** the stepping loop *)
Lemma step_loop_spec step : 0 < step -> forall fuel a b, Z.max 0 ((b - a) / step + 1) < Z.of_nat fuel ->
  exists l, step_loop fuel step a b = Some l /\ steps step a b l.
Proof.
  intros Hs. induction fuel as [|f IH]; intros a b Hf.
  - cbn in Hf. lia.
  - cbn [step_loop]. destruct (Z.leb_spec a b) as [H|H].
    + destruct (IH (a + step) b) as (l & El & Hsort & Hin).
      { replace (b - (a + step)) with ((b - a) + (-1) * step) by lia. rewrite Z_div_plus_full by lia.
        assert (0 <= (b - a) / step) by (apply Z.div_pos; lia). lia. }
      exists (a :: l). rewrite El. split; [reflexivity|]. split.
      * constructor; [exact Hsort|]. apply Forall_forall. intros t Ht. apply Hin in Ht as (k & Hk & -> & _). nia.
      * intros t. split.
        -- intros [<-|Ht]; [exists 0; lia|]. apply Hin in Ht as (k & Hk & -> & Hb). exists (k + 1). split; [lia|]. split; lia.
        -- intros (k & Hk & -> & Hb). destruct (Z.eq_dec k 0) as [->|Hk0]; [left; lia|]. right. apply Hin. exists (k - 1). split; [lia|]. split; lia.
    + exists []. split; [reflexivity|]. split; [constructor|]. intros t. split; [intros []|]. intros (k & Hk & -> & Hb). nia.
Qed.

Lemma step_loop_shift step c : forall fuel a b,
  step_loop fuel step (a + c) (b + c) = option_map (map (fun x => x + c)) (step_loop fuel step a b).
Proof.
  induction fuel as [|f IH]; intros a b; cbn [step_loop]; [reflexivity|].
  replace (a + c <=? b + c) with (a <=? b) by (destruct (Z.leb_spec a b), (Z.leb_spec (a + c) (b + c)); lia).
  destruct (a <=? b); [|reflexivity]. replace (a + c + step) with (a + step + c) by lia. rewrite IH.
  destruct (step_loop f step (a + step) b); reflexivity.
Qed.

Definition trunc (t : Z) : Z := t / US * US.

(** entries of a list of periods: the truncated instants, in order *)
Definition entries_for (mp : periods) (entries : list str) (ts : list Z) : Prop :=
  Forall2 (fun e t => expr_offset mp e = Ok t) entries ts.

Lemma entries_app mp e1 t1 e2 t2 : entries_for mp e1 t1 -> entries_for mp e2 t2 -> entries_for mp (e1 ++ e2) (t1 ++ t2).
Proof. apply Forall2_app. Qed.

Lemma period_entries_ok mp fuel step today a b : 0 < step -> tod_ok a -> tod_ok b ->
  Z.max 0 ((b - a) / step + 1) < Z.of_nat fuel ->
  exists l es, period_entries fuel step today [TTime a; TTime b] = GOk es /\ steps step a b l /\
    entries_for mp es (map trunc l).
Proof.
  intros Hs Ha Hb Hf. destruct (step_loop_spec step Hs fuel a b Hf) as (l & El & Hl).
  exists l, (map fmt_hms (map (fun x => x + today * DAY) l)).
  split; [|split; [exact Hl|]].
  - unfold period_entries, combine. rewrite !(Z.add_comm (today * DAY)), step_loop_shift, El. reflexivity.
  - unfold entries_for. destruct Hl as [_ Hin].
    assert (Hr : Forall (fun t => 0 <= t < DAY) l).
    { apply Forall_forall. intros t Ht. apply Hin in Ht as (k & Hk & -> & Hle). unfold tod_ok in *. nia. }
    clear El Hin. induction Hr as [|t l Ht Hr IH]; cbn [map]; constructor; [|exact IH].
    rewrite offset_fmt. rewrite Z.add_comm. change (today * DAY + t) with (combine today t).
    destruct (time_of_combine today t Ht) as [-> _]. reflexivity.
Qed.

Lemma periods_entries_ok mp fuel step today : 0 < step -> forall ps,
  Forall (fun p => tod_ok (fst p) /\ tod_ok (snd p) /\ Z.max 0 ((snd p - fst p) / step + 1) < Z.of_nat fuel) ps ->
  exists ls es, periods_entries fuel step today (raw_of ps) = GOk es /\
    Forall2 (fun p l => steps step (fst p) (snd p) l) ps ls /\ entries_for mp es (map trunc (concat ls)).
Proof.
  intros Hs. induction ps as [|[a b] ps IH]; intros HF.
  - exists [], []. split; [reflexivity|]. split; constructor.
  - inversion HF as [|? ? (Ha & Hb & Hf) HF']; subst. cbn [fst snd] in *.
    destruct (period_entries_ok mp fuel step today a b Hs Ha Hb Hf) as (l & es & E1 & Hl & He).
    destruct (IH HF') as (ls & es' & E2 & Hls & He').
    exists (l :: ls), (es ++ es'). cbn [raw_of map fst snd]. change (map (fun p : Z * Z => [TTime (fst p); TTime (snd p)]) ps) with (raw_of ps).
    cbn [periods_entries]. rewrite E1, E2. split; [reflexivity|]. split; [constructor; assumption|].
    cbn [concat]. rewrite map_app. apply entries_app; assumption.
Qed.

Lemma minute_fuel a b fuel : tod_ok a -> tod_ok b -> (1441 <= fuel)%nat -> Z.max 0 ((b - a) / MINUTE + 1) < Z.of_nat fuel.
Proof.
  intros Ha Hb Hf. unfold tod_ok, MINUTE, DAY, US in *.
  assert ((b - a) / (60 * 1000000) < 1440) by (apply Z.div_lt_upper_bound; lia). lia.
Qed.

Lemma add_entries_daily c l : forall es, es_daily (add_entries c l es) = es_daily es ++ map (fun e => (e, c)) l.
Proof.
  induction l as [|e l IH]; intros es; cbn [add_entries fold_left map]; [rewrite app_nil_r; reflexivity|].
  change (fold_left (fun es e => es_add_daily c e es) l (es_add_daily c e es)) with (add_entries c l (es_add_daily c e es)).
  rewrite IH. cbn. rewrite <- app_assoc. reflexivity.
Qed.
Lemma add_entries_fields c l : forall es, es_start (add_entries c l es) = es_start es /\ es_end (add_entries c l es) = es_end es /\
  es_events (add_entries c l es) = es_events es /\ es_cbs (add_entries c l es) = es_cbs es /\
  es_need (add_entries c l es) = match l with [] => es_need es | _ => true end.
Proof.
  induction l as [|e l IH]; intros es; cbn [add_entries fold_left]; [repeat split; reflexivity|].
  change (fold_left (fun es e => es_add_daily c e es) l (es_add_daily c e es)) with (add_entries c l (es_add_daily c e es)).
  destruct (IH (es_add_daily c e es)) as (H1 & H2 & H3 & H4 & H5). rewrite H1, H2, H3, H4, H5. cbn. destruct l; repeat split; reflexivity.
Qed.

Lemma entries_tasks mp c es : forall l ts, entries_for mp l ts -> es_daily es = [] ->
  tasks_of mp (es_daily (add_entries c l es)) (map (fun t => (t, c)) ts).
Proof.
  intros l ts He H0. rewrite add_entries_daily, H0. cbn [app]. unfold tasks_of.
  induction He as [|e t l ts H He IH]; cbn [map]; constructor; [|exact IH]. cbn. split; [exact H|reflexivity].
Qed.

Lemma trunc_whole t : t mod US = 0 -> trunc t = t.
Proof. intros H. unfold trunc. pose proof (Z.div_mod t US ltac:(discriminate)). lia. Qed.
Lemma steps_whole step a b l : a mod US = 0 -> step mod US = 0 -> steps step a b l -> map trunc l = l.
Proof.
  intros Ha Hs [_ Hin]. transitivity (map (fun x : Z => x) l); [|apply map_id]. apply map_ext_in. intros t Ht.
  apply Hin in Ht as (k & _ & -> & _). apply trunc_whole. rewrite Z.add_mod, Z.mul_mod, Hs, Ha by discriminate. rewrite Z.mul_0_r. reflexivity.
Qed.

Lemma es_setup_live cfg now st : cf_hist cfg = false ->
  exists es0, es_setup cfg now (es_new (Some st) None) = Ok es0 /\ es_start es0 = Some now /\ es_end es0 = None /\
    es_daily es0 = [] /\ es_events es0 = [] /\ es_cbs es0 = [].
Proof. intros H. unfold es_setup, reset_if_needed, get_days. cbn. rewrite H. cbn. eexists. repeat split. Qed.

(** C14: the source built for an every_minute entry *)
Definition mp_in_force (sc : scfg) (s : strat) : rawmp := match so_mp (st_opts s) with Some p => p | None => sc_mp sc end.

Lemma every_minute_source fuel cfg sc st now d s ps :
  cf_hist cfg = false -> d_time d = lit "every_minute" -> (1441 <= fuel)%nat ->
  mp_in_force sc s = raw_of ps -> Forall (fun p => tod_ok (fst p) /\ tod_ok (snd p)) ps ->
  exists s' es ls,
    schedule_one fuel cfg sc st None now d s = GOk s' /\ st_srcs s' = st_srcs s ++ [es] /\
    es_start es = Some now /\ es_end es = None /\ (concat ls <> [] -> es_need es = true) /\ es_cbs es = [] /\
    Forall2 (fun p l => steps MINUTE (fst p) (snd p) l) ps ls /\
    tasks_of (cf_mp cfg) (es_daily es) (map (fun t => (t, task_cls (d_name d) (st_count s) 1)) (map trunc (concat ls))).
Proof.
  intros Hh Hd Hf Hmp Hps.
  destruct (es_setup_live cfg now st Hh) as (es0 & E0 & H1 & H2 & H3 & H4 & H5).
  destruct (periods_entries_ok (cf_mp cfg) fuel MINUTE (dt_date now) ltac:(reflexivity) ps) as (ls & ent & E1 & Hls & He).
  { eapply Forall_impl; [|exact Hps]. intros p [Ha Hb]. split; [exact Ha|]. split; [exact Hb|]. apply minute_fuel; assumption. }
  set (c := task_cls (d_name d) (st_count s) 1).
  destruct (add_entries_fields c ent es0) as (F1 & F2 & F3 & F4 & F5).
  eexists _, (add_entries c ent es0), ls. split.
  { unfold schedule_one. rewrite E0, Hd. change (str_eqb (lit "every_minute") (lit "every_minute")) with true. cbn match.
    unfold mp_in_force in Hmp. rewrite Hmp, E1. reflexivity. }
  split; [reflexivity|]. rewrite F1, F2, F4. split; [exact H1|]. split; [exact H2|]. split.
  { intros Hne. rewrite F5. destruct ent; [|reflexivity]. inversion He as [E|]; subst. destruct (concat ls); [congruence|discriminate]. }
  split; [exact H5|]. split; [exact Hls|]. apply entries_tasks; [exact He|exact H3].
Qed.

Lemma concat_trunc step ps ls : step mod US = 0 -> Forall (fun p => fst p mod US = 0) ps ->
  Forall2 (fun p l => steps step (fst p) (snd p) l) ps ls -> map trunc (concat ls) = concat ls.
Proof.
  intros Hs Hps HF. induction HF as [|p l ps ls Hl HF IH]; [reflexivity|]. inversion Hps; subst.
  cbn [concat]. rewrite map_app, (steps_whole step (fst p) (snd p) l) by assumption. rewrite IH by assumption. reflexivity.
Qed.

Lemma every_minute_whole fuel cfg sc st now d s ps :
  cf_hist cfg = false -> d_time d = lit "every_minute" -> (1441 <= fuel)%nat ->
  mp_in_force sc s = raw_of ps -> Forall (fun p => tod_ok (fst p) /\ tod_ok (snd p)) ps ->
  Forall (fun p => fst p mod US = 0) ps ->
  exists s' es ls,
    schedule_one fuel cfg sc st None now d s = GOk s' /\ st_srcs s' = st_srcs s ++ [es] /\
    es_start es = Some now /\ es_end es = None /\ (concat ls <> [] -> es_need es = true) /\
    Forall2 (fun p l => steps MINUTE (fst p) (snd p) l) ps ls /\
    tasks_of (cf_mp cfg) (es_daily es) (map (fun t => (t, task_cls (d_name d) (st_count s) 1)) (concat ls)).
Proof.
  intros Hh Hd Hf Hmp Hps Hw. destruct (every_minute_source fuel cfg sc st now d s ps Hh Hd Hf Hmp Hps) as (s' & es & ls & H1 & H2 & H3 & H4 & H5 & H5' & H6 & H7).
  rewrite (concat_trunc MINUTE ps ls) in H7 by (assumption || reflexivity). exists s', es, ls. repeat split; assumption.
Qed.

(** ... hence its events over the generation window *)
Lemma every_minute_events fuel cfg sc st now d s ps today todays :
  cf_hist cfg = false -> d_time d = lit "every_minute" -> (1441 <= fuel)%nat -> (Z.to_nat (cf_count cfg) < fuel)%nat ->
  mp_in_force sc s = raw_of ps -> Forall (fun p => tod_ok (fst p) /\ tod_ok (snd p)) ps ->
  Forall (fun p => fst p mod US = 0) ps -> Exists (fun p => fst p <= snd p) ps ->
  exists s' es ls S,
    schedule_one fuel cfg sc st None now d s = GOk s' /\ st_srcs s' = st_srcs s ++ [es] /\
    Forall2 (fun p l => steps MINUTE (fst p) (snd p) l) ps ls /\
    stream_ok now None (map (fun t => (t, task_cls (d_name d) (st_count s) 1)) (concat ls)) today (today + cf_count cfg - 1) S /\
    ((length (today :: todays) <= length S)%nat ->
       exists es', get_events fuel cfg (today :: todays) es = GOk (map Some (firstn (length (today :: todays)) S), es')).
Proof.
  intros Hh Hd Hf Hf2 Hmp Hps Hw Hex.
  destruct (every_minute_whole fuel cfg sc st now d s ps Hh Hd Hf Hmp Hps Hw) as (s' & es & ls & H1 & H2 & H3 & H4 & H5 & H6 & H7).
  destruct (live_window cfg es now (map (fun t => (t, task_cls (d_name d) (st_count s) 1)) (concat ls)) fuel today todays Hh H3 H4) as (S & HS1 & HS2).
  - apply H5. clear - Hex H6. induction H6 as [|p l ps ls Hl HF IH]; [inversion Hex|]. cbn [concat].
    inversion Hex as [? ? Hp|? ? Hp]; subst.
    + assert (Hin : In (fst p) l) by (apply (proj2 Hl); exists 0; lia). destruct l; [destruct Hin|discriminate].
    + intros E. apply app_eq_nil in E as [_ E]. exact (IH Hp E).
  - exact H7.
  - exact Hf2.
  - exists s', es, ls, S. repeat split; assumption.
Qed.

(** ** C15: the scheduling API is closed outside process_initialize *)
Section API.
  Variables (fuel : nat) (cfg : escfg) (sc : scfg) (st : Z) (en : option Z).
  Notation ustep := (ustep fuel sc st en).
  Notation uexec := (uexec fuel sc st en).
  Notation setup := (setup fuel cfg sc st en).

  (** everything set_options leaves alone *)
  Lemma set_options_frame k e s :
    let s' := snd (set_options fuel sc st en k e s) in
    st_allowed s' = st_allowed s /\ st_sched s' = st_sched s /\ st_ns s' = st_ns s /\ st_count s' = st_count s.
  Proof.
    unfold set_options, setup_account, setup_timer.
    destruct (st_allowed s) eqn:Ea; cbn [negb snd]; [|repeat split; assumption || reflexivity].
    destruct (parse_opts k) as [o|x]; [|cbn; repeat split; reflexivity || assumption].
    destruct (e_dir e); [|cbn; repeat split; assumption || reflexivity].
    destruct (match so_use o with Some b => b | None => sc_setup sc end); [|cbn; repeat split; assumption || reflexivity].
    destruct (so_acct o); cbn [negb]; [|cbn; repeat split; assumption || reflexivity].
    destruct (e_load e); [|cbn; repeat split; assumption || reflexivity].
    destruct (e_gate e); [|cbn; repeat split; assumption || reflexivity].
    destruct (need_bal sc o || need_ord sc o); [|cbn; repeat split; assumption || reflexivity].
    destruct (sync_entries fuel sc (e_now e) o); cbn; repeat split; assumption || reflexivity.
  Qed.

  Lemma ustep_allowed c s : st_allowed (snd (ustep c s)) = st_allowed s.
  Proof.
    destruct c as [f t|k e|n o]; cbn [MStrategy.ustep].
    - unfold run_daily. destruct (f_name f); [|reflexivity]. destruct (st_allowed s) eqn:E; cbn [negb snd]; [|assumption].
      destruct (f_callable f); cbn [negb]; [cbn; assumption|cbn; assumption].
    - apply set_options_frame.
    - reflexivity.
  Qed.

  Definition desc_of (a : str * nat * str) : desc := Desc (fst (fst a)) (time_dict (snd a)).

  Lemma ustep_sched c s : st_allowed s = true -> st_sched (snd (ustep c s)) = st_sched s ++ map desc_of (asked [c]).
  Proof.
    intros Ha. destruct c as [f t|k e|n o]; cbn [MStrategy.ustep].
    - unfold run_daily, asked. cbn [flat_map]. destruct (f_name f) as [n|]; [|cbn; rewrite app_nil_r; reflexivity]. rewrite Ha. cbn [negb].
      destruct (f_callable f); cbn [negb]; cbn; [reflexivity|rewrite app_nil_r; reflexivity].
    - cbn. rewrite app_nil_r. apply set_options_frame.
    - cbn. rewrite app_nil_r. reflexivity.
  Qed.

  Lemma asked_cons c cs : asked (c :: cs) = asked [c] ++ asked cs.
  Proof. unfold asked. cbn [flat_map]. rewrite app_nil_r. reflexivity. Qed.

  Lemma uexec_sched cs : forall s, st_allowed s = true ->
    st_allowed (uexec cs s) = true /\ st_sched (uexec cs s) = st_sched s ++ map desc_of (asked cs).
  Proof.
    induction cs as [|c cs IH]; intros s Ha; cbn [MStrategy.uexec]; [split; [assumption|symmetry; apply app_nil_r]|].
    destruct (IH (snd (ustep c s))) as [H1 H2]; [rewrite ustep_allowed; assumption|]. split; [exact H1|].
    rewrite H2, ustep_sched by assumption. rewrite (asked_cons c cs), map_app, app_assoc. reflexivity.
  Qed.

  Lemma schedule_one_frame now d s s' : schedule_one fuel cfg sc st en now d s = GOk s' ->
    st_allowed s' = st_allowed s /\ st_sched s' = st_sched s /\ st_ns s' = st_ns s /\ st_opts s' = st_opts s /\
    st_count s' = S (st_count s) /\
    st_bus s' = register (task_cls (d_name d) (st_count s) (if str_eqb (d_time d) (lit "every_minute") then 1 else 0))
                  (CbUser (st_count s) (dget (d_name d) (st_ns s))) 0 (st_bus s).
  Proof.
    unfold schedule_one. destruct (es_setup _ _ _); [|discriminate].
    destruct (if str_eqb (d_time d) (lit "every_minute") then _ else _); try discriminate.
    intros H. assert (E : forall a b : strat, GOk a = GOk b -> a = b) by (clear; intros a b E; injection E; auto).
    apply E in H. subst s'. repeat split; reflexivity.
  Qed.

  Lemma schedule_descs_frame now ds : forall s s', schedule_descs fuel cfg sc st en now ds s = GOk s' ->
    st_allowed s' = st_allowed s /\ st_sched s' = st_sched s /\ st_opts s' = st_opts s /\ st_ns s' = st_ns s.
  Proof.
    induction ds as [|d ds IH]; intros s s'; cbn [schedule_descs]; [intros H; injection H as <-; repeat split; reflexivity|].
    destruct (schedule_one fuel cfg sc st en (now (st_count s)) d s) as [s1|x|] eqn:E1; try discriminate. intros H.
    destruct (IH _ _ H) as (H1 & H2 & H3 & H4). destruct (schedule_one_frame _ _ _ _ E1) as (F1 & F2 & F3 & F4 & F5 & F6). repeat split; congruence.
  Qed.

  Lemma time_dict_stored t : stored t (time_dict t).
  Proof.
    unfold time_dict. destruct (str_eqb_spec t (lit "open")) as [->|N1]; [constructor|]. destruct (str_eqb_spec t (lit "close")) as [->|N2]; [constructor|].
    destruct (str_eqb_spec t (lit "before_open")) as [->|N3]; [constructor|]. destruct (str_eqb_spec t (lit "after_close")) as [->|N4]; [constructor|].
    constructor. intros [H|[H|[H|[H|[]]]]]; congruence.
  Qed.

  (** what setup leaves behind, whatever happens *)
  Lemma setup_sched now calls fin ns :
    st_sched (snd (setup now true calls fin (strat_new ns))) = map desc_of (asked calls).
  Proof.
    unfold MStrategy.setup. destruct (uexec_sched calls (set_allowed true (make_apis sc (strat_new ns))) eq_refl) as [H1 H2].
    destruct fin; [exact H2|]. unfold schedule_all_tasks. set (s3 := set_allowed false _).
    assert (H3 : st_sched s3 = map desc_of (asked calls)) by exact H2.
    destruct (schedule_descs fuel cfg sc st en now (st_sched s3) s3) as [s4|x|] eqn:E; cbn [snd]; [|exact H3|exact H3].
    rewrite (proj1 (proj2 (schedule_descs_frame _ _ _ _ E))). exact H3.
  Qed.
  Lemma setup_sched_stored now calls fin ns :
    Forall2 (fun a d => d_name d = fst (fst a) /\ stored (snd a) (d_time d))
      (asked calls) (st_sched (snd (setup now true calls fin (strat_new ns)))).
  Proof.
    rewrite setup_sched. induction (asked calls) as [|a l IH]; cbn [map]; constructor; [|exact IH]. split; [reflexivity|apply time_dict_stored].
  Qed.
  Lemma setup_closed now has calls s : st_allowed s = false -> st_allowed (snd (setup now has calls None s)) = false.
  Proof.
    intros Ha. unfold MStrategy.setup. destruct has; [|exact Ha]. unfold schedule_all_tasks. set (s3 := set_allowed false _).
    destruct (schedule_descs fuel cfg sc st en now (st_sched s3) s3) as [s4|x|] eqn:E; cbn [snd]; try reflexivity.
    rewrite (proj1 (schedule_descs_frame _ _ _ _ E)). reflexivity.
  Qed.

  Lemma closed_step c s : st_allowed s = false -> guarded c ->
    (forall f t, c = URun f t -> f_name f <> None) ->
    ustep c s = (GErr InvalidCall, s).
  Proof.
    intros Ha Hg Hn. destruct c as [f t|k e|n o]; [| |destruct Hg]; cbn [MStrategy.ustep].
    - unfold run_daily. specialize (Hn f t eq_refl). destruct (f_name f); [|congruence]. rewrite Ha. reflexivity.
    - unfold set_options. rewrite Ha. reflexivity.
  Qed.

  (** nothing but the module namespace can change any more *)
  Lemma closed_exec cs : forall s, st_allowed s = false -> exists ns, uexec cs s = set_ns ns s.
  Proof.
    induction cs as [|c cs IH]; intros s Ha; [exists (st_ns s); destruct s; reflexivity|]. cbn [MStrategy.uexec].
    assert (Hs : exists ns, snd (ustep c s) = set_ns ns s).
    { destruct c as [f t|k e|n o]; cbn [MStrategy.ustep].
      - unfold run_daily. exists (st_ns s). destruct (f_name f); [|destruct s; reflexivity]. rewrite Ha. destruct s; reflexivity.
      - unfold set_options. rewrite Ha. exists (st_ns s). destruct s; reflexivity.
      - exists (dset n o (st_ns s)). reflexivity. }
    destruct Hs as (ns & ->). destruct (IH (set_ns ns s) Ha) as (ns' & ->). exists ns'. reflexivity.
  Qed.

  (** ** C16: class of the k-th entry *)
  Definition prio_of (d : desc) : Z := if str_eqb (d_time d) (lit "every_minute") then 1 else 0.
  Definition cls_of (k : nat) (d : desc) : ecls := task_cls (d_name d) k (prio_of d).

  (** registrations made for entries numbered from [k] *)
  Fixpoint task_regs (ns : dict str obj) (k : nat) (ds : list desc) : list (bop ecls cb) :=
    match ds with
    | [] => []
    | d :: ds' => Reg (cls_of k d) (CbUser k (dget (d_name d) ns)) 0 :: task_regs ns (S k) ds'
    end.

  Lemma schedule_descs_bus now ds : forall s s', schedule_descs fuel cfg sc st en now ds s = GOk s' ->
    st_bus s' = fold_left b_step (task_regs (st_ns s) (st_count s) ds) (st_bus s).
  Proof.
    induction ds as [|d ds IH]; intros s s'; cbn [schedule_descs]; [intros H; injection H as <-; reflexivity|].
    destruct (schedule_one fuel cfg sc st en (now (st_count s)) d s) as [s1|x|] eqn:E1; try discriminate. intros H.
    destruct (schedule_one_frame _ _ _ _ E1) as (F1 & F2 & F3 & F4 & F5 & F6).
    rewrite (IH _ _ H), F3, F5, F6. reflexivity.
  Qed.

  Definition is_sync (o : bop ecls cb) : Prop := exists c p, o = Reg sync_cls c p /\ ((exists i, c = CbBal i) \/ (exists i, c = CbOrd i)).

  Lemma set_options_bus k e s : exists ops, Forall is_sync ops /\
    st_bus (snd (set_options fuel sc st en k e s)) = fold_left b_step ops (st_bus s).
  Proof.
    unfold set_options, setup_account, setup_timer.
    destruct (negb (st_allowed s)); [exists []; split; [constructor|reflexivity]|].
    destruct (parse_opts k) as [o|x]; [|exists []; split; [constructor|reflexivity]].
    destruct (e_dir e); [|exists []; split; [constructor|reflexivity]].
    destruct (match so_use o with Some b => b | None => sc_setup sc end); [|exists []; split; [constructor|reflexivity]].
    destruct (negb (so_acct o)); [exists []; split; [constructor|reflexivity]|].
    destruct (e_load e); [|exists []; split; [constructor|reflexivity]].
    destruct (e_gate e); [|exists []; split; [constructor|reflexivity]].
    destruct (need_bal sc o || need_ord sc o); [|exists []; split; [constructor|reflexivity]].
    destruct (sync_entries fuel sc (e_now e) o); try (exists []; split; [constructor|reflexivity]).
    exists ((if need_bal sc o then [Reg sync_cls (CbBal (st_nacc s)) 0] else []) ++ (if need_ord sc o then [Reg sync_cls (CbOrd (st_nacc s)) 0] else [])).
    split.
    - apply Forall_app. split; [destruct (need_bal sc o)|destruct (need_ord sc o)]; constructor; try constructor;
        eexists _, _; (split; [reflexivity|]); [left|right]; eexists; reflexivity.
    - destruct (need_bal sc o), (need_ord sc o); reflexivity.
  Qed.

  Lemma uexec_bus cs : forall s, exists ops, Forall is_sync ops /\ st_bus (uexec cs s) = fold_left b_step ops (st_bus s).
  Proof.
    induction cs as [|c cs IH]; intros s; [exists []; split; [constructor|reflexivity]|]. cbn [MStrategy.uexec].
    assert (Hs : exists ops, Forall is_sync ops /\ st_bus (snd (ustep c s)) = fold_left b_step ops (st_bus s)).
    { destruct c as [f t|k e|n o]; cbn [MStrategy.ustep].
      - exists []. split; [constructor|]. unfold run_daily. destruct (f_name f); [|reflexivity].
        destruct (negb (st_allowed s)); [reflexivity|]. destruct (negb (f_callable f)); reflexivity.
      - apply set_options_bus.
      - exists []. split; [constructor|reflexivity]. }
    destruct Hs as (o1 & F1 & E1). destruct (IH (snd (ustep c s))) as (o2 & F2 & E2).
    exists (o1 ++ o2). split; [apply Forall_app; auto|]. rewrite E2, E1, fold_left_app. reflexivity.
  Qed.

  Lemma uexec_count cs : forall s, st_count (uexec cs s) = st_count s.
  Proof.
    induction cs as [|c cs IH]; intros s; [reflexivity|]. cbn [MStrategy.uexec]. rewrite IH.
    destruct c as [f t|k e|n o]; cbn [MStrategy.ustep].
    - unfold run_daily. destruct (f_name f); [|reflexivity]. destruct (negb (st_allowed s)); [reflexivity|]. destruct (negb (f_callable f)); reflexivity.
    - apply set_options_frame.
    - reflexivity.
  Qed.

  (** class names of different entries differ: the count is the last '_' segment *)
  Lemma cls_of_inj k d k' d' : cls_of k d = cls_of k' d' -> k = k'.
  Proof.
    unfold cls_of, task_cls. intros H. assert (H' := f_equal ec_name H). cbn [ec_name] in H'. clear H.
    rewrite !app_assoc in H'. change (lit "_") with [95%N] in H'. rewrite <- !app_assoc in H'. rewrite !(app_assoc _ (d_name _)) in H'.
    cbn [app] in H'. apply app_sep_last in H'; [|apply str_of_N_no_char; reflexivity|apply str_of_N_no_char; reflexivity].
    destruct H' as [_ H']. apply str_of_N_inj in H'. lia.
  Qed.
  Lemma cls_of_sync k d : cls_of k d <> sync_cls.
  Proof. unfold cls_of, task_cls, sync_cls. intros H. apply (f_equal ec_name) in H. cbn in H. discriminate H. Qed.

  Lemma task_regs_nth ns ds : forall k i d, nth_error ds i = Some d ->
    exists a b, task_regs ns k ds = a ++ Reg (cls_of (k + i) d) (CbUser (k + i) (dget (d_name d) ns)) 0 :: b /\
      (forall o, In o a \/ In o b -> exists k' d' c p, o = Reg (cls_of k' d') c p /\ k' <> (k + i)%nat).
  Proof.
    assert (Hgen : forall ds k o, In o (task_regs ns k ds) -> exists k' d' c p, o = Reg (cls_of k' d') c p /\ (k <= k')%nat).
    { clear. induction ds as [|d ds IH]; intros k o; cbn [task_regs]; [intros []|]. intros [<-|Hin].
      - exists k, d, (CbUser k (dget (d_name d) ns)), 0. split; [reflexivity|lia].
      - destruct (IH _ _ Hin) as (k' & d' & c & p & -> & Hk). exists k', d', c, p. split; [reflexivity|lia]. }
    induction ds as [|d0 ds IH]; intros k i d; destruct i as [|i]; cbn [nth_error]; try discriminate.
    - intros H; injection H as ->. exists [], (task_regs ns (S k) ds). rewrite Nat.add_0_r. split; [reflexivity|].
      intros o [[]|Hin]. destruct (Hgen _ _ _ Hin) as (k' & d' & c & p & -> & Hk). exists k', d', c, p. split; [reflexivity|lia].
    - intros H. destruct (IH (S k) i d H) as (a & b & E & Hab). cbn [task_regs]. rewrite E.
      replace (k + S i)%nat with (S k + i)%nat by lia.
      exists (Reg (cls_of k d0) (CbUser k (dget (d_name d0) ns)) 0 :: a), b. split; [reflexivity|].
      intros o [[<-|Hin]|Hin]; [|apply Hab; left; exact Hin|apply Hab; right; exact Hin].
      eexists k, d0, _, _. split; [reflexivity|lia].
  Qed.

  Lemma live_no_unreg (ops : list (bop ecls cb)) : forall l,
    (forall o, In o ops -> exists k c p, o = Reg k c p) ->
    fold_left live_step ops l = l ++ flat_map (fun o => match o with Reg k c p => [En k p c] | _ => [] end) ops.
  Proof.
    induction ops as [|o ops IH]; intros l H; cbn [fold_left flat_map]; [symmetry; apply app_nil_r|].
    destruct (H o (or_introl eq_refl)) as (k & c & p & ->). cbn [live_step]. rewrite IH by (intros o Ho; apply H; right; exact Ho).
    cbn [app]. rewrite <- app_assoc. reflexivity.
  Qed.

  Lemma of_class_none k (ops : list (bop ecls cb)) :
    (forall o, In o ops -> exists k' c p, o = Reg k' c p /\ k' <> k) ->
    of_class k (flat_map (fun o => match o with Reg k c p => [En k p c] | _ => [] end) ops) = [].
  Proof.
    induction ops as [|o ops IH]; intros H; [reflexivity|]. cbn [flat_map]. unfold of_class. rewrite filter_app.
    destruct (H o (or_introl eq_refl)) as (k' & c & p & -> & Hne). cbn [filter en_cls].
    change (filter (fun x => eqb k (en_cls x))) with (@of_class ecls cb _ k) in *.
    destruct (eqb_spec k k') as [->|_]; [congruence|]. cbn [app]. apply IH. intros o Ho; apply H; right; exact Ho.
  Qed.

  Lemma delivers_one {K C} (x : entry K C) r : delivers [x] r -> r = [en_cb x].
  Proof.
    intros (L & -> & HP & _). apply Permutation.Permutation_sym, Permutation.Permutation_length_1_inv in HP. subst L. reflexivity.
  Qed.

  (** firing the class of the k-th entry calls that entry's closure, once, and nothing else *)
  Lemma entry_calls now calls ns s4 : setup now true calls None (strat_new ns) = (GOk tt, s4) ->
    forall k d, nth_error (st_sched s4) k = Some d ->
      MBus.calls inst (cls_of k d) (st_bus s4) = [CbUser k (dget (d_name d) (st_ns s4))].
  Proof.
    intros Hs k d Hk. unfold MStrategy.setup, schedule_all_tasks in Hs.
    set (s1 := set_allowed true (make_apis sc (strat_new ns))) in *.
    set (s3 := set_allowed false (uexec calls s1)) in *.
    destruct (schedule_descs fuel cfg sc st en now (st_sched s3) s3) as [s5|x|] eqn:E; try discriminate.
    assert (Ep : forall a b : gres unit * strat, a = b -> snd a = snd b) by (intros a b ->; reflexivity).
    apply Ep in Hs. cbn [snd] in Hs. subst s5. clear Ep.
    destruct (uexec_bus calls s1) as (o1 & F1 & E1).
    pose proof (schedule_descs_bus _ _ _ _ E) as E2.
    destruct (schedule_descs_frame _ _ _ _ E) as (_ & G2 & _ & G4).
    assert (Hcount : st_count s3 = 0%nat) by (unfold s3; cbn; rewrite uexec_count; reflexivity).
    rewrite G2 in Hk. rewrite Hcount in E2. change (st_bus s3) with (st_bus (uexec calls s1)) in E2.
    destruct (task_regs_nth (st_ns s3) _ 0 k d Hk) as (a & b & Er & Hab). cbn [Nat.add] in *.
    assert (Hb : st_bus s4 = b_run (o1 ++ task_regs (st_ns s3) 0 (st_sched s3))).
    { unfold b_run. rewrite fold_left_app, E2, E1. reflexivity. }
    rewrite G4, Hb, Er. set (ops := o1 ++ a ++ Reg (cls_of k d) (CbUser k (dget (d_name d) (st_ns s3))) 0 :: b).
    pose proof (delivery_one inst ops (cls_of k d) (cls_of k d)) as D.
    assert (HD : delivers (of_class (cls_of k d) (live ops)) (MBus.calls inst (cls_of k d) (b_run ops))).
    { apply D.
      - unfold inst. destruct (eqb_spec (cls_of k d) (cls_of k d)); [reflexivity|congruence].
      - intros k' c p _ Hi. unfold inst in Hi. destruct (eqb_spec (cls_of k d) k'); [auto|discriminate]. }
    assert (HL : of_class (cls_of k d) (live ops) = [En (cls_of k d) 0 (CbUser k (dget (d_name d) (st_ns s3)))]).
    { assert (Hs1 : forall o, In o o1 -> exists k' c p, o = Reg k' c p /\ k' <> cls_of k d).
      { intros o Ho. apply (proj1 (Forall_forall _ _) F1) in Ho as (c & p & -> & _). exists sync_cls, c, p. split; [reflexivity|]. intros Hc; symmetry in Hc; exact (cls_of_sync _ _ Hc). }
      assert (Hs2 : forall o, In o a \/ In o b -> exists k' c p, o = Reg k' c p /\ k' <> cls_of k d).
      { intros o Ho. destruct (Hab o Ho) as (k' & d' & c & p & -> & Hne). exists (cls_of k' d'), c, p. split; [reflexivity|]. intros Hc. apply cls_of_inj in Hc. contradiction. }
      unfold live. rewrite live_no_unreg; cbn [app].
      - unfold ops. rewrite !flat_map_app. unfold of_class. rewrite !filter_app. cbn [flat_map app]. cbn [filter en_cls].
        change (filter (fun x => eqb (cls_of k d) (en_cls x))) with (@of_class ecls cb _ (cls_of k d)).
        rewrite (of_class_none _ o1 Hs1), (of_class_none _ a), (of_class_none _ b) by (intros o Ho; apply Hs2; auto).
        destruct (eqb_spec (cls_of k d) (cls_of k d)); [reflexivity|congruence].
      - unfold ops. intros o Ho. apply in_app_or in Ho as [Ho|Ho]; [destruct (Hs1 o Ho) as (k' & c & p & -> & _); eauto|].
        apply in_app_or in Ho as [Ho|[<-|Ho]]; [destruct (Hs2 o (or_introl Ho)) as (k' & c & p & -> & _); eauto|eauto|destruct (Hs2 o (or_intror Ho)) as (k' & c & p & -> & _); eauto]. }
    rewrite HL in HD. apply delivers_one in HD. exact HD.
  Qed.
End API.
