(** C11 (strategy level), C14, C15, C16, C19, C55: strategies and the sync timer. *)
From Coq Require Import Permutation Sorted.
From Verif Require Import PyBase PyStr MTime MTimeExpr MEventSource SEvent SExpr
  LEventSource LEventSource2 MBus SBus MStrategy SStrategy LStrategy LStrategy2 LStrategyW.
Open Scope Z_scope.

(** ** C14 *)

(** With market periods [ps] in force whose starts are whole seconds, the source of an
    every_minute entry has one daily task per minute step of each period, both ends
    inclusive, in order. *)
Theorem C14_every_minute_partial :
  forall fuel cfg sc st now d s ps,
    cf_hist cfg = false -> d_time d = lit "every_minute" -> (1441 <= fuel)%nat ->
    mp_in_force sc s = raw_of ps -> Forall (fun p => tod_ok (fst p) /\ tod_ok (snd p)) ps ->
    Forall (fun p => fst p mod US = 0) ps ->
    exists s' es ls,
      schedule_one fuel cfg sc st None now d s = GOk s' /\ st_srcs s' = st_srcs s ++ [es] /\
      es_start es = Some now /\ es_end es = None /\ (concat ls <> [] -> es_need es = true) /\
      Forall2 (fun p l => steps MINUTE (fst p) (snd p) l) ps ls /\
      tasks_of (cf_mp cfg) (es_daily es) (map (fun t => (t, task_cls (d_name d) (st_count s) 1)) (concat ls)).
Proof. exact every_minute_whole. Qed.
Print Assumptions C14_every_minute_partial.

(** ... and its events are those instants, each once per day, from start-up on. *)
Theorem C14_every_minute_events_partial :
  forall fuel cfg sc st now d s ps today todays,
    cf_hist cfg = false -> d_time d = lit "every_minute" -> (1441 <= fuel)%nat -> (Z.to_nat (cf_count cfg) < fuel)%nat ->
    mp_in_force sc s = raw_of ps -> Forall (fun p => tod_ok (fst p) /\ tod_ok (snd p)) ps ->
    Forall (fun p => fst p mod US = 0) ps -> Exists (fun p => fst p <= snd p) ps ->
    exists s' es ls S,
      schedule_one fuel cfg sc st None now d s = GOk s' /\ st_srcs s' = st_srcs s ++ [es] /\
      Forall2 (fun p l => steps MINUTE (fst p) (snd p) l) ps ls /\
      stream_ok now None (map (fun t => (t, task_cls (d_name d) (st_count s) 1)) (concat ls)) today (today + cf_count cfg - 1) S /\
      ((length (today :: todays) <= length S)%nat ->
         exists es', get_events fuel cfg (today :: todays) es = GOk (map Some (firstn (length (today :: todays)) S), es')).
Proof. exact every_minute_events. Qed.
Print Assumptions C14_every_minute_events_partial.

(** market_period lists accepted by set_options have the form required above; periods
    written as strings start on whole seconds. *)
Theorem C14_parsed_periods :
  forall mp, Forall (Forall tval_ok) mp -> forall r, parse_periods mp = Ok r ->
    exists ps, r = raw_of ps /\ length ps = length mp /\ Forall (fun p => tod_ok (fst p) /\ tod_ok (snd p)) ps /\
      Forall2 (fun raw p => exists a b, raw = [a; b] /\ parse_time a = Ok (fst p) /\ parse_time b = Ok (snd p)) mp ps.
Proof. exact parse_periods_shape. Qed.
Print Assumptions C14_parsed_periods.
Theorem C14_string_periods_whole : forall s t, parse_time (TStr s) = Ok t -> t mod US = 0.
Proof. exact parse_time_str_whole. Qed.
Print Assumptions C14_string_periods_whole.

(** C14 for a start with a sub-second part (a datetime.time object) is false: that
    instant is not among the tasks. *)
Theorem C14_subsecond_refuted :
  forall fuel cfg sc st now d s ps,
    cf_hist cfg = false -> d_time d = lit "every_minute" -> (1441 <= fuel)%nat ->
    mp_in_force sc s = raw_of ps -> Forall (fun p => tod_ok (fst p) /\ tod_ok (snd p)) ps ->
    exists s' es tasks, schedule_one fuel cfg sc st None now d s = GOk s' /\ st_srcs s' = st_srcs s ++ [es] /\
      tasks_of (cf_mp cfg) (es_daily es) tasks /\
      forall p, In p ps -> fst p mod US <> 0 -> ~ In (fst p) (map fst tasks).
Proof. exact subsecond_missed. Qed.
Print Assumptions C14_subsecond_refuted.

(** default periods: 242 a day, the first at 9:30:00, the last at 15:00:00 *)
Example C14_demo :
  match schedule_one 1500 cfg_default scfg_default 0 None (20000 * DAY) (Desc (lit "f") (lit "every_minute")) (strat_new []) with
  | GOk s' => match st_srcs s' with
              | [es] => length (es_daily es) = 242%nat /\ hd_error (map fst (es_daily es)) = Some (lit "09:30:00") /\
                        hd_error (map fst (rev (es_daily es))) = Some (lit "15:00:00")
              | _ => False
              end
  | _ => False
  end.
Proof. vm_compute. repeat split; reflexivity. Qed.
Example C14_demo_hyp :
  mp_in_force scfg_default (strat_new []) = raw_of [(34200 * US, 41400 * US); (46800 * US, 54000 * US)] /\
  Forall (fun p => fst p mod US = 0) [(34200 * US, 41400 * US); (46800 * US, 54000 * US)].
Proof. split; [reflexivity|repeat constructor]. Qed.
Example C14_demo_parse :
  parse_periods [[TStr (lit "9:30:00"); TStr (lit "11:30:00")]; [TTime (46800 * US); TStr (lit "15:0:0")]] =
  Ok (raw_of [(34200 * US, 41400 * US); (46800 * US, 54000 * US)]) /\
  parse_periods [[TStr (lit "9:30")]] = Err ValueError /\ parse_periods [[TStr (lit "9:30"); TStr (lit "10:00:00")]] = Err ValueError.
Proof. vm_compute. repeat split; reflexivity. Qed.

(** ** C11 at strategy level: start-up can hang *)

(** an every_minute entry when no market period contains a minute *)
Theorem C11_every_minute_no_minutes_refuted :
  forall fuel cfg sc st now d s ps,
    cf_hist cfg = false -> 0 < cf_count cfg -> d_time d = lit "every_minute" -> (1441 <= fuel)%nat ->
    mp_in_force sc s = raw_of ps -> Forall (fun p => tod_ok (fst p) /\ tod_ok (snd p) /\ snd p < fst p) ps ->
    exists s' es, schedule_one fuel cfg sc st None now d s = GOk s' /\ st_srcs s' = st_srcs s ++ [es] /\
      forall f today, peek_next_event f cfg today es = GFuel /\ get_next_event f cfg today es = GFuel.
Proof. exact no_minutes_hang. Qed.
Print Assumptions C11_every_minute_no_minutes_refuted.

(** the account's sync timer when less than one interval is left before 23:59:59 *)
Theorem C11_sync_timer_late_start_refuted :
  forall fuel sc st en i now o s step,
    interval_in_force sc o = Ok step -> period_in_force sc o = [] -> 0 < step ->
    DAY / step + 1 < Z.of_nat fuel -> 86399 * US < trunc (dt_time now) + step -> en = None ->
    exists s' es, setup_timer fuel sc st en i now o s = (GOk tt, s') /\ st_srcs s' = st_srcs s ++ [es] /\
      es_daily es = [] /\
      forall cfg, cf_hist cfg = false -> 0 < cf_count cfg ->
        forall f today, peek_next_event f cfg today es = GFuel /\ get_next_event f cfg today es = GFuel.
Proof. exact timer_late. Qed.
Print Assumptions C11_sync_timer_late_start_refuted.

(** market_period=[], and a start at 23:59:56 with the default configuration *)
Example C11_strategy_demo :
  mp_in_force scfg_default (set_opts (SOpts (Some []) None false None None None None) (strat_new [])) = raw_of [] /\
  interval_in_force scfg_default opts_empty = Ok (5 * US) /\ period_in_force scfg_default opts_empty = [] /\
  86399 * US < trunc (dt_time (20000 * DAY + 86396 * US)) + 5 * US.
Proof. repeat split; reflexivity. Qed.

(** ** C15 *)

(** whatever process_initialize does (and however setup ends), the schedule is the
    list of its run_daily calls, in order, with the times they stand for *)
Theorem C111_schedule_is_calls :
  forall fuel cfg sc st en now calls fin ns,
    Forall2 (fun a d => d_name d = fst (fst a) /\ stored (snd a) (d_time d))
      (asked calls) (st_sched (snd (setup fuel cfg sc st en now true calls fin (strat_new ns)))).
Proof. exact setup_sched_stored. Qed.
Print Assumptions C111_schedule_is_calls.

(** after a process_initialize that returned, the API is closed *)
Theorem C15_closed_partial :
  forall fuel cfg sc st en now has calls s, st_allowed s = false ->
    st_allowed (snd (setup fuel cfg sc st en now has calls None s)) = false.
Proof. exact setup_closed. Qed.
Print Assumptions C15_closed_partial.
(** while it is closed, each API call on a named object raises InvalidCall and changes
    nothing *)
Theorem C15_invalid_call_partial :
  forall fuel sc st en c s, st_allowed s = false -> guarded c ->
    (forall f t, c = URun f t -> f_name f <> None) ->
    ustep fuel sc st en c s = (GErr InvalidCall, s).
Proof. exact closed_step. Qed.
Print Assumptions C15_invalid_call_partial.
(** ... so no later user code changes schedule, options, bus, sources or account: only
    the module's own attributes *)
Theorem C111_nothing_changes :
  forall fuel sc st en cs s, st_allowed s = false -> exists ns, uexec fuel sc st en cs s = set_ns ns s.
Proof. exact closed_exec. Qed.
Print Assumptions C111_nothing_changes.

(** C15 is false for objects without __name__: run_daily raises AttributeError *)
Theorem C15_nameless_refuted :
  exists f s, st_allowed s = false /\
    forall t fuel sc st en, ustep fuel sc st en (URun f t) s = (GErr AttributeError, s).
Proof. exact nameless_witness. Qed.
Print Assumptions C15_nameless_refuted.
(** ... and after a process_initialize that raised: the API stays open *)
Theorem C15_init_raises_refuted :
  forall fuel cfg sc st en now ns x, exists s',
    setup fuel cfg sc st en now true [] (Some x) (strat_new ns) = (GErr x, s') /\
    forall f n t, f_name f = Some n -> f_callable f = true ->
      exists s'', run_daily f t s' = (Ok tt, s'') /\ st_sched s'' = st_sched s' ++ [Desc n (time_dict t)].
Proof. exact init_raises. Qed.
Print Assumptions C15_init_raises_refuted.

Example C15_demo :
  asked [URun (Fn 1 (Some (lit "f")) true) (lit "open"); UOpt opts_empty (SEnv (Ok tt) (Ok tt) (Ok tt) 0);
         URun (Fn 2 (Some (lit "g")) true) (lit "every_minute"); URun (Fn 3 (Some (lit "h")) false) (lit "open");
         URun (Fn 1 (Some (lit "f")) true) (lit "10:00")] =
    [(lit "f", 1%nat, lit "open"); (lit "g", 2%nat, lit "every_minute"); (lit "f", 1%nat, lit "10:00")] /\
  map desc_of [(lit "f", 1%nat, lit "open")] = [Desc (lit "f") (lit "open+0m")].
Proof. split; reflexivity. Qed.

(** ** C16 *)

(** if the name of the function given to the k-th run_daily call denotes that function
    in the module, the source made for that entry carries one event class, and firing
    it calls that function once and nothing else *)
Theorem C16_entry_drives_partial :
  forall fuel cfg sc st en now calls ns s4,
    setup fuel cfg sc st en now true calls None (strat_new ns) = (GOk tt, s4) ->
    forall k n id t, nth_error (asked calls) k = Some (n, id, t) -> dget n (st_ns s4) = Some (OUser id) ->
    exists es c pre ts, st_srcs s4 = pre ++ ts /\ length ts = length (asked calls) /\ nth_error ts k = Some es /\
      Forall (fun x => snd x = c) (es_daily es) /\
      MBus.calls inst c (st_bus s4) = [CbUser k (Some (OUser id))].
Proof. exact entry_drives. Qed.
Print Assumptions C16_entry_drives_partial.

(** whatever the names denote: classes of different entries differ, and each class
    calls exactly one closure, the entry's own *)
Theorem C16_entry_calls_once :
  forall fuel cfg sc st en now calls ns s4,
    setup fuel cfg sc st en now true calls None (strat_new ns) = (GOk tt, s4) ->
    forall k d, nth_error (st_sched s4) k = Some d ->
      MBus.calls inst (cls_of k d) (st_bus s4) = [CbUser k (dget (d_name d) (st_ns s4))].
Proof. exact entry_calls. Qed.
Print Assumptions C16_entry_calls_once.
Theorem C16_classes_distinct : forall k d k' d', cls_of k d = cls_of k' d' -> k = k'.
Proof. exact cls_of_inj. Qed.
Print Assumptions C16_classes_distinct.

(** C16: what a name means to the strategy's code when process_initialize starts.  The names
    documented for strategies are the framework's, whatever the strategy defined under
    them; all others are the strategy's own. *)
Definition given_names (with_account : bool) : list str :=
  [lit "run_daily"; lit "set_options"; lit "context"; lit "log"; lit "print"] ++
  if with_account then [lit "order"; lit "cancel_order"; lit "batch_submit_orders"; lit "batch_cancel_orders"; lit "get_orders"; lit "sync_orders"; lit "sync_balance";
    lit "MarketOrderStyle"; lit "LimitOrderStyle"] else [].
Theorem C110_names :
  forall sc s n,
    (In n (given_names (sc_setup sc)) -> dget n (st_ns (make_apis sc s)) = Some (OApi n)) /\
    (~ In n (given_names (sc_setup sc)) -> dget n (st_ns (make_apis sc s)) = dget n (st_ns s)).
Proof.
  intros sc s n. cbn [make_apis st_ns set_ns].
  assert (G : forall l (ns : dict str obj), (In n l -> dget n (fold_left (fun ns n => dset n (OApi n) ns) l ns) = Some (OApi n)) /\
    (~ In n l -> dget n (fold_left (fun ns n => dset n (OApi n) ns) l ns) = dget n ns)).
  { intros l. assert (Hd : forall m : str, n = m \/ n <> m) by (intros m; destruct (eqb_spec n m); auto).
    induction l as [|m l IH]; intros ns; cbn [fold_left In]; [tauto|].
    destruct (IH (dset m (OApi m) ns)) as [I1 I2]. split.
    - intros H. assert (Hl : In n l \/ ~ In n l). { clear - Hd. induction l as [|y l IHl]; [right; intros []|]. destruct (Hd y) as [->|H]; [left; left; reflexivity|]. destruct IHl as [H1|H1]; [left; right; exact H1|right; intros [E|E]; [congruence|contradiction]]. }
      destruct Hl as [Hl|Hl]; [apply I1; exact Hl|]. rewrite I2 by exact Hl. destruct H as [->|H]; [apply dget_dset_same|contradiction].
    - intros H. rewrite I2 by tauto. rewrite dget_dset. destruct (eqb_spec n m) as [->|]; [tauto|reflexivity]. }
  assert (E : forall m, In m (api_names ++ if sc_setup sc then account_names else []) <-> In m (given_names (sc_setup sc))).
  { intros m. destruct (sc_setup sc); cbn; tauto. }
  destruct (G (api_names ++ if sc_setup sc then account_names else []) (st_ns s)) as [G1 G2]. rewrite <- E. split; [exact G1|exact G2].
Qed.
Print Assumptions C110_names.
Example C110_names_demo :
  let s := make_apis scfg_default (strat_new [(lit "order", OUser 1); (lit "f", OUser 2)]) in
  dget (lit "order") (st_ns s) = Some (OApi (lit "order")) /\ dget (lit "f") (st_ns s) = Some (OUser 2) /\ dget (lit "run_daily") (st_ns s) = Some (OApi (lit "run_daily")).
Proof. vm_compute. repeat split; reflexivity. Qed.

(** C16 without the hypothesis is false: two functions with the same __name__ (the
    second entry's function runs for both), a lambda (nothing can be called), a
    function that has the name of an API *)
Theorem C16_same_name_refuted :
  exists calls ns s4 id,
    setup 10 cfg_default scfg_default 0 None (fun _ => 0) true calls None (strat_new ns) = (GOk tt, s4) /\
    nth_error (asked calls) 0 = Some (lit "f", id, lit "open") /\ id <> 2%nat /\
    forall d, nth_error (st_sched s4) 0 = Some d -> MBus.calls inst (cls_of 0 d) (st_bus s4) = [CbUser 0 (Some (OUser 2))].
Proof. exact same_name_witness. Qed.
Print Assumptions C16_same_name_refuted.
Theorem C16_lambda_refuted :
  exists calls ns s4,
    setup 10 cfg_default scfg_default 0 None (fun _ => 0) true calls None (strat_new ns) = (GOk tt, s4) /\
    nth_error (asked calls) 0 = Some (lit "<lambda>", 1%nat, lit "open") /\
    forall d, nth_error (st_sched s4) 0 = Some d -> MBus.calls inst (cls_of 0 d) (st_bus s4) = [CbUser 0 None].
Proof. exact lambda_witness. Qed.
Print Assumptions C16_lambda_refuted.
Theorem C16_api_name_refuted :
  exists calls ns s4,
    setup 10 cfg_default scfg_default 0 None (fun _ => 0) true calls None (strat_new ns) = (GOk tt, s4) /\
    dget (lit "order") ns = Some (OUser 1) /\
    nth_error (asked calls) 0 = Some (lit "order", 1%nat, lit "open") /\
    forall d, nth_error (st_sched s4) 0 = Some d -> MBus.calls inst (cls_of 0 d) (st_bus s4) = [CbUser 0 (Some (OApi (lit "order")))].
Proof. exact api_name_witness. Qed.
Print Assumptions C16_api_name_refuted.

(** the same function twice, another one, with an account: every class calls one closure *)
Example C16_demo :
  let calls := [URun (Fn 1 (Some (lit "f")) true) (lit "open"); URun (Fn 2 (Some (lit "f_1")) true) (lit "close");
                UOpt (SOpts None None true None None None None) (SEnv (Ok tt) (Ok tt) (Ok tt) (20000 * DAY + 86000 * US));
                URun (Fn 1 (Some (lit "f")) true) (lit "open")] in
  let '(r, s4) := setup 100 cfg_default scfg_default 0 None (fun _ => 20000 * DAY) true calls None (strat_new [(lit "f", OUser 1); (lit "f_1", OUser 2)]) in
  r = GOk tt /\ dget (lit "f") (st_ns s4) = Some (OUser 1) /\
  map (fun kd => MBus.calls inst (cls_of (fst kd) (snd kd)) (st_bus s4)) (List.combine [0; 1; 2]%nat (st_sched s4)) =
    [[CbUser 0 (Some (OUser 1))]; [CbUser 1 (Some (OUser 2))]; [CbUser 2 (Some (OUser 1))]] /\
  MBus.calls inst sync_cls (st_bus s4) = [CbBal 0; CbOrd 0].
Proof. vm_compute. repeat split; reflexivity. Qed.

(** ** C19 *)

(** without sync_period: from the second start-up happened in, one task per interval,
    up to 23:59:59 of the day *)
Theorem C19_sync_timer_partial :
  forall fuel sc st en i now o s step mp,
    interval_in_force sc o = Ok step -> period_in_force sc o = [] -> 0 < step ->
    DAY / step + 1 < Z.of_nat fuel ->
    exists s' es l, setup_timer fuel sc st en i now o s = (GOk tt, s') /\ st_srcs s' = st_srcs s ++ [es] /\
      es_start es = Some st /\ es_end es = en /\ es_events es = [] /\ (l <> [] -> es_need es = true) /\ (l = [] -> es_daily es = []) /\
      steps step (trunc (dt_time now) + step) (86399 * US) l /\
      tasks_of mp (es_daily es) (map (fun t => (t, sync_cls)) (map trunc l)).
Proof. exact timer_no_period. Qed.
Print Assumptions C19_sync_timer_partial.
(** with sync_period [ps]: one task per interval from each period start to its end *)
Theorem C19_sync_period_partial :
  forall fuel sc st en i now o s step mp ps,
    interval_in_force sc o = Ok step -> period_in_force sc o = raw_of ps -> ps <> [] -> 0 < step ->
    Forall (fun p => tod_ok (fst p) /\ tod_ok (snd p)) ps -> DAY / step + 1 < Z.of_nat fuel ->
    exists s' es ls, setup_timer fuel sc st en i now o s = (GOk tt, s') /\ st_srcs s' = st_srcs s ++ [es] /\
      es_start es = Some st /\ es_end es = en /\ es_need es = true /\
      Forall2 (fun p l => steps step (fst p) (snd p) l) ps ls /\
      tasks_of mp (es_daily es) (map (fun t => (t, sync_cls)) (map trunc (concat ls))).
Proof. exact timer_period. Qed.
Print Assumptions C19_sync_period_partial.
(** whole-second intervals and period starts are not changed by the formatting *)
Theorem C19_whole_seconds :
  forall step a b l, a mod US = 0 -> step mod US = 0 -> steps step a b l -> map trunc l = l.
Proof. exact steps_whole. Qed.
Print Assumptions C19_whole_seconds.

(** "every interval, at any time of day, on every day" is false: on every day, no sync
    happens before the time of day of the first one (here for intervals of whole
    seconds; [S]: any window of the source's event stream) *)
Theorem C19_night_gap_refuted :
  forall fuel sc st en i now o s step mp,
    interval_in_force sc o = Ok step -> period_in_force sc o = [] -> 0 < step -> step mod US = 0 ->
    DAY / step + 1 < Z.of_nat fuel ->
    exists s' es tasks, setup_timer fuel sc st en i now o s = (GOk tt, s') /\ st_srcs s' = st_srcs s ++ [es] /\
      tasks_of mp (es_daily es) tasks /\
      forall lo hi S, stream_ok st en tasks lo hi S ->
        forall x c, In (x, c) S -> trunc (dt_time now) + step <= dt_time x.
Proof. exact night_gap. Qed.
Print Assumptions C19_night_gap_refuted.
(** an interval of 0 makes set_options hang *)
Theorem C19_zero_interval_refuted :
  forall fuel sc st en i now o s, interval_in_force sc o = Ok 0 -> period_in_force sc o = [] ->
    fst (setup_timer fuel sc st en i now o s) = GFuel.
Proof. exact timer_zero. Qed.
Print Assumptions C19_zero_interval_refuted.
(** an interval of half a second gives two tasks at each whole second instead *)
Theorem C19_subsecond_refuted :
  exists s' es, setup_timer 100 scfg_default 0 None 0 (20000 * DAY + 86390 * US)
      (SOpts None None true None None (Some (Ok 500000)) None) (strat_new []) = (GOk tt, s') /\
    st_srcs s' = [es] /\
    firstn 4 (map fst (es_daily es)) = [lit "23:59:50"; lit "23:59:51"; lit "23:59:51"; lit "23:59:52"].
Proof. exact half_second_witness. Qed.
Print Assumptions C19_subsecond_refuted.

(** default configuration, started at 23:50:00.25: 119 tasks from 23:50:05 to 23:59:55 *)
Example C19_demo :
  match setup_timer 20000 scfg_default 0 None 0 (20000 * DAY + 85800250000) opts_empty (strat_new []) with
  | (GOk tt, s') => match st_srcs s' with
                    | [es] => length (es_daily es) = 119%nat /\ hd_error (map fst (es_daily es)) = Some (lit "23:50:05") /\
                              hd_error (map fst (rev (es_daily es))) = Some (lit "23:59:55")
                    | _ => False
                    end
  | _ => False
  end /\ DAY / (5 * US) + 1 < Z.of_nat 20000.
Proof. vm_compute. repeat split; reflexivity. Qed.

(** ** C55 *)

(** a process_initialize with one successful set_options that enables the account: a
    sync event makes the current account sync its balance, then its orders (as the
    options ask), once, and no other account object *)
Theorem C55_one_account_partial :
  forall fuel cfg sc st en now pre k e post ns s4,
    setup fuel cfg sc st en now true (pre ++ UOpt k e :: post) None (strat_new ns) = (GOk tt, s4) ->
    Forall not_opt pre -> Forall not_opt post -> use_in_force sc k = true ->
    (exists u, fst (set_options fuel sc st en k e (uexec fuel sc st en pre (set_allowed true (make_apis sc (strat_new ns))))) = GOk u) ->
    st_acc s4 = Some 0%nat /\ st_use s4 = Some true /\
    MBus.calls inst sync_cls (st_bus s4) = sync_cbs sc k 0.
Proof. exact one_account. Qed.
Print Assumptions C55_one_account_partial.

(** with two set_options calls it is false: the replaced account is synchronised too,
    and there are two timers *)
Theorem C55_two_calls_refuted :
  exists k e s4,
    setup 100 cfg_default scfg_default 0 None (fun _ => 0) true [UOpt k e; UOpt k e] None (strat_new []) = (GOk tt, s4) /\
    st_acc s4 = Some 1%nat /\ length (st_srcs s4) = 2%nat /\
    MBus.calls inst sync_cls (st_bus s4) = [CbBal 0; CbOrd 0; CbBal 1; CbOrd 1].
Proof. exact two_calls_witness. Qed.
Print Assumptions C55_two_calls_refuted.

Example C55_demo :
  let k := SOpts None None true None None None None in
  let e := SEnv (Ok tt) (Ok tt) (Ok tt) (86000 * US) in
  let s0 := set_allowed true (make_apis scfg_default (strat_new [])) in
  fst (set_options 100 scfg_default 0 None k e s0) = GOk tt /\ use_in_force scfg_default k = true /\
  sync_cbs scfg_default k 0 = [CbBal 0; CbOrd 0].
Proof. vm_compute. repeat split; reflexivity. Qed.
