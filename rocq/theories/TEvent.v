(** C09-C13, C52: event sources, time expressions, millisecond conversion. *)
From Coq Require Import Permutation Sorted.
From Verif Require Import PyBase PyStr MTime MTimeExpr MEventSource SEvent SExpr
  LEventSource LTimeExpr LEventSource2.
Open Scope Z_scope.

(** C09: the answers of any number of get_next_event calls on a fresh source with
    start [st], end [e] and valid entries are the (day, task) instants of the days
    date(st)..date(e) lying in [st, e], day by day, in time order, then None. *)
Theorem C09_bounded_stream_partial :
  forall cfg es st e tasks fuel todays,
    es_start es = Some st -> es_end es = Some e -> es_need es = true ->
    tasks_of (cf_mp cfg) (es_daily es) tasks ->
    (Z.to_nat (dt_date e - dt_date st + 1) < fuel)%nat ->
    exists S es', stream_ok st (Some e) tasks (dt_date st) (dt_date e) S /\
      get_events fuel cfg todays es = GOk (answers (length todays) S, es').
Proof. exact bounded_stream. Qed.
Print Assumptions C09_bounded_stream_partial.

(** ... which are all instants in the window for tasks that stay within their day. *)
Theorem C09_no_other_day_partial :
  forall st e d off, 0 <= off < DAY -> st <= d * DAY + off <= e -> dt_date st <= d <= dt_date e.
Proof. exact no_instant_outside. Qed.
Print Assumptions C09_no_other_day_partial.

(** C09 for tasks that cross midnight: the full statement, "every (day, task) instant
    in [start, end] is delivered", is false. *)
Theorem C09_cross_midnight_refuted :
  exists cfg es st e tasks d off c,
    es_start es = Some st /\ es_end es = Some e /\ es_need es = true /\
    tasks_of (cf_mp cfg) (es_daily es) tasks /\
    In (off, c) tasks /\ st <= d * DAY + off <= e /\
    forall fuel todays, (10 <= fuel)%nat ->
      exists rs es', get_events fuel cfg todays es = GOk (rs, es') /\ ~ In (Some (d * DAY + off, c)) rs.
Proof. exact cross_midnight_witness. Qed.
Print Assumptions C09_cross_midnight_refuted.

(** two tasks, declared out of order, over two days, started after the first one *)
Example C09_demo :
  let es := es_add_daily cls0 (lit "open-30m") (src1 (lit "14:00") (10 * DAY + 40000 * US) (Some (11 * DAY + 60000 * US))) in
  match get_events 10 cfg_default [10; 10; 10; 10; 10] es with
  | GOk (rs, _) => map (option_map fst) rs =
      [Some (10 * DAY + 50400 * US); Some (11 * DAY + 32400 * US); Some (11 * DAY + 50400 * US); None; None]
  | _ => False
  end /\ tasks_of mp_default (es_daily es) [(50400 * US, cls0); (32400 * US, cls0)].
Proof. split; [vm_compute; reflexivity|]. repeat constructor. Qed.

(** C10: a live source yields the days from the first call on in order, each task once
    per day, up to the end of the generation window. *)
Theorem C10_first_window_partial :
  forall cfg es st tasks fuel today todays,
    cf_hist cfg = false ->
    es_start es = Some st -> es_end es = None -> es_need es = true ->
    tasks_of (cf_mp cfg) (es_daily es) tasks ->
    (Z.to_nat (cf_count cfg) < fuel)%nat ->
    exists S, stream_ok st None tasks today (today + cf_count cfg - 1) S /\
      ((length (today :: todays) <= length S)%nat ->
       exists es', get_events fuel cfg (today :: todays) es =
         GOk (map Some (firstn (length (today :: todays)) S), es')).
Proof. exact live_window. Qed.
Print Assumptions C10_first_window_partial.

(** C10 beyond the window is false: the full statement has no bound on run length.
    One task at 9:30, each event fetched on its own day: the event of day 364 is
    delivered twice. *)
Theorem C10_replay_refuted :
  exists rs es' c1 c2,
    get_events 400 cfg_default replay_days (src1 (lit "9:30:00") 0 None) = GOk (rs, es') /\
    nth_error rs 364 = Some (Some (364 * DAY + 34200 * US, c1)) /\
    nth_error rs 365 = Some (Some (364 * DAY + 34200 * US, c2)).
Proof. exact replay_witness. Qed.
Print Assumptions C10_replay_refuted.

Example C10_demo :
  (length (0 :: [1; 2; 3]) <=
   length (flat_map (day_evs 0 None [((34200 * US)%Z, cls0)]) (day_range 0 (cf_count cfg_default))))%nat /\
  tasks_of mp_default (es_daily (src1 (lit "9:30:00") 0 None)) [(34200 * US, cls0)].
Proof. split; [apply Nat.leb_le; vm_compute; reflexivity|repeat constructor]. Qed.

(** C11: sources with an end (or in history mode) always answer. *)
Theorem C11_bounded_returns_partial :
  forall cfg today st es tasks fuel,
    bounded cfg es = true -> es_need es = true \/ es_his es = true -> es_start es = Some st ->
    tasks_of (cf_mp cfg) (es_daily es) tasks ->
    (length (es_days es) < fuel)%nat -> (length (days_of cfg today st (es_end es)) < fuel)%nat ->
    returns (peek_next_event fuel cfg today es) /\ returns (get_next_event fuel cfg today es).
Proof. exact bounded_returns. Qed.
Print Assumptions C11_bounded_returns_partial.

(** C11: live sources with at least one valid entry, started not after today, answer,
    within a number of steps linear in the generated days. *)
Theorem C11_live_returns_partial :
  forall cfg today st es tasks fuel,
    times_ok (cf_mp cfg) -> cf_hist cfg = false -> es_end es = None -> 8 <= cf_count cfg ->
    es_daily es <> [] -> tasks_of (cf_mp cfg) (es_daily es) tasks ->
    es_start es = Some st -> st < (today + 1) * DAY ->
    (length (es_days es) + 2 * Z.to_nat (cf_count cfg) < fuel)%nat ->
    returns (peek_next_event fuel cfg today es) /\ returns (get_next_event fuel cfg today es).
Proof. exact live_returns. Qed.
Print Assumptions C11_live_returns_partial.

(** C11 with an invalid entry: the call raises instead of looping. *)
Theorem C11_live_never_loops_partial :
  forall cfg today st es fuel,
    times_ok (cf_mp cfg) -> cf_hist cfg = false -> es_end es = None -> 8 <= cf_count cfg ->
    es_daily es <> [] -> es_start es = Some st -> st < (today + 1) * DAY ->
    (length (es_days es) + 2 * Z.to_nat (cf_count cfg) < fuel)%nat ->
    gen_events fuel cfg today es <> GFuel.
Proof. exact live_terminates. Qed.
Print Assumptions C11_live_never_loops_partial.

(** C11 fails for a live source without entries: no number of steps suffices. *)
Theorem C11_empty_source_refuted :
  forall cfg es, cf_hist cfg = false -> 0 < cf_count cfg ->
    es_end es = None -> es_daily es = [] -> es_start es <> None ->
    (es_need es = false -> es_events es = []) ->
    forall fuel today, peek_next_event fuel cfg today es = GFuel /\ get_next_event fuel cfg today es = GFuel.
Proof. exact empty_live_never. Qed.
Print Assumptions C11_empty_source_refuted.

Example C11_demo :
  times_ok (cf_mp cfg_default) /\ 8 <= cf_count cfg_default /\
  es_daily (src1 (lit "open+1h30m") (20000 * DAY + 5) None) <> [] /\
  tasks_of mp_default (es_daily (src1 (lit "open+1h30m") (20000 * DAY + 5) None)) [(39600 * US, cls0)] /\
  20000 * DAY + 5 < (20000 + 1) * DAY /\ cf_hist cfg_default = false.
Proof.
  split; [|split; [|split; [|split]]]; try discriminate; try (split; reflexivity).
  - repeat constructor; discriminate.
  - repeat constructor.
Qed.
Example C11_empty_demo :
  let es := es_new (Some 0) None in es_end es = None /\ es_daily es = [] /\ es_start es <> None /\ es_need es = true.
Proof. repeat split; discriminate. Qed.

(** C12: after a peek, any later peek and the next get (with any date) give the same
    answer, peeking changes nothing, and get removes exactly the first event. *)
Theorem C12_peek_is_preview :
  forall cfg t1 f1 es r es1,
    peek_next_event f1 cfg t1 es = GOk (r, es1) ->
    r = hd_error (es_events es1) /\
    get_next_event f1 cfg t1 es = GOk (r, es_drop_first es1) /\
    (forall f2 t2, (0 < f2)%nat ->
       peek_next_event f2 cfg t2 es1 = GOk (r, es1) /\
       get_next_event f2 cfg t2 es1 = GOk (r, es_drop_first es1)).
Proof. exact peek_preview. Qed.
Print Assumptions C12_peek_is_preview.

Example C12_demo :
  match peek_next_event 10 cfg_default 7 (src1 (lit "9:30:00") (7 * DAY) (Some (9 * DAY))) with
  | GOk (r, es1) => option_map fst r = Some (7 * DAY + 34200 * US) /\ length (es_days es1) = 2%nat
  | _ => False
  end.
Proof. vm_compute. split; reflexivity. Qed.

(** C13: an expression of the documented form without repeated units denotes base
    plus/minus the sum of its groups. *)
Theorem C13_meaning_partial :
  forall mp s v, mp <> [] -> denotes_distinct (opening mp) (closing mp) s v -> expr_to_time mp s = Ok v.
Proof. exact expr_sound. Qed.
Print Assumptions C13_meaning_partial.

(** C13: whatever is accepted has the documented form, up to one final newline. *)
Theorem C13_accepted_form_partial :
  forall mp s v, expr_to_time mp s = Ok v ->
    exists s0 v0, (s = s0 \/ s = s0 ++ [10%N]) /\ denotes (opening mp) (closing mp) s0 v0 /\
      (forall v1, denotes_distinct (opening mp) (closing mp) s0 v1 -> v = v1).
Proof. exact expr_complete. Qed.
Print Assumptions C13_accepted_form_partial.

(** C13: everything else raises InvalidParam, except an unknown base. *)
Theorem C13_rejected_partial :
  forall mp s x, mp <> [] -> expr_to_time mp s = Err x ->
    x = InvalidParam \/
    (x = KeyError /\ exists a c b, re_split_pm s = [a; c; b] /\ a <> lit "open" /\ a <> lit "close").
Proof. exact expr_err. Qed.
Print Assumptions C13_rejected_partial.

(** C13, full statement: [expr_to_time mp s = Ok v <-> denotes .. s v], and
    [Err InvalidParam] otherwise.  Three deviations of the code: *)
Theorem C13_repeated_unit_refuted :
  exists mp s v v', mp <> [] /\ denotes (opening mp) (closing mp) s v /\ expr_to_time mp s = Ok v' /\ v' <> v.
Proof. exact repeated_unit_witness. Qed.
Print Assumptions C13_repeated_unit_refuted.

Theorem C13_newline_refuted :
  exists mp s v, mp <> [] /\ expr_to_time mp s = Ok v /\ forall v', ~ denotes (opening mp) (closing mp) s v'.
Proof. exact newline_witness. Qed.
Print Assumptions C13_newline_refuted.

Theorem C13_unknown_base_refuted :
  exists mp s, mp <> [] /\ expr_to_time mp s = Err KeyError /\ forall v, ~ denotes (opening mp) (closing mp) s v.
Proof. exact unknown_base_witness. Qed.
Print Assumptions C13_unknown_base_refuted.

Example C13_demo :
  denotes_distinct (opening mp_default) (closing mp_default) (lit "close-1h30m5s") ((54000 - 5405) * US) /\
  mp_default <> [] /\ expr_to_time mp_default (lit "open*1h") = Err InvalidParam.
Proof.
  split; [|split; [discriminate|reflexivity]].
  change (lit "close-1h30m5s") with
    (lit "close" ++ lit (if false then "+" else "-") ++ offset_text
       [Group (lit "1") 104; Group (lit "30") 109; Group (lit "5") 115]).
  apply (dd_off _ _ (lit "close") (54000 * US)
    [Group (lit "1") 104; Group (lit "30") 109; Group (lit "5") 115] false).
  - exact (base_close _ (54000 * US)).
  - split; [cbn; lia|]. repeat constructor; try discriminate; try (left; reflexivity); right; reflexivity.
  - cbn. repeat constructor; cbn; intuition discriminate.
Qed.

(** C52: for whole-second datetimes the conversion is exact and invertible. *)
Theorem C52_whole_seconds_partial :
  forall tz dt, tz mod US = 0 -> dt mod US = 0 ->
    dt_to_milliseconds tz dt = (dt - tz) / 1000 /\ milliseconds_to_dt tz (dt_to_milliseconds tz dt) = dt.
Proof. exact ms_whole. Qed.
Print Assumptions C52_whole_seconds_partial.

Theorem C52_whole_seconds_back_partial :
  forall tz ms, tz mod US = 0 -> ms mod 1000 = 0 ->
    dt_to_milliseconds tz (milliseconds_to_dt tz ms) = ms.
Proof. exact ms_round. Qed.
Print Assumptions C52_whole_seconds_back_partial.

(** C52 in general is false; the result exceeds the true value by the sub-second part
    (counted twice), for every datetime with at least one millisecond of it. *)
Theorem C52_subsecond_refuted :
  forall tz dt, 0 <= dt - tz -> tz mod US = 0 -> 1000 <= dt mod US ->
    (dt - tz) / 1000 < dt_to_milliseconds tz dt.
Proof. exact ms_overshoot. Qed.
Print Assumptions C52_subsecond_refuted.

Theorem C52_not_monotone_refuted :
  exists tz a b, a < b /\ dt_to_milliseconds tz b < dt_to_milliseconds tz a.
Proof. exact ms_not_monotone. Qed.
Print Assumptions C52_not_monotone_refuted.

Theorem C52_back_refuted :
  exists tz ms, tz mod US = 0 /\ dt_to_milliseconds tz (milliseconds_to_dt tz ms) <> ms.
Proof. exact ms_back_bad. Qed.
Print Assumptions C52_back_refuted.

Example C52_demo :
  (28800 * US) mod US = 0 /\ (20000 * DAY + 34200 * US) mod US = 0 /\
  dt_to_milliseconds (28800 * US) (20000 * DAY + 34200 * US) = 1728005400000 /\
  1000 <= (20000 * DAY + 1500) mod US.
Proof. vm_compute. repeat split; discriminate. Qed.
