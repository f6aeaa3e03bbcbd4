(** Model of EventSource (jqtrade/scheduler/event_source.py:20-159). *)
From Verif Require Import PyBase PyStr MTime MTimeExpr.
Open Scope Z_scope.

(** Event classes (event.py): identified by name, with a priority. *)
Record ecls := ECls { ec_name : str; ec_prio : Z }.

(** Settings the code reads: config.ENABLE_HISTORY_START, the default argument
    [count=config.EVENT_DAYS_COUNT] (evaluated once, line 62), and the market period in
    force (line 164). *)
Record escfg := ESCfg { cf_hist : bool; cf_count : Z; cf_mp : periods }.

(** lines 26-43.  [es_cbs]: the schedule ids captured by the registered
    event-changed callbacks (the [reschedule] closures). *)
Record esrc := ES {
  es_daily : list (str * ecls);
  es_events : list (Z * ecls);
  es_days : list Z;
  es_start : option Z;
  es_end : option Z;
  es_need : bool;
  es_his : bool;
  es_cbs : list Z
}.

Definition es_new (start end_ : option Z) : esrc := ES [] [] [] start end_ true false [].

Definition es_set_gen (ev : list (Z * ecls)) (days : list Z) (need his : bool) (es : esrc) : esrc :=
  ES (es_daily es) ev days (es_start es) (es_end es) need his (es_cbs es).
Definition es_set_start (st : option Z) (es : esrc) : esrc :=
  ES (es_daily es) (es_events es) (es_days es) st (es_end es) (es_need es) (es_his es) (es_cbs es).

(** result of a call that may raise or not terminate (fuel exhausted).
    Simplification: the source's state after a raise is not represented (an
    exception here ends the process start-up or stops the loop). *)
Inductive gres (A : Type) := GOk (a : A) | GErr (e : exn) | GFuel.
Arguments GOk {A}. Arguments GErr {A}. Arguments GFuel {A}.

Definition day_range (start count : Z) : list Z :=
  map (fun k => start + Z.of_nat k) (seq 0 (Z.to_nat count)).

(** lines 62-80 [_get_days]: (days, has_gen_his_days) *)
Definition get_days (cfg : escfg) (today : Z) (es : esrc) : res (list Z * bool) :=
  if cf_hist cfg || match es_end es with Some _ => true | None => false end then
    if es_his es then Ok ([], true)
    else match es_start es with
         | None => Err AttributeError
         | Some st =>
             let s := dt_date st in
             let n := match es_end es with
                      | Some e => dt_date e - s + 1
                      | None => cf_count cfg
                      end in
             Ok (day_range s n, true)
         end
  else Ok (day_range today (cf_count cfg), true).

(** lines 53-60 [_reset_events_if_needed] *)
Definition reset_if_needed (cfg : escfg) (today : Z) (es : esrc) : res esrc :=
  if es_need es then
    do (days, his) <- get_days cfg today (es_set_gen [] (es_days es) true false es);
    Ok (es_set_gen [] days false his es)
  else Ok es.

(** lines 45-51 [setup]; [now] is the clock reading *)
Definition es_setup (cfg : escfg) (now : Z) (es : esrc) : res esrc :=
  let st := match es_start es with
            | None => Some now
            | Some s => if cf_hist cfg then Some s else Some now
            end in
  reset_if_needed cfg (dt_date now) (es_set_start st es).

(** lines 137-159 [add_event] *)
Definition add_event (cfg : escfg) (es : esrc) (day : Z) (expr : str) (c : ecls)
    (evs : list (Z * ecls)) : res (list (Z * ecls)) :=
  do off <- expr_offset (cf_mp cfg) expr;
  let dt := combine day off in
  match es_start es with
  | None => Err TypeError                       (* dt < None *)
  | Some st =>
      if dt <? st then Ok evs
      else if match es_end es with Some e => e <? dt | None => false end then Ok evs
      else Ok (evs ++ [(dt, c)])
  end.

(** lines 133-135 [add_daily_events] *)
Fixpoint add_daily_events (cfg : escfg) (es : esrc) (day : Z) (daily : list (str * ecls))
    (evs : list (Z * ecls)) : res (list (Z * ecls)) :=
  match daily with
  | [] => Ok evs
  | (expr, c) :: daily' =>
      do evs' <- add_event cfg es day expr c evs;
      add_daily_events cfg es day daily' evs'
  end.

(** lines 121-129: the while loop.  Simplification: [datetime.date.today()] is read
    once per call of gen_events. *)
Fixpoint gen_loop (fuel : nat) (cfg : escfg) (today : Z) (es : esrc) : gres esrc :=
  match fuel with
  | O => GFuel
  | S f =>
      match es_events es with
      | _ :: _ => GOk es
      | [] =>
          match (match es_days es with
                 | [] => get_days cfg today es
                 | _ => Ok (es_days es, es_his es)
                 end) with
          | Err e => GErr e
          | Ok (days, his) =>
              match days with
              | [] => GOk (es_set_gen [] [] (es_need es) his es)
              | day :: days' =>
                  match add_daily_events cfg es day (es_daily es) [] with
                  | Err e => GErr e
                  | Ok evs => gen_loop f cfg today (es_set_gen evs days' (es_need es) his es)
                  end
              end
          end
      end
  end.

(** lines 116-131 [gen_events] *)
Definition gen_events (fuel : nat) (cfg : escfg) (today : Z) (es : esrc) : gres esrc :=
  match reset_if_needed cfg today es with
  | Err e => GErr e
  | Ok es1 =>
      match es_events es1 with
      | _ :: _ => GOk es1
      | [] => match gen_loop fuel cfg today es1 with
              | GOk es2 => GOk (es_set_gen (sort_by fst (es_events es2)) (es_days es2)
                                  (es_need es2) (es_his es2) es2)
              | r => r
              end
      end
  end.

(** lines 96-104 [peek_next_event] *)
Definition peek_next_event (fuel : nat) (cfg : escfg) (today : Z) (es : esrc)
  : gres (option (Z * ecls) * esrc) :=
  match gen_events fuel cfg today es with
  | GOk es1 => GOk (hd_error (es_events es1), es1)
  | GErr e => GErr e
  | GFuel => GFuel
  end.

(** lines 106-114 [get_next_event] *)
Definition get_next_event (fuel : nat) (cfg : escfg) (today : Z) (es : esrc)
  : gres (option (Z * ecls) * esrc) :=
  match gen_events fuel cfg today es with
  | GOk es1 =>
      match es_events es1 with
      | [] => GOk (None, es1)
      | e :: evs => GOk (Some e, es_set_gen evs (es_days es1) (es_need es1) (es_his es1) es1)
      end
  | GErr e => GErr e
  | GFuel => GFuel
  end.

(** lines 82-88 [daily] without the callbacks (see MSched for these) *)
Definition es_add_daily (c : ecls) (expr : str) (es : esrc) : esrc :=
  ES (es_daily es ++ [(expr, c)]) (es_events es) (es_days es) (es_start es) (es_end es)
     true (es_his es) (es_cbs es).

(** successive get_next_event calls, each seeing its own date *)
Fixpoint get_events (fuel : nat) (cfg : escfg) (todays : list Z) (es : esrc)
  : gres (list (option (Z * ecls)) * esrc) :=
  match todays with
  | [] => GOk ([], es)
  | t :: ts =>
      match get_next_event fuel cfg t es with
      | GOk (r, es1) =>
          match get_events fuel cfg ts es1 with
          | GOk (rs, es2) => GOk (r :: rs, es2)
          | GErr e => GErr e
          | GFuel => GFuel
          end
      | GErr e => GErr e
      | GFuel => GFuel
      end
  end.
