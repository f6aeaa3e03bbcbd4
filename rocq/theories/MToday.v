(** EventSource.gen_events (jqtrade/scheduler/event_source.py:116-131) with the date read anew
    each time [datetime.date.today()] is called (line 73), so that midnight, or a change of the
    clock, may come between two readings of one generation.  MEventSource.v reads it once. *)
From Verif Require Import PyBase PyStr MTime MTimeExpr MEventSource.
Open Scope Z_scope.

(** lines 65-73: the date is read only in live mode *)
Definition reads_date (cfg : escfg) (es : esrc) : bool :=
  negb (cf_hist cfg || match es_end es with Some _ => true | None => false end).
(** the readings left after one more call of _get_days *)
Definition later (cfg : escfg) (es : esrc) (dates : nat -> Z) : nat -> Z :=
  if reads_date cfg es then fun k => dates (S k) else dates.

(** lines 121-129; [dates k]: the k-th date read from here on *)
Fixpoint gen_loop_t (fuel : nat) (cfg : escfg) (dates : nat -> Z) (es : esrc) : gres esrc :=
  match fuel with
  | O => GFuel
  | S f =>
      match es_events es with
      | _ :: _ => GOk es
      | [] =>
          match (match es_days es with
                 | [] => (get_days cfg (dates 0%nat) es, later cfg es dates)
                 | _ => (Ok (es_days es, es_his es), dates)
                 end) with
          | (Err e, _) => GErr e
          | (Ok (days, his), dates') =>
              match days with
              | [] => GOk (es_set_gen [] [] (es_need es) his es)
              | day :: days' =>
                  match add_daily_events cfg es day (es_daily es) [] with
                  | Err e => GErr e
                  | Ok evs => gen_loop_t f cfg dates' (es_set_gen evs days' (es_need es) his es)
                  end
              end
          end
      end
  end.

(** lines 116-131 *)
Definition gen_events_t (fuel : nat) (cfg : escfg) (dates : nat -> Z) (es : esrc) : gres esrc :=
  match reset_if_needed cfg (dates 0%nat) es with
  | Err e => GErr e
  | Ok es1 =>
      match es_events es1 with
      | _ :: _ => GOk es1
      | [] => match gen_loop_t fuel cfg (if es_need es then later cfg es dates else dates) es1 with
              | GOk es2 => GOk (es_set_gen (sort_by fst (es_events es2)) (es_days es2) (es_need es2) (es_his es2) es2)
              | r => r
              end
      end
  end.
