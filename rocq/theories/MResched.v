(** Model of re-scheduling (jqtrade/scheduler/event_source.py:82-94, 193-234): what
    EventSource.daily() does once the source is scheduled. *)
From Verif Require Import PyBase PyStr MTime MTimeExpr MEventSource MQueue MLoop MSched.
Open Scope Z_scope.

(** line 94 *)
Definition es_add_cb (sid : Z) (es : esrc) : esrc :=
  ES (es_daily es) (es_events es) (es_days es) (es_start es) (es_end es) (es_need es) (es_his es)
     (es_cbs es ++ [sid]).

(** returned, raised (or a peek did not return), or still running after [n] rounds *)
Inductive rout := RRet (s : lstate scb sworld) | RRaise | RFuel.

Section R.
  Variables (fuel : nat) (cfg : escfg) (tz : Z).

  (** lines 193-230 [schedule] including line 228 *)
  Definition schedule_cb (k : nat) (date : Z) (s : lstate scb sworld) : option (lstate scb sworld) :=
    match nth_error (w_srcs (l_w s)) k with
    | None => None
    | Some es => schedule fuel cfg tz k date
                   (set_w (set_src k (es_add_cb (w_sid (l_w s) + 1) es) (l_w s)) s)
    end.

  (** lines 232-234 *)
  Definition unschedule (sid : Z) (s : lstate scb sworld) : lstate scb sworld :=
    let w := l_w s in
    set_w (SW (w_srcs w) (dpop sid (w_reg w)) (w_sid w) (w_emits w) (w_hung w)) s.

  (** lines 90-91: a Python for loop over a list that grows while it runs; [i] is the
      iterator's index, [dates i] the date seen by the i-th reschedule (201-204) *)
  Fixpoint fire_changed (n k i : nat) (dates : nat -> Z) (s : lstate scb sworld) : rout :=
    match n with
    | O => RFuel
    | S n' =>
        match nth_error (w_srcs (l_w s)) k with
        | None => RRaise
        | Some es =>
            match nth_error (es_cbs es) i with
            | None => RRet s
            | Some sid =>
                match schedule_cb k (dates i) (unschedule sid s) with
                | None => RRaise
                | Some s' => fire_changed n' k (S i) dates s'
                end
            end
        end
    end.

  (** lines 82-91 [daily] *)
  Definition daily (n k : nat) (c : ecls) (expr : str) (dates : nat -> Z) (s : lstate scb sworld) : rout :=
    match nth_error (w_srcs (l_w s)) k with
    | None => RRaise
    | Some es => fire_changed n k 0 dates (set_w (set_src k (es_add_daily c expr es) (l_w s)) s)
    end.
End R.
