(** C02, C05, C06, C07: the event loop (loop.py). *)
From Verif Require Import PyBase MQueue MLoop LLoop LLoop2.
Open Scope Z_scope.

(** C02: whatever the callbacks, wake-ups, clocks and pushes, a callback is only
    invoked when the clock reading of its dispatch is not before its time. *)
Theorem C02_never_early :
  forall (C W O : Type) (h : handler C W O) (w : W) (s : lstate C W),
    reachable h w s ->
    forall m now, In (m, now) (l_log s) -> m_time m <= now.
Proof. exact @not_early. Qed.
Print Assumptions C02_never_early.

(** C05: idle, not stopped, something queued: a wake-up is outstanding. *)
Theorem C05_no_lost_wakeup :
  forall (C W O : Type) (h : handler C W O) (w : W) (s : lstate C W),
    reachable h w s ->
    l_mode s = Idle -> l_stop s = false -> queued s <> [] ->
    l_async s = true \/
    exists d, l_timer s = Some d /\ forall m, In m (queued s) -> d <= m_time m.
Proof. exact @no_lost_wakeup. Qed.
Print Assumptions C05_no_lost_wakeup.

(** ... and serving it when the clock has reached a queued message starts the
    callback of an earliest queued message. *)
Theorem C05_wakeup_dispatches :
  forall (C W O : Type) (h : handler C W O) (w : W) (s : lstate C W) l s1 now ex,
    reachable h w s ->
    l_mode s = Idle -> l_stop s = false ->
    (l = LAsync \/ l = LTimer) -> l_step h s l = Some s1 ->
    (exists m, In m (queued s) /\ m_time m <= now) ->
    exists m s2, l_step h s1 (LTurn now ex) = Some s2 /\ l_mode s2 = Running m /\
      In m (queued s) /\ l_log s2 = l_log s ++ [(m, now)] /\
      (forall m', In m' (queued s) -> m_time m <= m_time m').
Proof. exact @wakeup_dispatches. Qed.
Print Assumptions C05_wakeup_dispatches.

(** C06: once the stop flag is set, no callback is ever started again. *)
Theorem C06_stopped_dispatches_nothing :
  forall (C W O : Type) (h : handler C W O) ls (s s' : lstate C W),
    l_exec h s ls = Some s' -> l_stop s = true ->
    l_stop s' = true /\ l_log s' = l_log s.
Proof. exact @stopped_exec. Qed.
Print Assumptions C06_stopped_dispatches_nothing.

(** C06: a callback's exception sets the flag and is the one recorded ... *)
Theorem C06_exception_stops :
  forall (C W O : Type) (h : handler C W O) w (s : lstate C W) m o s' x w' acts,
    reachable h w s ->
    l_mode s = Running m -> h (m_cb m) o (l_w s) = (w', acts, Some x) ->
    l_step h s (LDone o) = Some s' ->
    l_stop s' = true /\ l_raised s' = [x] /\ l_exc s' = Some x.
Proof. exact @raise_stops. Qed.
Print Assumptions C06_exception_stops.

(** C06: ... a delivered signal and an empty queue set it too ... *)
Theorem C06_signal_stops :
  forall (C W O : Type) (h : handler C W O) (s s' : lstate C W),
    l_step h s LSignal = Some s' -> l_stop s' = true.
Proof. exact @signal_stops. Qed.
Print Assumptions C06_signal_stops.

Theorem C06_empty_queue_stops :
  forall (C W O : Type) (h : handler C W O) (s : lstate C W) now ex s',
    l_q s = [] -> l_step h s (LTurn now ex) = Some s' -> l_stop s' = true.
Proof. exact @empty_stops. Qed.
Print Assumptions C06_empty_queue_stops.

(** C06: run() ends with exactly the first exception raised by a callback, and
    normally if none was raised. *)
Theorem C06_run_result :
  forall (C W O : Type) (h : handler C W O) w (s : lstate C W) r,
    reachable h w s -> l_mode s = Returned r -> r = hd_error (l_raised s).
Proof. exact @run_result. Qed.
Print Assumptions C06_run_result.

(** C07, full statement: if a signal is pending while a callback runs, no other
    callback is started:
      forall h w s m ls s', reachable h w s -> l_mode s = Running m -> l_sig s = true ->
        l_exec h s ls = Some s' -> l_log s' = l_log s.
    It is false: signals are delivered by uv between uv callbacks only, and one
    check_queue call drains all due messages; any number of callbacks may still
    start. *)
Theorem C07_signal_after_current_task_refuted :
  exists (h : handler unit unit unit) w s m,
    reachable h w s /\ l_mode s = Running m /\ l_sig s = true /\
    forall n, exists ls s', l_exec h s ls = Some s' /\ length (l_log s') = (n + length (l_log s))%nat.
Proof. exact signal_ignored_witness. Qed.
Print Assumptions C07_signal_after_current_task_refuted.

(** C07, restricted: from the delivery of the signal (handle_signal) on, nothing is
    started.  Missing: callbacks started between arrival and delivery. *)
Theorem C07_delivered_signal_partial :
  forall (C W O : Type) (h : handler C W O) (s s1 : lstate C W) ls s',
    l_step h s LSignal = Some s1 -> l_exec h s1 ls = Some s' -> l_log s' = l_log s.
Proof. exact @signal_delivered. Qed.
Print Assumptions C07_delivered_signal_partial.

(** The demo run (LLoop2): two messages, the first callback pushes a third; the
    loop is idle with the timer aimed at the earliest remaining message. *)
Example loop_demo :
  match l_exec h_any (l_init tt) demo with
  | Some s => l_mode s = Idle /\ l_stop s = false /\ queued s <> [] /\
              l_timer s = Some 15 /\ map (fun e => (m_cb (fst e), snd e)) (l_log s) = [(1%nat, 12)]
  | None => False
  end.
Proof. vm_compute. repeat split; discriminate. Qed.

(** the demo continued: message 3 (due 15) raises, run() re-raises *)
Example loop_demo_raise :
  match l_exec h_any (l_init tt)
          (demo ++ [LTimer; LTurn 30 false; LDone ([], Some (UserExn 7)); LTurn 30 false; LReturn]) with
  | Some s => l_mode s = Returned (Some (UserExn 7)) /\ map (fun e => m_cb (fst e)) (l_log s) = [1%nat; 3%nat]
  | None => False
  end.
Proof. vm_compute. split; reflexivity. Qed.

(** ... or a signal is delivered *)
Example loop_demo_signal :
  match l_exec h_any (l_init tt) (demo ++ [LSigArrive; LSignal; LAsync; LTurn 99 false; LReturn]) with
  | Some s => l_mode s = Returned None /\ length (l_log s) = 1%nat
  | None => False
  end.
Proof. vm_compute. split; reflexivity. Qed.

(** ... or a wake-up is served (C05_wakeup_dispatches) *)
Example loop_demo_wakeup :
  match l_exec h_any (l_init tt) demo with
  | Some s => exists s1, l_step h_any s LTimer = Some s1 /\ (exists m, In m (queued s) /\ m_time m <= 16)
  | None => False
  end.
Proof.
  vm_compute. eexists. split; [reflexivity|].
  exists (Msg 15 3 3 3%nat). split; [left; reflexivity|discriminate].
Qed.
