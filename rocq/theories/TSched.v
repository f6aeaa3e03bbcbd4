(** C03, C04, C08: the scheduler on the event loop. *)
From Coq Require Import Sorted.
From Verif Require Import PyBase PyStr MTime MTimeExpr MEventSource MQueue MLoop MSched
  SEvent SSched LEventSource2 LSched3.
Open Scope Z_scope.

(** C03: in every reachable state, if each source has produced its own events in
    order and all instants are whole seconds, the dispatched events of all sources
    together are in order of time, then of descending priority.
    (The full statement has no whole-second hypothesis; it is refuted below.) *)
Theorem C03_dispatch_order_partial :
  forall fuel cfg tz srcs s,
    (0 < fuel)%nat -> sreach fuel cfg tz srcs s -> tz mod US = 0 ->
    (forall k e, In (k, e) (w_emits (l_w s)) -> fst e mod US = 0) ->
    (forall k, StronglySorted before (emitted k (l_w s))) ->
    StronglySorted before (map snd (w_emits (l_w s))).
Proof. exact dispatch_order. Qed.
Print Assumptions C03_dispatch_order_partial.

(** ... in particular for bounded sources with whole-second tasks of one priority
    each, with no hypothesis on the run. *)
Theorem C03_bounded_sources_partial :
  forall fuel cfg tz srcs s,
    (forall es, In es srcs -> exists st e tasks,
       bounded_src cfg es st e tasks /\ (window_days st e < fuel)%nat /\ plain_tasks tasks) ->
    (0 < fuel)%nat -> tz mod US = 0 -> sreach fuel cfg tz srcs s ->
    StronglySorted before (map snd (w_emits (l_w s))).
Proof. exact dispatch_order_bounded. Qed.
Print Assumptions C03_bounded_sources_partial.

(** With a market period opening at 9:30:00.999, "open" is dispatched after "9:30:01". *)
Theorem C03_subsecond_refuted :
  exists fuel cfg tz srcs s,
    (0 < fuel)%nat /\ tz mod US = 0 /\ sreach fuel cfg tz srcs s /\
    (forall k, StronglySorted before (emitted k (l_w s))) /\
    ~ StronglySorted before (map snd (w_emits (l_w s))).
Proof. exact order_witness. Qed.
Print Assumptions C03_subsecond_refuted.

(** C04: at every moment what was dispatched for a bounded source is the beginning
    of its stream, and the source still holds exactly the rest. *)
Theorem C04_exactly_once :
  forall fuel cfg tz srcs s k es0 st e tasks,
    sreach fuel cfg tz srcs s -> nth_error srcs k = Some es0 -> bounded_src cfg es0 st e tasks ->
    (window_days st e < fuel)%nat ->
    exists S es, stream_ok st (Some e) tasks (dt_date st) (dt_date e) S /\
      nth_error (w_srcs (l_w s)) k = Some es /\
      emitted k (l_w s) = firstn (length (emitted k (l_w s))) S /\
      (forall todays, exists es', get_events fuel cfg todays es =
         GOk (answers (length todays) (skipn (length (emitted k (l_w s))) S), es')).
Proof. exact exactly_once. Qed.
Print Assumptions C04_exactly_once.

(** C04: when the loop finds its queue empty, every bounded source was dispatched
    completely ... *)
Theorem C04_complete :
  forall fuel cfg tz srcs s k es0 st e tasks,
    (forall es, In es srcs -> exists st' e' tasks',
       bounded_src cfg es st' e' tasks' /\ (window_days st' e' < fuel)%nat) ->
    sreach fuel cfg tz srcs s -> nth_error srcs k = Some es0 -> bounded_src cfg es0 st e tasks ->
    l_mode s = Checking -> l_stop s = false -> l_q s = [] ->
    stream_ok st (Some e) tasks (dt_date st) (dt_date e) (emitted k (l_w s)).
Proof. exact complete. Qed.
Print Assumptions C04_complete.

(** ... and that check is what ends the loop; it dispatches nothing itself. *)
Theorem C04_empty_queue_ends :
  forall fuel cfg tz srcs s s' now ex,
    (forall es, In es srcs -> exists st' e' tasks',
       bounded_src cfg es st' e' tasks' /\ (window_days st' e' < fuel)%nat) ->
    sreach fuel cfg tz srcs s -> l_mode s = Checking -> l_stop s = false -> l_q s = [] ->
    l_step (sched_handler fuel cfg tz) s (LTurn now ex) = Some s' ->
    l_stop s' = true /\ l_w s' = l_w s.
Proof. exact complete_loop_ended. Qed.
Print Assumptions C04_empty_queue_ends.

(** C04: start-up with bounded sources succeeds (so the above is not vacuous). *)
Theorem C04_boot :
  forall fuel cfg tz srcs dates,
    (forall es, In es srcs -> exists st' e' tasks',
       bounded_src cfg es st' e' tasks' /\ (window_days st' e' < fuel)%nat) ->
    length dates = length srcs -> exists s, boot fuel cfg tz srcs dates = Some s.
Proof. exact boot_starts. Qed.
Print Assumptions C04_boot.

(** C08: while a scheduled callback runs, the event it emits is fixed, and
    strategy_dt is its instant -- for whole seconds other than the epoch. *)
Theorem C08_strategy_dt_partial :
  forall fuel cfg tz srcs s m sid k,
    (0 < fuel)%nat -> sreach fuel cfg tz srcs s -> l_mode s = Running m -> m_cb m = CSched sid k ->
    exists dt c,
      (forall o s', l_step (sched_handler fuel cfg tz) s (LDone o) = Some s' ->
         w_emits (l_w s') = w_emits (l_w s) ++ [(k, (dt, c))]) /\
      (tz mod US = 0 -> dt mod US = 0 -> dt <> tz -> strategy_dt tz s = Some dt).
Proof. exact strategy_dt_ok. Qed.
Print Assumptions C08_strategy_dt_partial.

(** C08 for all scheduled datetimes is false: for a task at 9:30:00.999 strategy_dt
    is 999 ms late. *)
Theorem C08_subsecond_refuted :
  exists fuel cfg tz srcs s m sid k s' e0 dt c,
    sreach fuel cfg tz srcs s /\ l_mode s = Running m /\ m_cb m = CSched sid k /\
    l_step (sched_handler fuel cfg tz) s (LDone out0) = Some s' /\
    w_emits (l_w s') = [e0; (k, (dt, c))] /\ strategy_dt tz s = Some (dt + 999000).
Proof. exact strategy_dt_witness. Qed.
Print Assumptions C08_subsecond_refuted.

(** Two sources over two days: "open" with priority 0, and "9:30:00", "9:31:00" with
    priority 1, run to the end with a late clock and a timer wait. *)
Definition demo_cls1 : ecls := ECls (lit "Scheduler_g_1") 1.
Definition demo_srcs : list esrc :=
  [ src1 (lit "open") (10 * DAY) (Some (12 * DAY - 1));
    es_add_daily demo_cls1 (lit "9:31:00")
      (es_add_daily demo_cls1 (lit "9:30:00") (es_new (Some (10 * DAY)) (Some (12 * DAY - 1)))) ].
Definition demo_now : Z := (13 * DAY) / 1000.
Definition demo_run : list (label scb sout) :=
  [LAsync; LTurn 0 false; LArm; LTimer] ++
  concat (repeat [LTurn demo_now false; LDone out0] 6).

Example C03_demo :
  match boot 10 cfg_default 0 demo_srcs [10; 10] with
  | Some s0 =>
      match l_exec (sched_handler 10 cfg_default 0) s0 demo_run with
      | Some s =>
          map (fun x => (fst x, fst (snd x))) (w_emits (l_w s)) =
            [(1%nat, 10 * DAY + 34200 * US); (0%nat, 10 * DAY + 34200 * US); (1%nat, 10 * DAY + 34260 * US);
             (1%nat, 11 * DAY + 34200 * US); (0%nat, 11 * DAY + 34200 * US); (1%nat, 11 * DAY + 34260 * US)] /\
          l_mode s = Checking /\ l_stop s = false /\ l_q s = []
      | None => False
      end
  | None => False
  end.
Proof. vm_compute. repeat split; reflexivity. Qed.

Example C04_demo :
  forall es, In es demo_srcs -> exists st e tasks,
    bounded_src cfg_default es st e tasks /\ (window_days st e < 10)%nat /\ plain_tasks tasks.
Proof.
  intros es [<-|[<-|[]]].
  - exists (10 * DAY), (12 * DAY - 1), [(34200 * US, cls0)].
    split; [|split].
    + repeat split. constructor; [split; vm_compute; reflexivity|constructor].
    + apply Nat.ltb_lt. vm_compute. reflexivity.
    + exists 0. repeat constructor; vm_compute; congruence.
  - exists (10 * DAY), (12 * DAY - 1), [(34200 * US, demo_cls1); (34260 * US, demo_cls1)].
    split; [|split].
    + repeat split. constructor; [split; vm_compute; reflexivity|constructor; [split; vm_compute; reflexivity|constructor]].
    + apply Nat.ltb_lt. vm_compute. reflexivity.
    + exists 1. repeat constructor; vm_compute; congruence.
Qed.

(** at the second dispatch of the demo, strategy_dt is 9:30 although the clock says day 13 *)
Example C08_demo :
  match boot 10 cfg_default 0 demo_srcs [10; 10] with
  | Some s0 =>
      match l_exec (sched_handler 10 cfg_default 0) s0 (firstn 7 demo_run) with
      | Some s => strategy_dt 0 s = Some (10 * DAY + 34200 * US) /\
                  match l_mode s with Running m => m_cb m = CSched 1 0 | _ => False end
      | None => False
      end
  | None => False
  end.
Proof. vm_compute. split; reflexivity. Qed.
