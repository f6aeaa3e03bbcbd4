(** C17, C18: re-scheduling and the event bus. *)
From Coq Require Import Permutation Sorted.
From Verif Require Import PyBase PyStr MTime MTimeExpr MEventSource MQueue MLoop MSched MResched
  MBus SBus LBus LResched LEventSource2.
Open Scope Z_scope.

(** C17 "daily() on a scheduled source returns" is false: after schedule, daily never
    returns normally, however many rounds it runs (each round appends another
    callback to the list being iterated). *)
Theorem C17_daily_returns_refuted :
  forall fuel cfg tz k date s s', schedule_cb fuel cfg tz k date s = Some s' ->
    forall n c expr dates s2, daily fuel cfg tz n k c expr dates s' <> RRet s2.
Proof. exact daily_after_schedule. Qed.
Print Assumptions C17_daily_returns_refuted.

(** What holds: before it is scheduled, daily() returns, adds the entry, and leaves
    queue and registry alone ... *)
Theorem C17_unscheduled_partial :
  forall fuel cfg tz n k c expr dates s es,
    nth_error (w_srcs (l_w s)) k = Some es -> es_cbs es = [] ->
    exists s', daily fuel cfg tz (S n) k c expr dates s = RRet s' /\ l_q s' = l_q s /\
      w_reg (l_w s') = w_reg (l_w s) /\
      exists es', nth_error (w_srcs (l_w s')) k = Some es' /\ es_need es' = true /\
        es_daily es' = es_daily es ++ [(expr, c)].
Proof. exact daily_unscheduled. Qed.
Print Assumptions C17_unscheduled_partial.

(** ... and the outstanding message of a retired schedule does nothing. *)
Theorem C17_retired_message_partial :
  forall fuel cfg tz sid k o (s : lstate scb sworld),
    NoDup (dkeys (w_reg (l_w s))) ->
    sched_handler fuel cfg tz (CSched sid k) o (l_w (unschedule sid s)) = (l_w (unschedule sid s), [], None).
Proof. intros fuel cfg tz sid k o s H. apply retired_inert, unschedule_gone, H. Qed.
Print Assumptions C17_retired_message_partial.

(** a scheduled source; daily() is still running after 5 rounds *)
Definition c17_s0 : lstate scb sworld := l_init (SW [src1 (lit "9:30:00") 0 None] [] 0 [] false).
Example C17_demo :
  match schedule_cb 400 cfg_default 0 0 0 c17_s0 with
  | Some s => length (l_q s) = 1%nat /\
      daily 400 cfg_default 0 5 0 cls0 (lit "9:31:00") (fun _ => 0) s = RFuel
  | None => False
  end.
Proof. vm_compute. split; reflexivity. Qed.

(** C18: a delivery calls, class by class in the order of first registration, the
    live registrations of every class the event is an instance of: each once, higher
    priority first, registration order within a priority. *)
Theorem C18_delivery_partial :
  forall (K C E : Type) (HK : Eqb K) (HC : Eqb C) (inst : E -> K -> bool) ops e,
    exists rs,
      Forall2 (fun k r => delivers (of_class k (live ops)) r) (filter (inst e) (classes ops [])) rs /\
      calls inst e (b_run ops) = concat rs.
Proof. exact @delivery. Qed.
Print Assumptions C18_delivery_partial.

(** For an event that only its own class matches: exactly that class's registrations. *)
Theorem C18_own_class_partial :
  forall (K C E : Type) (HK : Eqb K) (HC : Eqb C) (inst : E -> K -> bool) ops e k,
    inst e k = true -> (forall k' c p, In (Reg k' c p) ops -> inst e k' = true -> k' = k) ->
    delivers (of_class k (live ops)) (calls inst e (b_run ops)).
Proof. exact @delivery_one. Qed.
Print Assumptions C18_own_class_partial.

(** Delivery makes these calls in order and stops at the first exception. *)
Theorem C18_exception_partial :
  forall (C V : Type) (f : C -> res V) cs,
    match run_calls f cs with
    | (done, Ok vs) => done = cs /\ Forall2 (fun c v => f c = Ok v) cs vs
    | (done, Err x) => exists pre c post, cs = pre ++ c :: post /\ done = pre ++ [c] /\ f c = Err x /\
                         Forall (fun c => exists v, f c = Ok v) pre
    end.
Proof. exact @run_calls_prefix. Qed.
Print Assumptions C18_exception_partial.

(** C18: unregistering a callback registered once per priority removes exactly it. *)
Theorem C18_unregister_partial :
  forall (K C : Type) (HK : Eqb K) (HC : Eqb C) (ops : list (bop K C)) k c,
    NoDup (map en_prio (filter (same_reg k c) (live ops))) ->
    live (ops ++ [Unreg k c]) = filter (fun x => negb (same_reg k c x)) (live ops).
Proof. exact @unregister_once. Qed.
Print Assumptions C18_unregister_partial.

(** Every other registration is untouched, in any history. *)
Theorem C18_unregister_others_partial :
  forall (K C : Type) (HK : Eqb K) (HC : Eqb C) (ops : list (bop K C)) k c,
    filter (fun x => negb (same_reg k c x)) (live (ops ++ [Unreg k c])) =
    filter (fun x => negb (same_reg k c x)) (live ops).
Proof. exact @unregister_others. Qed.
Print Assumptions C18_unregister_others_partial.

(** "unregister removes it" is false for a callback registered twice. *)
Theorem C18_double_registration_refuted :
  exists (ops : list (bop nat nat)) k c,
    calls (fun (_ : unit) (_ : nat) => true) tt (b_run (ops ++ [Unreg k c])) = [c].
Proof. exists [Reg 0%nat 7%nat 0; Reg 0%nat 7%nat 0], 0%nat, 7%nat. reflexivity. Qed.
Print Assumptions C18_double_registration_refuted.

Example C18_demo :
  let ops := [Reg 0%nat 10%nat 0; Reg 0%nat 11%nat 2; Reg 1%nat 12%nat 5; Reg 0%nat 13%nat 2;
              Reg 0%nat 14%nat 0; Unreg 0%nat 11%nat] in
  calls (fun e k => Nat.eqb e k) 0%nat (b_run ops) = [13; 10; 14]%nat /\
  NoDup (map en_prio (filter (same_reg 0%nat 11%nat) (live (firstn 5 ops)))) /\
  live (firstn 5 ops) <> live ops.
Proof. cbn zeta. split; [vm_compute; reflexivity|]. split; [vm_compute; repeat constructor; intros []|]. vm_compute. discriminate. Qed.
