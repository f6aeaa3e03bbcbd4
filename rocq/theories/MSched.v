(** Model of EventSourceScheduler (jqtrade/scheduler/event_source.py:182-232): the
    callbacks it puts on the event loop.

    Simplifications: user callbacks do not touch the scheduler (no API does); what a
    source looks like after it raised is not represented (a raise stops the loop);
    the fuel bound of the source is a parameter, exhausting it sets [w_hung]. *)
From Verif Require Import PyBase PyStr MTime MTimeExpr MEventSource MQueue MLoop.
Open Scope Z_scope.

(** Loop callbacks: the closure [callback] of lines 206-215, which holds its schedule
    id and its source (an index), or anything else pushed on the loop
    (EventLoop.defer, loop.py:132-134). *)
Inductive scb := CSched (sid : Z) (src : nat) | COther.

Record sworld := SW {
  w_srcs : list esrc;                   (* the EventSource objects *)
  w_reg : dict Z nat;                   (* _event_sources, line 191 *)
  w_sid : Z;                            (* _unique_id, line 188 *)
  w_emits : list (nat * (Z * ecls));    (* ghost: events emitted, with their source *)
  w_hung : bool                         (* a source did not return *)
}.

(** What the environment decides during one callback: the date seen by
    get_next_event and peek_next_event, the messages user code defers, and the
    exception a subscriber of the emitted event raises. *)
Record sout := SOut { o_date : Z; o_date2 : Z; o_defer : list (Z * Z); o_exn : option exn }.

Fixpoint lset {A} (k : nat) (x : A) (l : list A) : list A :=
  match l, k with
  | [], _ => []
  | _ :: l', O => x :: l'
  | y :: l', S k' => y :: lset k' x l'
  end.

Definition set_src (k : nat) (es : esrc) (w : sworld) : sworld :=
  SW (lset k es (w_srcs w)) (w_reg w) (w_sid w) (w_emits w) (w_hung w).
Definition add_emit (k : nat) (e : Z * ecls) (w : sworld) : sworld :=
  SW (w_srcs w) (w_reg w) (w_sid w) (w_emits w ++ [(k, e)]) (w_hung w).
Definition set_hung (w : sworld) : sworld :=
  SW (w_srcs w) (w_reg w) (w_sid w) (w_emits w) true.

Section Sched.
  Variables (fuel : nat) (cfg : escfg) (tz : Z).

  (** lines 217-225 [push_next_msg] *)
  Definition push_next (sid : Z) (k : nat) (date : Z) (es : esrc) (w : sworld)
    : sworld * list (act scb) * option exn :=
    match peek_next_event fuel cfg date es with
    | GOk (None, es2) => (set_src k es2 w, [], None)
    | GOk (Some (dt, c), es2) =>
        (set_src k es2 w, [APush (dt_to_milliseconds tz dt) (ec_prio c) (CSched sid k)], None)
    | GErr x => (w, [], Some x)
    | GFuel => (set_hung w, [], None)
    end.

  (** lines 206-215 [callback] *)
  Definition sched_callback (sid : Z) (k : nat) (o : sout) (w : sworld)
    : sworld * list (act scb) * option exn :=
    if negb (dmem sid (w_reg w)) then (w, [], None)
    else match nth_error (w_srcs w) k with
         | None => (w, [], None)
         | Some es =>
             match get_next_event fuel cfg (o_date o) es with
             | GErr x => (w, [], Some x)
             | GFuel => (set_hung w, [], None)
             | GOk (None, es1) => (set_src k es1 w, [], None)
             | GOk (Some e, es1) =>
                 let w1 := add_emit k e (set_src k es1 w) in
                 let defers := map (fun p => APush (fst p) (snd p) COther) (o_defer o) in
                 match o_exn o with
                 | Some x => (w1, defers, Some x)
                 | None => let '(w2, acts, x) := push_next sid k (o_date2 o) es1 w1 in
                           (w2, defers ++ acts, x)
                 end
             end
         end.

  Definition sched_handler : handler scb sworld sout :=
    fun cb o w => match cb with
                  | CSched sid k => sched_callback sid k o w
                  | COther => (w, map (fun p => APush (fst p) (snd p) COther) (o_defer o), o_exn o)
                  end.

  (** lines 193-226 [schedule] of source [k]; [None]: it raised or did not return *)
  Definition schedule (k : nat) (date : Z) (s : lstate scb sworld) : option (lstate scb sworld) :=
    let w := l_w s in
    let sid := w_sid w + 1 in
    let w1 := SW (w_srcs w) (dset sid k (w_reg w)) sid (w_emits w) (w_hung w) in
    match nth_error (w_srcs w1) k with
    | None => None
    | Some es =>
        match push_next sid k date es w1 with
        | (w2, acts, None) =>
            if w_hung w2 then None
            else Some (fold_left (fun st a => do_act a st) acts (set_w w2 s))
        | (_, _, Some _) => None
        end
    end.

  Fixpoint schedule_all (k : nat) (dates : list Z) (s : lstate scb sworld) : option (lstate scb sworld) :=
    match dates with
    | [] => Some s
    | d :: dates' => match schedule k d s with
                     | Some s' => schedule_all (S k) dates' s'
                     | None => None
                     end
    end.

  (** process start: all sources are scheduled in order, before the loop runs *)
  Definition boot (srcs : list esrc) (dates : list Z) : option (lstate scb sworld) :=
    schedule_all 0 dates (l_init (SW srcs [] 0 [] false)).

  (** other threads may defer callbacks or stop the loop; they do not forge the
      scheduler's messages *)
  Definition ok_label (l : label scb sout) : Prop :=
    match l with LOther (APush _ _ (CSched _ _)) => False | _ => True end.

  (** states of a process started with these sources *)
  Definition sreach (srcs : list esrc) (s : lstate scb sworld) : Prop :=
    exists dates s0 ls, length dates = length srcs /\ boot srcs dates = Some s0 /\
      Forall ok_label ls /\ l_exec sched_handler s0 ls = Some s.
End Sched.

(** loop.py:157-159 [strategy_dt]; [if self._strategy_time] is false for 0 *)
Definition strategy_dt {C W} (tz : Z) (s : lstate C W) : option Z :=
  match l_st s with
  | Some t => if t =? 0 then None else Some (milliseconds_to_dt tz t)
  | None => None
  end.

(** events emitted for one source, in order *)
Definition emitted (k : nat) (w : sworld) : list (Z * ecls) :=
  map snd (filter (fun e => Nat.eqb (fst e) k) (w_emits w)).
