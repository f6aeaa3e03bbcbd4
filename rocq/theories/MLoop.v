(** Model of jqtrade/scheduler/loop.py (EventLoop) over pyuv, as a labelled
    transition system.  Labels are chosen by the environment: which uv callback
    runs next, the clock readings, what other threads do, when signals arrive.

    uv runs one callback at a time; an Async notification is a flag, a Timer fires
    once at some time after it was armed (modelled: at any time), a signal is
    delivered as a uv callback, i.e. only between other uv callbacks.
    Not modelled: BaseException escaping a callback (only Exception subclasses are
    caught by loop.py:99-105), exceptions whose truth value is False, failures
    inside pyuv. *)
From Verif Require Import PyBase MQueue.

Section Loop.
  (** [C]: callbacks; [W]: the state callbacks read and write; [O]: what the
      environment decides during a callback. *)
  Context {C W O : Type}.

  (** What a callback does to the loop: push a new message (loop.py:110-114 after
      message.py:11-19) or call stop() (loop.py:57-61). *)
  Inductive act := APush (time prio : Z) (cb : C) | AStop.

  (** Running the callback of a message: new world, loop actions in order, and
      the exception it raised, if any. *)
  Definition handler := C -> O -> W -> W * list act * option exn.

  Inductive mode :=
  | Idle                       (* inside uvloop.run(), no callback running *)
  | Checking                   (* at the head of the while loop, loop.py:65 *)
  | Arming (m : msg C)         (* popped a future message, loop.py:79-88 not done yet *)
  | Running (m : msg C)        (* inside message.callback, loop.py:100 *)
  | Returned (r : option exn). (* run() has returned / re-raised *)

  Record lstate := LState {
    l_q : queue (msg C);
    l_seq : Z;              (* Message._unique_num, message.py:10 *)
    l_async : bool;         (* notifier pending *)
    l_timer : option Z;     (* armed timer: wall time it is aimed at *)
    l_stop : bool;          (* _stop_requested *)
    l_exc : option exn;     (* _exception *)
    l_st : option Z;        (* _strategy_time *)
    l_uvstop : bool;        (* uvloop.stop() called *)
    l_sig : bool;           (* SIGTERM/SIGINT arrived, not yet delivered *)
    l_mode : mode;
    l_w : W;
    l_log : list (msg C * Z);  (* ghost: callbacks invoked, with the clock reading *)
    l_raised : list exn        (* ghost: exceptions raised by callbacks *)
  }.

  Definition set_q q s := LState q (l_seq s) (l_async s) (l_timer s) (l_stop s) (l_exc s) (l_st s) (l_uvstop s) (l_sig s) (l_mode s) (l_w s) (l_log s) (l_raised s).
  Definition set_seq v s := LState (l_q s) v (l_async s) (l_timer s) (l_stop s) (l_exc s) (l_st s) (l_uvstop s) (l_sig s) (l_mode s) (l_w s) (l_log s) (l_raised s).
  Definition set_async v s := LState (l_q s) (l_seq s) v (l_timer s) (l_stop s) (l_exc s) (l_st s) (l_uvstop s) (l_sig s) (l_mode s) (l_w s) (l_log s) (l_raised s).
  Definition set_timer v s := LState (l_q s) (l_seq s) (l_async s) v (l_stop s) (l_exc s) (l_st s) (l_uvstop s) (l_sig s) (l_mode s) (l_w s) (l_log s) (l_raised s).
  Definition set_stop v s := LState (l_q s) (l_seq s) (l_async s) (l_timer s) v (l_exc s) (l_st s) (l_uvstop s) (l_sig s) (l_mode s) (l_w s) (l_log s) (l_raised s).
  Definition set_exc v s := LState (l_q s) (l_seq s) (l_async s) (l_timer s) (l_stop s) v (l_st s) (l_uvstop s) (l_sig s) (l_mode s) (l_w s) (l_log s) (l_raised s).
  Definition set_st v s := LState (l_q s) (l_seq s) (l_async s) (l_timer s) (l_stop s) (l_exc s) v (l_uvstop s) (l_sig s) (l_mode s) (l_w s) (l_log s) (l_raised s).
  Definition set_uvstop v s := LState (l_q s) (l_seq s) (l_async s) (l_timer s) (l_stop s) (l_exc s) (l_st s) v (l_sig s) (l_mode s) (l_w s) (l_log s) (l_raised s).
  Definition set_sig v s := LState (l_q s) (l_seq s) (l_async s) (l_timer s) (l_stop s) (l_exc s) (l_st s) (l_uvstop s) v (l_mode s) (l_w s) (l_log s) (l_raised s).
  Definition set_mode v s := LState (l_q s) (l_seq s) (l_async s) (l_timer s) (l_stop s) (l_exc s) (l_st s) (l_uvstop s) (l_sig s) v (l_w s) (l_log s) (l_raised s).
  Definition set_w v s := LState (l_q s) (l_seq s) (l_async s) (l_timer s) (l_stop s) (l_exc s) (l_st s) (l_uvstop s) (l_sig s) (l_mode s) v (l_log s) (l_raised s).
  Definition add_log v s := LState (l_q s) (l_seq s) (l_async s) (l_timer s) (l_stop s) (l_exc s) (l_st s) (l_uvstop s) (l_sig s) (l_mode s) (l_w s) (l_log s ++ [v]) (l_raised s).
  Definition add_raised v s := LState (l_q s) (l_seq s) (l_async s) (l_timer s) (l_stop s) (l_exc s) (l_st s) (l_uvstop s) (l_sig s) (l_mode s) (l_w s) (l_log s) (l_raised s ++ [v]).

  (** loop.py:25-38 [__init__] *)
  Definition l_init (w : W) : lstate :=
    LState q_empty 0 false None false None None false false Idle w [] [].

  (** loop.py:57-61 [stop]; loop.py:107-108 [_notify_loop] *)
  Definition do_stop (s : lstate) : lstate :=
    if l_stop s then s else set_async true (set_stop true s).

  (** loop.py:110-114 [push_message] of an existing message *)
  Definition push_msg (m : msg C) (notify : bool) (s : lstate) : lstate :=
    let s1 := set_q (q_push (l_q s) m (sort_key m)) s in
    if notify then set_async true s1 else s1.

  (** message.py:11-19: create a message (the counter is incremented first) *)
  Definition new_msg (time prio : Z) (cb : C) (s : lstate) : msg C * lstate :=
    (Msg time prio (l_seq s + 1) cb, set_seq (l_seq s + 1)%Z s).

  Definition do_act (a : act) (s : lstate) : lstate :=
    match a with
    | APush time prio cb => let '(m, s1) := new_msg time prio cb s in push_msg m true s1
    | AStop => do_stop s
    end.

  (** loop.py:93-94: leaving check_queue *)
  Definition leave (s : lstate) : lstate :=
    let s1 := set_mode Idle s in
    if l_stop s then set_uvstop true s1 else s1.

  (** One turn of the while loop of check_queue (loop.py:65-76, 91 and 96-100) up to
      the start of the callback or of the timer set-up.  [now] is the clock reading of
      line 73, [ex] the answer of check_exit (loop.py:124-130). *)
  Definition check_turn (now : Z) (ex : bool) (s : lstate) : lstate :=
    if l_stop s then leave s
    else match q_pop (l_q s) with
         | (Err _, _) => leave (set_stop true s)
         | (Ok m, q') =>
             let s1 := set_q q' s in
             if Z.ltb now (m_time m) then
               if ex then leave (do_stop s1)
               else set_mode (Arming m) s1
             else set_mode (Running m) (add_log (m, now) (set_st (Some (m_time m)) s1))
         end.

  (** loop.py:79-89: (re)start the timer aimed at [m_time m], push the message back
      without notification, leave *)
  Definition arm (m : msg C) (s : lstate) : lstate :=
    leave (push_msg m false (set_timer (Some (m_time m)) s)).

  (** loop.py:96-105: the callback body and the except clause *)
  Definition finish (h : handler) (m : msg C) (o : O) (s : lstate) : lstate :=
    let '(w', acts, e) := h (m_cb m) o (l_w s) in
    let s1 := fold_left (fun st a => do_act a st) acts (set_w w' s) in
    let s2 := match e with
              | None => s1
              | Some x => do_stop (set_exc (Some x) (add_raised x s1))
              end in
    set_mode Checking s2.

  Inductive label :=
  | LAsync                     (* uv runs the Async callback: check_queue *)
  | LTimer                     (* uv runs the Timer callback: check_queue *)
  | LSignal                    (* uv runs the Signal callback: handle_signal, loop.py:148-150 *)
  | LSigArrive                 (* SIGTERM or SIGINT is sent to the process *)
  | LTurn (now : Z) (ex : bool)
  | LArm
  | LDone (o : O)
  | LOther (a : act)           (* another thread, or the main thread before run() *)
  | LReturn.                   (* uvloop.run() returns after uvloop.stop(); loop.py:51-55 *)

  (** [None]: the label is not enabled in this state. *)
  Definition l_step (h : handler) (s : lstate) (l : label) : option lstate :=
    match l, l_mode s with
    | LAsync, Idle => if l_async s then Some (set_mode Checking (set_async false s)) else None
    | LTimer, Idle => match l_timer s with
                      | Some _ => Some (set_mode Checking (set_timer None s))
                      | None => None
                      end
    | LSignal, Idle => if l_sig s then Some (do_stop (set_sig false s)) else None
    | LSigArrive, Returned _ => None
    | LSigArrive, _ => Some (set_sig true s)
    | LTurn now ex, Checking => Some (check_turn now ex s)
    | LArm, Arming m => Some (arm m s)
    | LDone o, Running m => Some (finish h m o s)
    | LOther a, Returned _ => None
    | LOther a, _ => Some (do_act a s)
    | LReturn, Idle => if l_uvstop s then Some (set_mode (Returned (l_exc s)) s) else None
    | _, _ => None
    end.

  (** executions *)
  Fixpoint l_exec (h : handler) (s : lstate) (ls : list label) : option lstate :=
    match ls with
    | [] => Some s
    | l :: ls' => match l_step h s l with
                  | Some s' => l_exec h s' ls'
                  | None => None
                  end
    end.

  Definition reachable (h : handler) (w : W) (s : lstate) : Prop :=
    exists ls, l_exec h (l_init w) ls = Some s.

  (** the messages in the queue *)
  Definition queued (s : lstate) : list (msg C) := map snd (l_q s).
End Loop.
Arguments act : clear implicits.
Arguments mode : clear implicits.
Arguments lstate : clear implicits.
Arguments label : clear implicits.
Arguments handler : clear implicits.
