(** Model of jqtrade/scheduler/loop.py:96-105 when a callback raises something that is no
    Exception (KeyboardInterrupt, GeneratorExit, asyncio.CancelledError, a class of its own
    below BaseException): [except Exception] does not take it, so it leaves handle_message
    and check_queue at once, past lines 93-94.  pyuv prints an error that leaves a callback
    ("Unhandled exception in callback") and goes on with its loop.

    Simplifications: SystemExit, which ends the process while it is being printed, is not
    represented; nor is an error of this kind outside message.callback (in the clock, the
    exit checkers or the queue). *)
From Verif Require Import PyBase MQueue MLoop.

Section Escape.
  Context {C W O : Type}.

  (** loop.py:96-101, 91: the callback of [m] has raised an error that is not taken; [None]:
      it has not raised *)
  Definition escape (h : handler C W O) (m : msg C) (o : O) (s : lstate C W) : option (lstate C W) :=
    let '(w', acts, e) := h (m_cb m) o (l_w s) in
    match e with
    | None => None
    | Some _ => Some (set_mode Idle (fold_left (fun st a => do_act a st) acts (set_w w' s)))
    end.

  Inductive elabel :=
  | ELoop (l : label C O)      (* a step of MLoop; a raise in it is an Exception *)
  | EEscape (o : O).           (* the running callback raises something else *)

  Definition e_step (h : handler C W O) (s : lstate C W) (l : elabel) : option (lstate C W) :=
    match l with
    | ELoop l => l_step h s l
    | EEscape o => match l_mode s with Running m => escape h m o s | _ => None end
    end.

  Fixpoint e_exec (h : handler C W O) (s : lstate C W) (ls : list elabel) : option (lstate C W) :=
    match ls with
    | [] => Some s
    | l :: ls' => match e_step h s l with
                  | Some s' => e_exec h s' ls'
                  | None => None
                  end
    end.
End Escape.
Arguments elabel : clear implicits.
