(** Model of waiting for the lock of an order file
    (jqtrade/account/trade_gate.py:287-302 [_write]), seen by one submission.

    What the attempts meet is an argument: the list of their outcomes, with the clock
    (time.time(), in microseconds) read after a busy one.  Simplifications: times are exact;
    [time.sleep] only shows in the clock readings (a negative interval, for which it raises, is
    left out); writing itself succeeds (MGate, MWriter);
    unlocking a file that was not locked (302) does nothing. *)
From Verif Require Import PyBase.
Open Scope Z_scope.

(** lines 290-292 *)
Inductive attempt :=
| AtFree                  (* opened and locked *)
| AtBusy (now : Z)        (* BlockingIOError or AlreadyLocked; the clock at line 298 *)
| AtFail (e : exn).       (* any other exception, from open or lock *)

Inductive waited := WaWritten | WaTimeOut | WaRaised (e : exn) | WaWaiting.

(** lines 288-302: the result, and how many attempts were made *)
Fixpoint wait_lock (tmo start : Z) (l : list attempt) : waited * nat :=
  match l with
  | [] => (WaWaiting, O)
  | AtFree :: _ => (WaWritten, 1%nat)
  | AtFail e :: _ => (WaRaised e, 1%nat)
  | AtBusy now :: l' =>
      if tmo <=? now - start then (WaTimeOut, 1%nat)
      else let '(r, n) := wait_lock tmo start l' in (r, S n)
  end.
