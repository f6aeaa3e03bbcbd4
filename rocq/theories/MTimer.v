(** jqtrade/scheduler/loop.py:63-92, 113-115: the clock readings of check_queue and the
    timer it starts, with float arithmetic and real clocks.  MLoop.v leaves open when the
    timer fires. *)
From Verif Require Import PyBase PyFloat.
Open Scope Z_scope.

Definition NS : Z := 1000000000.
(** nanoseconds per millisecond *)
Definition MS : Z := 1000000.

(** time.time() (CPython, _PyTime_AsSecondsDouble) at [ns] nanoseconds since the epoch *)
Definition py_time (ns : Z) : float :=
  if ns mod NS =? 0 then f_of_int (ns / NS)
  else let x := f_of_int ns in fl (fst x) (snd x * NS).

(** loop.py:114-115  [int(time.time() * 1000)] *)
Definition read_ms (ns : Z) : Z := f_int (f_mul (py_time ns) (f_of_int 1000)).

(** loop.py:79  [wait_time = (message.time - now) / 1000.0], and what pyuv.Timer.start makes
    of it: libuv counts in milliseconds, the product is truncated to an integer *)
Definition wait_ms (d : Z) : Z := f_int (f_mul (f_div_int d 1000) (f_of_int 1000)).

Section Sleep.
  (** the wall clock and the monotonic clock (nanoseconds) at each real time *)
  Context (wall mono : Z -> Z).

  (** loop.py:73-88, one sleep: the clock is read at real time [t], the loop's time is updated
      and the timer started at [t1], and check_queue reads the clock again at [t'].  libuv's
      time is the monotonic clock in whole milliseconds; the timer fires when it has advanced
      by the wait.  [lat] bounds the time from [t] to [t1] and from the moment the timer may
      fire to [t'].
      Simplification: nothing else wakes the loop up. *)
  Definition nap (lat due t t' : Z) : Prop :=
    read_ms (wall t) < due /\
    exists t1, t <= t1 <= t + lat /\ t1 <= t' /\
      mono t1 / MS + wait_ms (due - read_ms (wall t)) <= mono t' / MS /\
      (forall u, t1 <= u -> mono t1 / MS + wait_ms (due - read_ms (wall t)) <= mono u / MS -> t' <= u + lat).

  (** several sleeps on the same message *)
  Inductive naps (lat due : Z) : Z -> nat -> Z -> Prop :=
  | naps_none t : naps lat due t 0 t
  | naps_one t t' n t2 : nap lat due t t' -> naps lat due t' n t2 -> naps lat due t (S n) t2.
End Sleep.
