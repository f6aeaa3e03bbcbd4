(** Model of how the example strategies schedule functions for a moment shortly ahead
    (tests/demo/demo_order.py:20-25, demo_batch_order.py:21-23, demo_sync.py:19-20,
    demo_order_minute.py:22-27). *)
From Verif Require Import PyBase PyStr MTime MBus MEventSource MSched MStrategy.
Open Scope Z_scope.

(** demo_order.py:20: [(datetime.datetime.now() + datetime.timedelta(seconds=n)).strftime("%H:%M:%S")];
    [c] is the clock when run_daily is called, [dt] the timedelta in microseconds *)
Definition soon (c dt : Z) : str := fmt_hms (c + dt).

(** demo_order_minute.py:22-27: the loop over [range(m)] (m is 20 there), [c] being the [now]
    of line 22 *)
Definition minute_calls (m : nat) (ord can : fnobj) (c : Z) : list ucall :=
  flat_map (fun i => [URun ord (soon c (Z.of_nat i * 60 * US)); URun can (soon c (Z.of_nat i * 60 * US + 30 * US))]) (seq 0 m).
