(** Model of several tasks that trade through the AnXin gate in one directory
    (jqtrade/account/trade_gate.py:149-587): every task has its own process, account and save
    file (trade_gate.py:499-512, <task>_<date>.json, see C71 and C72); the order and the cancel
    file are appended to by all of them (lines 251-302), the other files are written by the
    broker's software and read by all (lines 304-480).

    Simplification: a call of a task is one step; that calls running at the same time behave
    like that is C34 and C83.  The save files of different tasks are different files. *)
From Verif Require Import PyBase PyStr MTime MOrder MAccount MGate MBalance MCsv MFolio.
Open Scope Z_scope.

(** the files all tasks see, by date *)
Record dir := Dir {
  d_orders : dict Z str;         (* algoOrder_<date>.csv *)
  d_cancels : dict Z str;        (* algoOrderStop_<date>.csv *)
  d_results : dict Z str;        (* execResult_<date>.csv *)
  d_updates : dict Z str;        (* orderUpdate_<date>.csv *)
  d_assets : dict Z str;         (* assetInfo_<date>.csv *)
  d_positions : dict Z str       (* positionInfo_<date>.csv *)
}.
(** a task: its Account (account.py:28-60), the attributes of its gate (trade_gate.py:211-236)
    and its save files *)
Record task := Task {
  t_acct : acct; t_orders : dict str oinfo; t_uoff : nat; t_roff : nat; t_day : Z; t_data : dict Z (dict str oinfo)
}.
Definition task_new : task := Task acct_new [] 0 0 0 [].
Record sys := Sys { s_dir : dir; s_task : nat -> task }.

(** the gate of a task as it is during a call; [e]: clock and disk during it *)
Definition gate_of (d : dir) (t : task) (e : genv) : fgst :=
  FG (GSt (t_orders t) (t_uoff t) (t_roff t) (t_day t) (d_orders d) (d_cancels d) (d_results d) (d_updates d) (t_data t) e)
     (d_assets d) (d_positions d).
Definition dir_of (f : fgst) : dir :=
  let g := fg_gate f in Dir (gs_ofile g) (gs_cfile g) (gs_rfile g) (gs_ufile g) (fg_assets f) (fg_positions f).
Definition task_of (a : acct) (f : fgst) : task :=
  let g := fg_gate f in Task a (gs_orders g) (gs_uoff g) (gs_roff g) (gs_day g) (gs_data g).

(** the calls: account.py:160-187, 200-260 and the start of a process, trade_gate.py:519-555 *)
Inductive top :=
| TOrder (id : str) (now : Z) (code : str) (n : Z) (st : style) (sd : side)
| TCancel (id : str)
| TSyncOrders
| TSyncBalance
| TStart (ok : bool).
Inductive dstep :=
| DTask (k : nat) (e : genv) (o : top)
| DBroker (results updates assets positions : dict Z str).   (* the broker's software writes its files *)

Section Dir.
  Context (ptime f3 f4 : str -> option Z) (opts : nat -> gopts).
  Context {F : Type} (pnum pyfloat : str -> option F) (trunc : F -> option Z) (round4 round3 : F -> Z) (minus : F -> F -> F).
  Notation gt k := (full_gate ptime f3 f4 (opts k) pnum pyfloat trunc round4 round3 minus).

  Definition do_call (k : nat) (o : top) (a : acct) (f : fgst) : option str * acct * fgst :=
    match o with
    | TOrder id now code n st sd => acc_order (gt k) id now code n st sd a f
    | TCancel id => (None, fst (acc_cancel (gt k) id a f), snd (acc_cancel (gt k) id a f))
    | TSyncOrders => (None, fst (acc_sync_orders (gt k) a f), snd (acc_sync_orders (gt k) a f))
    | TSyncBalance => (None, fst (acc_sync_balance (gt k) a f), snd (acc_sync_balance (gt k) a f))
    | TStart ok => (None, acct_new, with_gate f (gate_setup ok (fg_gate f)))
    end.

  (** one step; what the calling task gets: the returned id and its account *)
  Definition d_step (x : dstep) (s : sys) : list (nat * (option str * acct)) * sys :=
    match x with
    | DTask k e o =>
        let t := s_task s k in
        let '(r, a, f) := do_call k o (t_acct t) (gate_of (s_dir s) t e) in
        ([(k, (r, a))], Sys (dir_of f) (fun j => if Nat.eqb j k then task_of a f else s_task s j))
    | DBroker r u a p => ([], Sys (Dir (d_orders (s_dir s)) (d_cancels (s_dir s)) r u a p) (s_task s))
    end.
  Fixpoint d_run (xs : list dstep) (s : sys) : list (nat * (option str * acct)) * sys :=
    match xs with
    | [] => ([], s)
    | x :: xs' => let '(o1, s1) := d_step x s in let '(o2, s2) := d_run xs' s1 in (o1 ++ o2, s2)
    end.
End Dir.
