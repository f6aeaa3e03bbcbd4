(** Model of a day of the example strategies tests/demo/demo_order.py and
    tests/demo/demo_order_minute.py: their functions with the module's dictionary [g], of which
    only the entry "order_id" changes ([None]: no such entry; [Some r]: what order() returned). *)
From Verif Require Import PyBase PyStr MTime MOrder MAccount MApi MDemo.
Open Scope Z_scope.

Section Day.
  Context (udigit : N -> bool) {G : Type} (gt : gate G).
  Definition dst : Type := option (option str) * world G.

  (** what the strategy orders *)
  Context (c : carg) (n : aarg) (st : starg).

  (** demo_order.py:47-55, demo_order_minute.py:33-38 [do_order]; what is logged is left out.
      [id] and [now]: the id and the clock reading of the Order object. *)
  Definition do_order (id : str) (now : Z) (s : dst) : res unit * dst :=
    match api_order udigit gt id now c n st SdFalsy (snd s) with
    | (Ok r, w') => (Ok tt, (Some r, w'))
    | (Err e, w') => (Err e, (fst s, w'))
    end.
  (** demo_order.py:58-60 [do_cancel]: [g["order_id"]]; [cancel_order] takes [str] of it *)
  Definition do_cancel (s : dst) : res unit * dst :=
    match fst s with
    | None => (Err KeyError, s)
    | Some r => let x := api_cancel gt (match r with Some i => i | None => lit "None" end) (snd s) in (fst x, (fst s, snd x))
    end.
  (** demo_order_minute.py:41-45 [do_cancel] *)
  Definition do_cancel_if (s : dst) : res unit * dst :=
    match fst s with None => (Ok tt, s) | Some _ => do_cancel s end.

  (** one thing that happens: a function of the strategy is called, or the framework syncs the
      account or the outside changes ([KSyncBal], [KSyncOrd], [KEnv]) *)
  Inductive dact := DCancelOpen | DOrder (id : str) (now : Z) | DCancel | DCancelIf | DFrame (k : call (G := G)).
  Definition d_step (x : dact) (s : dst) : res unit * dst :=
    match x with
    | DCancelOpen => let r := cancel_open_orders udigit gt (snd s) in (fst r, (fst s, snd r))
    | DOrder id now => do_order id now s
    | DCancel => do_cancel s
    | DCancelIf => do_cancel_if s
    | DFrame k => (Ok tt, (fst s, do_call udigit gt k (snd s)))
    end.
  (** in order, until one raises (an exception of a callback ends the loop,
      jqtrade/scheduler/loop.py:95-104) *)
  Fixpoint d_run (xs : list dact) (s : dst) : res unit * dst :=
    match xs with
    | [] => (Ok tt, s)
    | x :: xs' => match d_step x s with (Ok _, s') => d_run xs' s' | (Err e, s') => (Err e, s') end
    end.
End Day.
Arguments DCancelOpen {G}. Arguments DOrder {G}. Arguments DCancel {G}. Arguments DCancelIf {G}. Arguments DFrame {G}.

(** demo_order.py:37-44 and demo_order_minute.py:36 *)
Definition order_args : carg * aarg * starg := (CStr (lit "511880.XSHG"), AInt (-100), StStyle (Limit (PNum (lit "101.77")))).
Definition minute_args : carg * aarg * starg := (CStr (lit "300248.XSHE"), AInt 100, StStyle (Limit (PNum (lit "10.0")))).
