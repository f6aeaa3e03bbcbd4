(** Model of the order sync with figures that may be infinite or nan: what the broker's file says
    passes [round(float(s), 3)] (jqtrade/account/trade_gate.py:488, 490) also for the texts "inf"
    and "nan", and the comparison of orders (order.py:300-309) takes nan for different from
    everything.  MOrder.v and MAccount.v have finite figures only.
    Simplifications: those of MOrder.v and MAccount.v, figures apart; of the account only the
    order book, the Order objects and the notices are modelled. *)
From Verif Require Import PyBase PyStr PyFloat MNumber MOrder MAccount.
Open Scope Z_scope.

(** a float in units of the last digit it is rounded to *)
Inductive fig := FNum (z : Z) | FInf (neg : bool) | FNaN.

(** [x == y] *)
Definition fig_eq (x y : fig) : bool :=
  match x, y with
  | FNum a, FNum b => a =? b
  | FInf a, FInf b => Bool.eqb a b
  | _, _ => false
  end.
(** [x == y] where None may stand for either *)
Definition opt_eq (x y : option fig) : bool :=
  match x, y with
  | None, None => true
  | Some a, Some b => fig_eq a b
  | _, _ => false
  end.

(** trade_gate.py:488, 490 [round(float(s), nd)]; [None] = ValueError *)
Definition odd_figure (dig : N -> option Z) (nd : Z) (s : str) : option fig :=
  match py_float dig s with
  | Some (Fin x) => Some (FNum (units nd x))
  | Some (Inf b) => Some (FInf b)
  | Some NaN => Some FNaN
  | None => None
  end.

(** order.py:146-200: an Order.  [fo_base] has everything but deal_balance, avg_cost and
    commission (what it has there is not used). *)
Record forder := FOrder { fo_base : order; fo_deal : fig; fo_avg : option fig; fo_comm : fig }.
(** what a gate reports (trade_gate.py:99-118); the same about [fi_base] *)
Record finfo := FInfo { fi_base : oinfo; fi_deal : option fig; fi_avg : option fig; fi_comm : option fig }.

(** order.py:146-200, 223-225 [load] *)
Definition fload (i : finfo) : res forder :=
  do o <- load (fi_base i);
  Ok (FOrder o (dfl (fi_deal i) (FNum 0)) (fi_avg i) (dfl (fi_comm i) (FNum 0))).

(** order.py:300-309 [__eq__] *)
Definition fsame (a b : forder) : bool :=
  eqb (o_status (fo_base a)) (o_status (fo_base b)) && eqb (o_confirm (fo_base a)) (o_confirm (fo_base b))
  && (o_filled (fo_base a) =? o_filled (fo_base b)) && (o_canceled (fo_base a) =? o_canceled (fo_base b))
  && fig_eq (fo_deal a) (fo_deal b) && opt_eq (fo_avg a) (fo_avg b) && fig_eq (fo_comm a) (fo_comm b).

(** account.py:72-93: the order book, the Order objects, the notices *)
Record facct := FAcct { fa_heap : list forder; fa_orders : dict str nat; fa_synced : bool; fa_log : list (notice * forder) }.
Definition fstore (id : str) (o : forder) (a : facct) : facct :=
  FAcct (fa_heap a ++ [o]) (dset id (length (fa_heap a)) (fa_orders a)) (fa_synced a) (fa_log a).
Definition flog (k : notice) (o : forder) (a : facct) : facct :=
  FAcct (fa_heap a) (fa_orders a) (fa_synced a) (fa_log a ++ [(k, o)]).
Definition fsynced (a : facct) : facct := FAcct (fa_heap a) (fa_orders a) true (fa_log a).
(** [self._orders.get(id)] *)
Definition flocal (id : str) (a : facct) : option forder :=
  match dget id (fa_orders a) with Some r => nth_error (fa_heap a) r | None => None end.

(** account.py:234-250: one reported order; the notices depend on the statuses only *)
Definition fsync_one (i : finfo) (a : facct) : res facct :=
  let loc := flocal (i_id (fi_base i)) a in
  do rem <- fload i;
  match loc with
  | None => Ok (fstore (i_id (fi_base i)) rem a)
  | Some l =>
      if fsame rem l then Ok a
      else let a1 := fstore (i_id (fi_base i)) rem a in
           Ok (match notice_for (fo_base l) (fo_base rem) with Some k => flog k rem a1 | None => a1 end)
  end.
(** account.py:229-254 [sync_orders] with these reports *)
Fixpoint fsync (l : list finfo) (a : facct) : facct :=
  match l with
  | [] => fsynced a
  | i :: l' => match fsync_one i a with Ok a' => fsync l' a' | Err _ => a end
  end.
(** [n] syncs with the same reports *)
Fixpoint fsyncs (n : nat) (l : list finfo) (a : facct) : facct :=
  match n with O => a | S n' => fsyncs n' l (fsync l a) end.
