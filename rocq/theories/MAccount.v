(** Model of Account, Position and Portfolio (jqtrade/account/account.py, position.py,
    portfolio.py) over an arbitrary trade gate.

    Gates get the Order object itself; here they cannot modify it (trade_gate.py does not).
    Order objects live in a heap ([a_heap]) and are shared between the order book and
    the UserOrder objects handed to strategies: [a_orders] maps ids to heap positions.
    [a_log] is not in the code: it records, in order, the gate calls made and the
    notifications logged.  Random ids and clock readings are arguments. *)
From Verif Require Import PyBase PyStr MOrder.
Open Scope Z_scope.

(** position.py:15-36.  Amounts and prices are exact (Z, in fixed units). *)
Record position := Pos {
  ps_code : str; ps_amount : Z; ps_avail : Z; ps_avg : Z; ps_side : side;
  ps_last : option Z; ps_value : option Z
}.
Definition set_avail (a : Z) (p : position) : position :=
  Pos (ps_code p) (ps_amount p) a (ps_avg p) (ps_side p) (ps_last p) (ps_value p).

(** position.py:63-65 [locked_amount] *)
Definition pos_locked (p : position) : Z := ps_amount p - ps_avail p.

(** position.py:38-41 [on_order_created] *)
Definition pos_order_created (o : order) (p : position) : position :=
  match o_action o with
  | Close => set_avail (Z.max (ps_avail p - o_amount o) 0) p
  | Open => p
  end.

(** what a gate reports (trade_gate.py:68-93); a missing dict entry is None.  [c_total] is
    the entry "total_asset" the account reads (the interface documents "total_assert"). *)
Record cash := Cash { c_total : option Z; c_avail : option Z; c_locked : option Z }.
Record pinfo := PInfo {
  p_side : option str; p_code : option str; p_amount : option Z; p_avail : option Z;
  p_avg : option Z; p_last : option Z; p_value : option Z
}.
Record binfo := BInfo { b_cash : option cash; b_pos : option (list pinfo) }.

Record gate (G : Type) := Gate {
  g_order : order -> G -> res unit * G;
  g_cancel : str -> G -> res unit * G;
  g_sync_orders : G -> res (list oinfo) * G;
  g_sync_balance : G -> res binfo * G
}.
Arguments g_order {G}. Arguments g_cancel {G}. Arguments g_sync_orders {G}. Arguments g_sync_balance {G}.

(** notifications, account.py:289-332 *)
Inductive notice := NConfirmed | NFilling | NFilled | NCanceling | NCanceled | NRejected.
Inductive aevent :=
| EvOrder (o : order)                 (* trade_gate.order(o) *)
| EvCancel (id : str)                 (* trade_gate.cancel_order(id) *)
| EvNotice (k : notice) (o : order).  (* log line about the reported order o *)

(** account.py:72-93 *)
Record acct := Acct {
  a_heap : list order;
  a_orders : dict str nat;
  a_long : dict str position;
  a_short : dict str position;
  a_total : Z; a_cash : Z; a_locked : Z;
  a_synced : bool;
  a_log : list aevent
}.
Definition acct_new : acct := Acct [] [] [] [] 0 0 0 false [].

Definition acc_log (e : aevent) (a : acct) : acct :=
  Acct (a_heap a) (a_orders a) (a_long a) (a_short a) (a_total a) (a_cash a) (a_locked a) (a_synced a) (a_log a ++ [e]).
Definition set_positions l s (a : acct) : acct :=
  Acct (a_heap a) (a_orders a) l s (a_total a) (a_cash a) (a_locked a) (a_synced a) (a_log a).
Definition set_cash t c k (a : acct) : acct :=
  Acct (a_heap a) (a_orders a) (a_long a) (a_short a) t c k (a_synced a) (a_log a).
Definition set_synced (a : acct) : acct :=
  Acct (a_heap a) (a_orders a) (a_long a) (a_short a) (a_total a) (a_cash a) (a_locked a) true (a_log a).
(** [self._orders[id] = o] for a new object *)
Definition store (id : str) (o : order) (a : acct) : acct :=
  Acct (a_heap a ++ [o]) (dset id (length (a_heap a)) (a_orders a)) (a_long a) (a_short a)
    (a_total a) (a_cash a) (a_locked a) (a_synced a) (a_log a).

Definition deref (a : acct) (r : nat) : option order := nth_error (a_heap a) r.
(** [self._orders.get(id)] *)
Definition local_order (id : str) (a : acct) : option order :=
  match dget id (a_orders a) with Some r => deref a r | None => None end.

Section Account.
  Context {G : Type} (gt : gate G).

  (** account.py:256-263 [on_order_created] *)
  Definition acc_order_created (o : order) (a : acct) : acct :=
    match o_side o with
    | Long => match dget (o_code o) (a_long a) with
              | Some p => set_positions (dset (o_code o) (pos_order_created o p) (a_long a)) (a_short a) a
              | None => a
              end
    | Short => match dget (o_code o) (a_short a) with
               | Some p => set_positions (a_long a) (dset (o_code o) (pos_order_created o p) (a_short a)) a
               | None => a
               end
    end.

  (** account.py:163-166: the Order object; [side] is not passed on *)
  Definition new_order (id : str) (now : Z) (code : str) (amount : Z) (st : style) (sd : side) : order :=
    Order code (style_price st) (Z.abs amount) (if amount <? 0 then Close else Open) id
      Snew st now None Long None 0 0 0 None 0 [].

  (** account.py:161-175 [order] *)
  Definition acc_order (id : str) (now : Z) (code : str) (amount : Z) (st : style) (sd : side)
      (a : acct) (g : G) : option str * acct * G :=
    let o := new_order id now code amount st sd in
    let a1 := acc_log (EvOrder o) (store id o a) in
    match g_order gt o g with
    | (Ok _, g') => (Some id, acc_order_created o a1, g')
    | (Err _, g') => (None, a1, g')
    end.

  (** account.py:177-187 [cancel_order] *)
  Definition acc_cancel (id : str) (a : acct) (g : G) : acct * G :=
    if dmem id (a_orders a) then
      (acc_log (EvCancel id) a, snd (g_cancel gt id g))
    else (a, g).

  (** account.py:212-220: one reported position *)
  Definition pos_of (p : pinfo) : res position :=
    match p_side p with
    | None => Err KeyError
    | Some s =>
        do sd <- get_side s;
        match p_code p, p_amount p, p_avail p, p_avg p with
        | Some c, Some n, Some v, Some g => Ok (Pos c n v g sd (p_last p) (p_value p))
        | _, _, _, _ => Err KeyError
        end
    end.
  (** account.py:210-225: stops at the first bad one *)
  Fixpoint add_positions (l : list pinfo) (a : acct) : acct :=
    match l with
    | [] => a
    | p :: l' =>
        match pos_of p with
        | Err _ => a
        | Ok q =>
            add_positions l'
              (match ps_side q with
               | Long => set_positions (dset (ps_code q) q (a_long a)) (a_short a) a
               | Short => set_positions (a_long a) (dset (ps_code q) q (a_short a)) a
               end)
        end
    end.

  (** account.py:201-203 [x or old] *)
  Definition or_old (x : option Z) (old : Z) : Z :=
    match x with Some v => if v =? 0 then old else v | None => old end.

  (** account.py:189-227 [sync_balance] *)
  Definition acc_sync_balance (a : acct) (g : G) : acct * G :=
    match g_sync_balance gt g with
    | (Err _, g') => (a, g')
    | (Ok b, g') =>
        match b_cash b, b_pos b with
        | Some c, Some l =>
            let a1 := set_cash (or_old (c_total c) (a_total a)) (or_old (c_avail c) (a_cash a))
                        (or_old (c_locked c) (a_locked a)) a in
            (add_positions l (set_positions [] [] a1), g')
        | _, _ => (a, g')
        end
    end.

  (** account.py:268-332 [_notify_changed] and the functions it calls *)
  Definition notice_for (loc rem : order) : option notice :=
    let ls := o_status loc in
    let rs := o_status rem in
    let unless_finished k := if finished ls then None else Some k in
    if negb (eqb ls rs) then
      match rs with
      | Sopen => if eqb ls Snew then Some NConfirmed else None
      | Sfilling => unless_finished NFilling
      | Sfilled => unless_finished NFilled
      | Scanceling => unless_finished NCanceling
      | Spartly_canceled | Scanceled => unless_finished NCanceled
      | Srejected => unless_finished NRejected
      | Snew => None
      end
    else match rs with Sfilling => unless_finished NFilling | _ => None end.

  (** account.py:234-250: one reported order.  Simplification: order_id is a str. *)
  Definition sync_one (i : oinfo) (a : acct) : res acct :=
    let loc := local_order (i_id i) a in
    do rem <- load i;
    match loc with
    | None => Ok (store (i_id i) rem a)
    | Some l =>
        if same rem l then Ok a
        else let a1 := store (i_id i) rem a in
             Ok (match notice_for l rem with Some k => acc_log (EvNotice k rem) a1 | None => a1 end)
    end.
  Fixpoint sync_all (l : list oinfo) (a : acct) : acct :=
    match l with
    | [] => set_synced a
    | i :: l' => match sync_one i a with Ok a' => sync_all l' a' | Err _ => a end
    end.
  (** account.py:229-254 [sync_orders] *)
  Definition acc_sync_orders (a : acct) (g : G) : acct * G :=
    match g_sync_orders gt g with
    | (Err _, g') => (a, g')
    | (Ok l, g') => (sync_all l a, g')
    end.

  (** Histories.  [AEnv]: anything that happens to the gate's world in between. *)
  Inductive aop :=
  | AOrder (id : str) (now : Z) (code : str) (amount : Z) (st : style) (sd : side)
  | ACancel (id : str)
  | ASyncBal
  | ASyncOrd
  | AEnv (g : G).
  Definition a_step (op : aop) (s : acct * G) : option str * (acct * G) :=
    let '(a, g) := s in
    match op with
    | AOrder id now code amount st sd =>
        let '(r, a', g') := acc_order id now code amount st sd a g in (r, (a', g'))
    | ACancel id => (None, acc_cancel id a g)
    | ASyncBal => (None, acc_sync_balance a g)
    | ASyncOrd => (None, acc_sync_orders a g)
    | AEnv g' => (None, (a, g'))
    end.
  (** the returned ids, in order, and the final state *)
  Fixpoint a_run (ops : list aop) (s : acct * G) : list (option str) * (acct * G) :=
    match ops with
    | [] => ([], s)
    | op :: ops' => let '(r, s1) := a_step op s in
                    let '(rs, s2) := a_run ops' s1 in (r :: rs, s2)
    end.
End Account.
Arguments AOrder {G}. Arguments ACancel {G}. Arguments ASyncBal {G}. Arguments ASyncOrd {G}. Arguments AEnv {G}.

(** ** portfolio.py and the position views of api.py *)

(** api.py:278-280 [get_empty_pos] *)
Definition empty_pos (code : str) (sd : side) : position := Pos code 0 0 0 sd (Some 0) (Some 0).
(** portfolio.py:12-26 *)
Definition long_view (a : acct) : dict str position := fold_left (fun d kv => dset (fst kv) (snd kv) d) (a_long a) [].
Definition short_view (a : acct) : dict str position := fold_left (fun d kv => dset (fst kv) (snd kv) d) (a_short a) [].
(** api.py:265-271 [__getitem__]: the value, and the view afterwards *)
Definition view_get (sd : side) (code : str) (v : dict str position) : position * dict str position :=
  match dget code v with Some p => (p, v) | None => (empty_pos code sd, v) end.
(** portfolio.py:40-42: iterates over the dict, i.e. its keys (str objects) *)
Definition position_value (a : acct) : res Z :=
  match long_view a with [] => Ok 0 | _ :: _ => Err AttributeError end.
