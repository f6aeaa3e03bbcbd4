(** Model of the account over a trade gate that changes the Order objects it is given
    (account.py:161-254; AbsTradeGate.order, trade_gate.py:48-56, gets the object itself, which the account
    has already put into its order book).

    A gate can change each object from the call of order() on, in that call or in any later one
    or in a thread of its own ([MEnv]).  The k-th object it was given is changed by [t k].  What the
    gate does may depend on the contents of the objects: nobody else changes them, so its state can
    hold them.  Simplification: what it writes into a field is of the field's type. *)
From Verif Require Import PyBase PyStr MOrder MAccount.
Open Scope Z_scope.

Definition touch : Type := nat -> order -> order.
Definition untouched : touch := fun _ o => o.

(** trade_gate.py:48-120, the methods of AbsTradeGate that the account calls *)
Record mgate (G : Type) := MGate {
  mg_order : order -> G -> res unit * touch * G;
  mg_cancel : str -> G -> res unit * touch * G;
  mg_sync_orders : G -> res (list oinfo) * touch * G;
  mg_sync_balance : G -> res binfo * touch * G
}.
Arguments mg_order {G}. Arguments mg_cancel {G}. Arguments mg_sync_orders {G}. Arguments mg_sync_balance {G}.

(** the account and the objects given to the gate, in order *)
Record macct := MAcct { ma : acct; ma_given : list nat }.

Fixpoint index_of (r : nat) (l : list nat) : option nat :=
  match l with [] => None | x :: l' => if Nat.eqb x r then Some O else option_map S (index_of r l') end.
Fixpoint mapi {A B} (f : nat -> A -> B) (n : nat) (l : list A) : list B :=
  match l with [] => [] | x :: l' => f n x :: mapi f (S n) l' end.
Definition touch_at (t : touch) (gv : list nat) (r : nat) (o : order) : order :=
  match index_of r gv with Some k => t k o | None => o end.
Definition touch_acct (t : touch) (gv : list nat) (a : acct) : acct :=
  Acct (mapi (touch_at t gv) 0 (a_heap a)) (a_orders a) (a_long a) (a_short a) (a_total a) (a_cash a) (a_locked a) (a_synced a) (a_log a).

Section Alter.
  Context {G : Type} (m : mgate G).
  (** account.py:161-175 [order]: [on_order_created] reads the object as the gate left it *)
  Definition m_order (id : str) (now : Z) (code : str) (amount : Z) (st : style) (sd : side) (s : macct) (g : G) : option str * macct * G :=
    let o := new_order id now code amount st sd in
    let r := length (a_heap (ma s)) in
    let gv := ma_given s ++ [r] in
    let '(x, t, g') := mg_order m o g in
    let a1 := touch_acct t gv (acc_log (EvOrder o) (store id o (ma s))) in
    match x with
    | Ok _ => (Some id, MAcct (match deref a1 r with Some o' => acc_order_created o' a1 | None => a1 end) gv, g')
    | Err _ => (None, MAcct a1 gv, g')
    end.

  (** account.py:177-187 [cancel_order] *)
  Definition m_cancel (id : str) (s : macct) (g : G) : macct * G :=
    if dmem id (a_orders (ma s)) then
      let '(_, t, g') := mg_cancel m id g in (MAcct (touch_acct t (ma_given s) (acc_log (EvCancel id) (ma s))) (ma_given s), g')
    else (s, g).

  (** account.py:189-227 [sync_balance] *)
  Definition m_sync_balance (s : macct) (g : G) : macct * G :=
    let '(x, t, g') := mg_sync_balance m g in
    let a := touch_acct t (ma_given s) (ma s) in
    (MAcct (match x with
            | Ok b => match b_cash b, b_pos b with
                      | Some c, Some l => add_positions l (set_positions [] [] (set_cash (or_old (c_total c) (a_total a)) (or_old (c_avail c) (a_cash a)) (or_old (c_locked c) (a_locked a)) a))
                      | _, _ => a
                      end
            | Err _ => a
            end) (ma_given s), g').

  (** account.py:229-254 [sync_orders] *)
  Definition m_sync_orders (s : macct) (g : G) : macct * G :=
    let '(x, t, g') := mg_sync_orders m g in
    let a := touch_acct t (ma_given s) (ma s) in
    (MAcct (match x with Ok l => sync_all l a | Err _ => a end) (ma_given s), g').

  (** [MEnv]: the gate's own thread, or the world outside *)
  Inductive mop :=
  | MOrd (id : str) (now : Z) (code : str) (amount : Z) (st : style) (sd : side)
  | MCan (id : str)
  | MBal
  | MSync
  | MEnv (t : touch) (g : G).
  Definition m_step (op : mop) (x : macct * G) : option str * (macct * G) :=
    let '(s, g) := x in
    match op with
    | MOrd id now code amount st sd => let '(r, s', g') := m_order id now code amount st sd s g in (r, (s', g'))
    | MCan id => (None, m_cancel id s g)
    | MBal => (None, m_sync_balance s g)
    | MSync => (None, m_sync_orders s g)
    | MEnv t g' => (None, (MAcct (touch_acct t (ma_given s) (ma s)) (ma_given s), g'))
    end.
  Fixpoint m_run (ops : list mop) (x : macct * G) : list (option str) * (macct * G) :=
    match ops with
    | [] => ([], x)
    | op :: ops' => let '(r, x1) := m_step op x in let '(rs, x2) := m_run ops' x1 in (r :: rs, x2)
    end.
End Alter.
Arguments MOrd {G}. Arguments MCan {G}. Arguments MBal {G}. Arguments MSync {G}. Arguments MEnv {G}.
Definition macct_new : macct := MAcct acct_new [].
