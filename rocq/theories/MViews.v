(** Position objects as objects (jqtrade/account/account.py, position.py, portfolio.py,
    api.py:274-318): [MAccount] keeps the values in the account's dicts; here the dicts
    hold references, shared with the UserPosition objects handed to strategies. *)
From Verif Require Import PyBase PyStr MOrder MAccount.
Open Scope Z_scope.

(** [v_base]: everything but the positions (its own dicts of positions stay empty);
    [v_heap]: all Position objects ever made, by number; account.py:79-80: the dicts *)
Record vacct := VAcct { v_base : acct; v_heap : list position; v_long : dict str nat; v_short : dict str nat }.
Definition vacct_new : vacct := VAcct acct_new [] [] [].

Fixpoint set_nth {A} (n : nat) (x : A) (l : list A) : list A :=
  match l, n with
  | [], _ => []
  | _ :: l', O => x :: l'
  | y :: l', S n' => y :: set_nth n' x l'
  end.
(** the object changes its own field (position.py:38-41) *)
Definition touch (r : nat) (o : order) (v : vacct) : vacct :=
  match nth_error (v_heap v) r with
  | Some p => VAcct (v_base v) (set_nth r (pos_order_created o p) (v_heap v)) (v_long v) (v_short v)
  | None => v
  end.
(** account.py:256-263 [on_order_created] *)
Definition v_order_created (o : order) (v : vacct) : vacct :=
  match dget (o_code o) (match o_side o with Long => v_long v | Short => v_short v end) with
  | Some r => touch r o v
  | None => v
  end.
(** account.py:211-225: a new object for every reported position *)
Fixpoint v_add (l : list pinfo) (v : vacct) : vacct :=
  match l with
  | [] => v
  | p :: l' =>
      match pos_of p with
      | Err _ => v
      | Ok q =>
          let r := length (v_heap v) in
          v_add l' (match ps_side q with
                    | Long => VAcct (v_base v) (v_heap v ++ [q]) (dset (ps_code q) r (v_long v)) (v_short v)
                    | Short => VAcct (v_base v) (v_heap v ++ [q]) (v_long v) (dset (ps_code q) r (v_short v))
                    end)
      end
  end.
Definition on_base (a : acct) (v : vacct) : vacct := VAcct a (v_heap v) (v_long v) (v_short v).

Section Views.
  Context {G : Type} (gt : gate G).
  (** account.py:161-175 [order] *)
  Definition v_order (id : str) (now : Z) (code : str) (amount : Z) (st : style) (sd : side) (v : vacct) (g : G) : option str * vacct * G :=
    let o := new_order id now code amount st sd in
    let v1 := on_base (acc_log (EvOrder o) (store id o (v_base v))) v in
    match g_order gt o g with
    | (Ok _, g') => (Some id, v_order_created o v1, g')
    | (Err _, g') => (None, v1, g')
    end.
  (** account.py:189-227 [sync_balance] *)
  Definition v_sync_balance (v : vacct) (g : G) : vacct * G :=
    match g_sync_balance gt g with
    | (Err _, g') => (v, g')
    | (Ok b, g') =>
        match b_cash b, b_pos b with
        | Some c, Some l =>
            let a := v_base v in
            (v_add l (VAcct (set_cash (or_old (c_total c) (a_total a)) (or_old (c_avail c) (a_cash a)) (or_old (c_locked c) (a_locked a)) a)
                            (v_heap v) [] []), g')
        | _, _ => (v, g')
        end
    end.
  (** the operations of [MAccount.aop]; cancelling (account.py:177-187) and the sync of
      orders (account.py:229-254) do not touch positions *)
  Definition v_step (op : aop) (s : vacct * G) : option str * (vacct * G) :=
    let '(v, g) := s in
    match op with
    | AOrder id now code amount st sd => let '(r, v', g') := v_order id now code amount st sd v g in (r, (v', g'))
    | ACancel id => let '(a, g') := acc_cancel gt id (v_base v) g in (None, (on_base a v, g'))
    | ASyncBal => (None, v_sync_balance v g)
    | ASyncOrd => let '(a, g') := acc_sync_orders gt (v_base v) g in (None, (on_base a v, g'))
    | AEnv g' => (None, (v, g'))
    end.
  Fixpoint v_run (ops : list aop) (s : vacct * G) : list (option str) * (vacct * G) :=
    match ops with
    | [] => ([], s)
    | op :: ops' => let '(r, s1) := v_step op s in
                    let '(rs, s2) := v_run ops' s1 in (r :: rs, s2)
    end.
End Views.

(** portfolio.py:12-26, api.py:257-280 [context.portfolio.positions[code]]: a view of the object in the dict, or
    of a new empty position *)
Inductive pview := VRef (r : nat) | VFresh (p : position).
Definition v_get (sd : side) (code : str) (v : vacct) : pview :=
  match dget code (match sd with Long => v_long v | Short => v_short v end) with
  | Some r => VRef r
  | None => VFresh (empty_pos code sd)
  end.
(** what a view shows (api.py:282-313) *)
Definition shows (w : pview) (v : vacct) : option position :=
  match w with VRef r => nth_error (v_heap v) r | VFresh p => Some p end.
