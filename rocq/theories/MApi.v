(** Model of the trading API (jqtrade/account/api.py) on the context
    (jqtrade/scheduler/context.py): argument checks, access to the account, queries. *)
From Verif Require Import PyBase PyStr MOrder MAccount.
Open Scope Z_scope.

(** Arguments a strategy can pass.  A code: a str; an object whose slices compare unequal
    to the suffixes (list, bytes); or one that cannot be sliced (int, None, ...). *)
Inductive carg := CStr (s : str) | CSeq | CAny.
(** An amount: an int, a bool (isinstance(True, int)), or anything else *)
Inductive aarg := AInt (z : Z) | ABool (b : bool) | AOther.
(** A style: a falsy value, an order style, or any other object *)
Inductive starg := StFalsy | StStyle (st : style) | StOther.
(** A side: a falsy value, a str, another hashable object (also OrderSide members), an
    unhashable one *)
Inductive sdarg := SdFalsy | SdStr (s : str) | SdHash | SdUnhash.
(** The status filter of get_orders *)
Inductive fstatus := FsFalsy | FsMember (s : status) | FsStr (s : str) | FsHash | FsUnhash.

(** batch_submit_orders: one dict; None: the entry is missing or None *)
Record req := Req { r_code : option carg; r_amount : option aarg; r_style : starg; r_side : sdarg }.

Definition amount_val (a : aarg) : option Z :=
  match a with AInt z => Some z | ABool b => Some (if b then 1 else 0) | AOther => None end.

(** context.py:33, 85-118: what the API sees of the context *)
Record world (G : Type) := World { w_use : bool; w_acc : option acct; w_gate : G }.
Arguments World {G}. Arguments w_use {G}. Arguments w_acc {G}. Arguments w_gate {G}.

Section Api.
  (** [udigit]: str.isdigit() on characters outside ASCII *)
  Context (udigit : N -> bool).

  (** lines 13-15 *)
  Definition check_code (c : carg) : res str :=
    match c with
    | CStr s => if (str_eqb (last_n 4 s) (lit "XSHE") || str_eqb (last_n 4 s) (lit "XSHG"))
                   && isdigit udigit (but_last_n 5 s) then Ok s else Err InvalidParam
    | CSeq => Err InvalidParam
    | CAny => Err TypeError
    end.
  (** lines 18-20 *)
  Definition check_amount (a : aarg) : res Z :=
    match amount_val a with
    | Some z => if z =? 0 then Err InvalidParam else Ok z
    | None => Err InvalidParam
    end.
  (** lines 23-25, 55-58 *)
  Definition check_style (s : starg) : res style :=
    match s with
    | StFalsy => Ok (Market (PNum (lit "0")))
    | StStyle st => Ok st
    | StOther => Err InvalidParam
    end.
  (** lines 28-30, 60-65 *)
  Definition check_side (s : sdarg) : res side :=
    match s with
    | SdFalsy => get_side (lit "long")
    | SdStr [] => get_side (lit "long")
    | SdStr s => match get_side s with Ok d => Ok d | Err _ => Err InvalidParam end
    | SdHash => Err InvalidParam
    | SdUnhash => Err TypeError
    end.
  (** lines 102-106 *)
  Definition check_fstatus (f : fstatus) : res (option str) :=
    match f with
    | FsFalsy => Ok None
    | FsMember s => Ok (Some (status_str s))
    | FsStr [] => Ok None
    | FsStr s => match get_status s with Ok _ => Ok (Some s) | Err _ => Err InvalidParam end
    | FsHash => Err InvalidParam
    | FsUnhash => Err TypeError
    end.

  Context {G : Type} (gt : gate G).

  (** context.py:85-90, and the attribute access on a None account *)
  Definition the_account (w : world G) : res acct :=
    if w_use w then match w_acc w with Some a => Ok a | None => Err AttributeError end
    else Err InvalidCall.

  (** lines 38-69 [order]; [id], [now]: the random id and the clock *)
  Definition api_order (id : str) (now : Z) (c : carg) (n : aarg) (st : starg) (sd : sdarg)
      (w : world G) : res (option str) * world G :=
    match (do code <- check_code c;
           do amount <- check_amount n;
           do style <- check_style st;
           do sdv <- check_side sd;
           do a <- the_account w;
           Ok (code, amount, style, sdv, a)) with
    | Err e => (Err e, w)
    | Ok (code, amount, style, sdv, a) =>
        let '(r, a', g') := acc_order gt id now code amount style sdv a (w_gate w) in
        (Ok r, World (w_use w) (Some a') g')
    end.

  (** lines 72-81 [cancel_order]; [id] is [str(order_id)] *)
  Definition api_cancel (id : str) (w : world G) : res unit * world G :=
    match the_account w with
    | Err e => (Err e, w)
    | Ok a => let '(a', g') := acc_cancel gt id a (w_gate w) in
              (Ok tt, World (w_use w) (Some a') g')
    end.

  (** lines 84-121 [get_orders]; [fid]: None for a falsy value, else [str(order_id)].  The
      UserOrder objects are represented by the Order they wrap. *)
  Definition api_get_orders (fid : option str) (fcode : option carg) (fst : fstatus)
      (w : world G) : res (dict str nat) :=
    do oc <- (match fcode with
                | None | Some (CStr []) => Ok None
                | Some c => do s <- check_code c; Ok (Some s)
                end);
    do os <- check_fstatus fst;
    do a <- the_account w;
    let refs := match fid with
                | None => dvals (a_orders a)
                | Some i => match dget i (a_orders a) with Some r => [r] | None => [] end
                end in
    let by_code := match oc with
                   | None => refs
                   | Some s => filter (fun r => match deref a r with Some o => str_eqb (o_code o) s | None => false end) refs
                   end in
    let by_status := match os with
                     | None => by_code
                     | Some s => filter (fun r => match deref a r with Some o => str_eqb (status_str (o_status o)) s | None => false end) by_code
                     end in
    Ok (fold_left (fun d r => match deref a r with Some o => dset (o_id o) r d | None => d end) by_status []).

  (** lines 144-154: one request of a batch *)
  Definition batch_one (id : str) (now : Z) (q : req) (w : world G) : option str * world G :=
    match r_code q, r_amount q with
    | Some c, Some n =>
        match api_order id now c n (r_style q) (r_side q) w with
        | (Ok r, w') => (r, w')
        | (Err _, w') => (None, w')
        end
    | _, _ => (None, w)
    end.
  (** lines 124-157 [batch_submit_orders]: each request with its id and clock reading.
      Simplification: the requests are dicts. *)
  Fixpoint batch_submit (qs : list (str * Z * req)) (w : world G) : list (option str) * world G :=
    match qs with
    | [] => ([], w)
    | (id, now, q) :: qs' =>
        let '(r, w1) := batch_one id now q w in
        let '(rs, w2) := batch_submit qs' w1 in
        (r :: rs, w2)
    end.
  (** lines 160-167 [batch_cancel_orders] *)
  Fixpoint batch_cancel (ids : list str) (w : world G) : res unit * world G :=
    match ids with
    | [] => (Ok tt, w)
    | id :: ids' => match api_cancel id w with
                    | (Ok _, w') => batch_cancel ids' w'
                    | (Err e, w') => (Err e, w')
                    end
    end.
  (** lines 170-175 *)
  Definition api_sync_balance (w : world G) : res unit * world G :=
    match the_account w with
    | Err e => (Err e, w)
    | Ok a => let '(a', g') := acc_sync_balance gt a (w_gate w) in (Ok tt, World (w_use w) (Some a') g')
    end.
  Definition api_sync_orders (w : world G) : res unit * world G :=
    match the_account w with
    | Err e => (Err e, w)
    | Ok a => let '(a', g') := acc_sync_orders gt a (w_gate w) in (Ok tt, World (w_use w) (Some a') g')
    end.
  (** context.py:108-114; an attribute of the portfolio *)
  Definition api_portfolio {A} (view : acct -> res A) (w : world G) : res A :=
    do a <- the_account w; view a.

  (** everything that can happen to the account after it was set up *)
  Inductive call :=
  | KOrder (id : str) (now : Z) (c : carg) (n : aarg) (st : starg) (sd : sdarg)
  | KCancel (id : str)
  | KSubmit (qs : list (str * Z * req))
  | KCancels (ids : list str)
  | KSyncBal | KSyncOrd
  | KEnv (g : G).
  Definition do_call (k : call) (w : world G) : world G :=
    match k with
    | KOrder id now c n st sd => snd (api_order id now c n st sd w)
    | KCancel id => snd (api_cancel id w)
    | KSubmit qs => snd (batch_submit qs w)
    | KCancels ids => snd (batch_cancel ids w)
    | KSyncBal => snd (api_sync_balance w)
    | KSyncOrd => snd (api_sync_orders w)
    | KEnv g => World (w_use w) (w_acc w) g
    end.
  Definition do_calls (ks : list call) (w : world G) : world G := fold_left (fun w k => do_call k w) ks w.
End Api.
Arguments KOrder {G}. Arguments KCancel {G}. Arguments KSubmit {G}. Arguments KCancels {G}.
Arguments KSyncBal {G}. Arguments KSyncOrd {G}. Arguments KEnv {G}.
