(** The objects that strategies get and their attributes (jqtrade/account/api.py:183-320,
    jqtrade/account/portfolio.py:6-47): UserOrder, UserPosition, Portfolio. *)
From Verif Require Import PyBase PyStr MOrder MAccount MApi.
Open Scope Z_scope.

(** What an attribute can be.  Figures are in the units of [MOrder] and [MAccount]. *)
Inductive uval :=
| VStr (s : str) | VNum (z : Z) | VPrice (p : pval) | VStyle (st : style) | VTime (t : Z) | VNone
| VPositions (sd : side) (d : dict str position).
Definition vopt (f : Z -> uval) (x : option Z) : uval := match x with Some z => f z | None => VNone end.

(** api.py:188-250: the properties of UserOrder *)
Definition order_props : list (str * (order -> uval)) :=
  [ (lit "code", fun o => VStr (o_code o));
    (lit "status", fun o => VStr (status_str (o_status o)));
    (lit "side", fun o => VStr (side_str (o_side o)));
    (lit "style", fun o => VStyle (o_style o));
    (lit "order_price", fun o => VPrice (o_price o));
    (lit "amount", fun o => VNum (o_amount o));
    (lit "filled_amount", fun o => VNum (o_filled o));
    (lit "avg_price", fun o => vopt VNum (o_avg o));
    (lit "action", fun o => VStr (action_str (o_action o)));
    (lit "order_id", fun o => VStr (o_id o));
    (lit "commission", fun o => VNum (o_comm o));
    (lit "err_msg", fun o => VStr (o_err o));
    (lit "canceled_amount", fun o => VNum (o_canceled o));
    (lit "create_time", fun o => VTime (o_create o));
    (lit "entrust_time", fun o => vopt VTime (o_entrust o));
    (lit "deal_balance", fun o => VNum (o_deal o)) ].
(** api.py:282-314: the properties of UserPosition *)
Definition pos_props : list (str * (position -> uval)) :=
  [ (lit "security", fun p => VStr (ps_code p));
    (lit "total_amount", fun p => VNum (ps_amount p));
    (lit "closeable_amount", fun p => VNum (ps_avail p));
    (lit "avg_cost", fun p => VNum (ps_avg p));
    (lit "acc_avg_cost", fun p => VNum (ps_avg p));
    (lit "side", fun p => VStr (side_str (ps_side p)));
    (lit "last_price", fun p => vopt VNum (ps_last p));
    (lit "price", fun p => vopt VNum (ps_last p));
    (lit "position_value", fun p => vopt VNum (ps_value p));
    (lit "value", fun p => vopt VNum (ps_value p)) ].
(** portfolio.py:12-42: the properties of Portfolio *)
Definition folio_props : list (str * (acct -> res uval)) :=
  [ (lit "long_positions", fun a => Ok (VPositions Long (long_view a)));
    (lit "positions", fun a => Ok (VPositions Long (long_view a)));
    (lit "short_positions", fun a => Ok (VPositions Short (short_view a)));
    (lit "total_value", fun a => Ok (VNum (a_total a)));
    (lit "available_cash", fun a => Ok (VNum (a_cash a)));
    (lit "locked_cash", fun a => Ok (VNum (a_locked a)));
    (lit "position_value", fun a => do z <- position_value a; Ok (VNum z)) ].

(** [getattr].  Simplification: the methods that every object has ([__str__], ...) and the
    private [_UserOrder__order] etc. are left out. *)
Definition order_attr (o : order) (n : str) : res uval :=
  match dget n order_props with Some f => Ok (f o) | None => Err AttributeError end.
Definition pos_attr (p : position) (n : str) : res uval :=
  match dget n pos_props with Some f => Ok (f p) | None => Err AttributeError end.
Definition folio_attr (a : acct) (n : str) : res uval :=
  match dget n folio_props with Some f => f a | None => Err AttributeError end.
(** [setattr]: a property without a setter refuses, any other name becomes an entry of the
    object's own dict; the Order, the Position and the account behind it are not touched *)
Definition order_set (n : str) : res unit := if dmem n order_props then Err AttributeError else Ok tt.
Definition pos_set (n : str) : res unit := if dmem n pos_props then Err AttributeError else Ok tt.

Section User.
  Context (udigit : N -> bool) {G : Type} (gt : gate G).
  (** [get_orders()[id].n] *)
  Definition shown (id n : str) (w : world G) : res uval :=
    do d <- api_get_orders udigit None None FsFalsy w;
    match dget id d with
    | None => Err KeyError
    | Some r => match w_acc w with
                | Some a => match deref a r with Some o => order_attr o n | None => Err KeyError end
                | None => Err KeyError
                end
    end.
  (** [context.portfolio.n] (context.py:108-114) *)
  Definition folio (n : str) (w : world G) : res uval := api_portfolio (fun a => folio_attr a n) w.
  (** [context.portfolio.long_positions[code].n] *)
  Definition pos_shown (code n : str) (w : world G) : res uval :=
    do v <- folio (lit "long_positions") w;
    match v with VPositions sd d => pos_attr (fst (view_get sd code d)) n | _ => Err TypeError end.

  (** README.md:431-433: [for _order in get_orders(): if _order.status != "filled": ...]; a dict
      is iterated by its keys, and a str has no attribute [status] *)
  Definition readme_cancel (w : world G) : res unit * world G :=
    match api_get_orders udigit None None FsFalsy w with
    | Err e => (Err e, w)
    | Ok [] => (Ok tt, w)
    | Ok (_ :: _) => (Err AttributeError, w)
    end.
  (** tests/demo/demo_sync.py:13-14, demo_order_minute.py:16-17: the part of process_initialize
      after set_options that reads the portfolio, as far as its second reading *)
  Definition demo_reads (w : world G) : res uval := do v <- folio (lit "total_assert") w; folio (lit "locked_cash") w.
End User.
