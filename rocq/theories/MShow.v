(** The texts of the objects that strategies get (jqtrade/account/api.py:252-257, 316-320;
    jqtrade/account/order.py:126-127) and of a dict of positions, as they appear in log lines. *)
From Verif Require Import PyBase PyStr MTime MDate MOrder MAccount MGate.
Open Scope Z_scope.

(** [str(dt)] of a datetime, for years 1000..9999: the fraction is left out when it is zero *)
Definition str_dt (t : Z) : str := if t mod US =? 0 then firstn 19 (fmt_dt t) else fmt_dt t.
(** order.py:126-127 [OrderStyle.__str__] *)
Definition show_style (st : style) : str :=
  match st with
  | Market p => lit "MarketOrderStyle(price=" ++ pval_str p ++ lit ")"
  | Limit p => lit "LimitOrderStyle(price=" ++ pval_str p ++ lit ")"
  end.

Section Show.
  (** how a figure that may be a float is printed *)
  Context (num : Z -> str).
  Definition show_opt (x : option Z) : str := match x with Some z => num z | None => lit "None" end.

  (** api.py:252-257 [UserOrder.__str__] *)
  Definition show_order (o : order) : str :=
    join_with COMMA
      [ lit "UserOrder(order_id=" ++ o_id o; lit " code=" ++ o_code o; lit " amount=" ++ str_of_Z (o_amount o);
        lit " style=" ++ show_style (o_style o) ++ lit ")"; lit " status=" ++ status_str (o_status o);
        lit " action=" ++ action_str (o_action o); lit " side=" ++ side_str (o_side o);
        lit " filled_amount=" ++ str_of_Z (o_filled o); lit " avg_price=" ++ show_opt (o_avg o); lit " deal_balance=" ++ num (o_deal o);
        lit " canceled_amount=" ++ str_of_Z (o_canceled o); lit " create_time=" ++ str_dt (o_create o) ].
  (** api.py:316-320 [UserPosition.__str__] *)
  Definition show_pos (p : position) : str :=
    join_with COMMA
      [ lit "UserPosition(security=" ++ ps_code p; lit " total_amount=" ++ num (ps_amount p); lit " closeable_amount=" ++ num (ps_avail p);
        lit " avg_cost=" ++ num (ps_avg p); lit " side=" ++ side_str (ps_side p); lit " last_price=" ++ show_opt (ps_last p);
        lit " position_value=" ++ show_opt (ps_value p) ++ lit ")" ].
End Show.

(** [str] of a dict of UserPosition objects ([context.portfolio.long_positions] in an f-string,
    README.md:58-59): a dict shows the [repr] of its values, which UserPosition does not define,
    so that of [object] is shown, with the address of the object; [addr i]: that of the i-th.
    Simplification: codes without quotes, backslashes and unprintable characters. *)
Fixpoint show_items (addr : nat -> str) (i : nat) (d : dict str position) : str :=
  match d with
  | [] => []
  | (k, _) :: d' => (match i with O => [] | _ => lit ", " end) ++ lit "'" ++ k ++ lit "': <jqtrade.account.api.UserPosition object at " ++ addr i ++ lit ">" ++
                    show_items addr (S i) d'
  end.
Definition show_positions (addr : nat -> str) (d : dict str position) : str := lit "{" ++ show_items addr 0 d ++ lit "}".
