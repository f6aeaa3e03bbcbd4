(** Model of orders (jqtrade/account/order.py) and their JSON form.

    Prices are whatever the user puts into an order style.  [PNum r]: an int or a finite
    float, identified by its text [r]; [PTxt]: a str; [PBad r]: an object with text [r]
    that json.dump rejects (Decimal, ...).
    Broker amounts of money (deal_balance, avg_cost, commission) are exact multiples of
    1/10000 resp. 1/1000, as the gate rounds them; NaN and infinities are not
    represented. *)
From Verif Require Import PyBase PyStr MTime MDate.
Open Scope Z_scope.

(** lines 13-36 *)
Inductive status := Snew | Sopen | Sfilling | Sfilled | Scanceling | Spartly_canceled | Scanceled | Srejected.
(** lines 57-62, 79-84 *)
Inductive side := Long | Short.
Inductive action := Open | Close.
Inductive pval := PNum (repr : str) | PTxt (s : str) | PBad (repr : str).
(** lines 101-142 *)
Inductive style := Market (p : pval) | Limit (p : pval).

(** [str(price)] *)
Definition pval_str (p : pval) : str := match p with PNum s | PTxt s | PBad s => s end.
Definition style_price (st : style) : pval := match st with Market p | Limit p => p end.

(** member names and values coincide *)
Definition status_str (s : status) : str :=
  match s with
  | Snew => lit "new" | Sopen => lit "open" | Sfilling => lit "filling" | Sfilled => lit "filled"
  | Scanceling => lit "canceling" | Spartly_canceled => lit "partly_canceled"
  | Scanceled => lit "canceled" | Srejected => lit "rejected"
  end.
Definition all_status : list status :=
  [Snew; Sopen; Sfilling; Sfilled; Scanceling; Spartly_canceled; Scanceled; Srejected].
Definition side_str (s : side) : str := match s with Long => lit "long" | Short => lit "short" end.
Definition action_str (a : action) : str := match a with Open => lit "open" | Close => lit "close" end.
Definition style_str (st : style) : str := match st with Market _ => lit "market" | Limit _ => lit "limit" end.

Definition find_name {A} (name : A -> str) (l : list A) (s : str) : res A :=
  match find (fun a => str_eqb (name a) s) l with Some a => Ok a | None => Err ValueError end.
(** lines 46-54, 68-76, 90-98: from the string *)
Definition get_status (s : str) : res status := find_name status_str all_status s.
Definition get_side (s : str) : res side := find_name side_str [Long; Short] s.
Definition get_action (s : str) : res action := find_name action_str [Open; Close] s.
(** lines 113-124 *)
Definition get_style (s : str) (p : pval) : res style :=
  if str_eqb s (lit "market") then Ok (Market p)
  else if str_eqb s (lit "limit") then Ok (Limit p)
  else Err ValueError.

Definition status_eqb (a b : status) : bool := str_eqb (status_str a) (status_str b).
Lemma status_eqb_spec a b : reflect (a = b) (status_eqb a b).
Proof. destruct a, b; cbn; constructor; (reflexivity || discriminate). Qed.
Global Instance Eqb_status : Eqb status := {| eqb := status_eqb; eqb_spec := status_eqb_spec |}.

(** lines 42-44 [finished_status] *)
Definition finished (s : status) : bool :=
  match s with Sfilled | Spartly_canceled | Scanceled | Srejected => true | _ => false end.

(** lines 145-200: an Order object with status and style set *)
Record order := Order {
  o_code : str; o_price : pval; o_amount : Z; o_action : action; o_id : str;
  o_status : status; o_style : style; o_create : Z; o_entrust : option Z; o_side : side;
  o_confirm : option str; o_filled : Z; o_canceled : Z; o_deal : Z; o_avg : option Z;
  o_comm : Z; o_err : str
}.

(** lines 202-221 [json], and what gates report to the account (trade_gate.py:92-117):
    a dict with string-valued enums.  Optional entries are options. *)
Record oinfo := OInfo {
  i_code : str; i_price : pval; i_amount : Z; i_action : str; i_id : str;
  i_status : str; i_style : str; i_create : str; i_entrust : option str; i_side : option str;
  i_confirm : option str; i_filled : option Z; i_canceled : option Z; i_deal : option Z;
  i_avg : option Z; i_comm : option Z; i_err : option str
}.

Definition json (o : order) : oinfo :=
  OInfo (o_code o) (o_price o) (o_amount o) (action_str (o_action o)) (o_id o)
    (status_str (o_status o)) (style_str (o_style o)) (fmt_dt (o_create o))
    (option_map fmt_dt (o_entrust o)) (Some (side_str (o_side o)))
    (o_confirm o) (Some (o_filled o)) (Some (o_canceled o)) (Some (o_deal o)) (o_avg o)
    (Some (o_comm o)) (Some (o_err o)).

Definition dfl {A} (x : option A) (d : A) : A := match x with Some a => a | None => d end.

(** lines 146-200, 223-225 [load]: errors in the order of evaluation.
    Simplification: status, style and create_time are present and non-empty (required entries). *)
Definition load (i : oinfo) : res order :=
  do act <- get_action (i_action i);
  do st <- get_status (i_status i);
  do sty <- get_style (i_style i) (i_price i);
  do cr <- parse_dt (i_create i);
  do en <- (match i_entrust i with
            | Some s => if str_eqb s [] then Ok None else do t <- parse_dt s; Ok (Some t)
            | None => Ok None
            end);
  do sd <- get_side (dfl (i_side i) (lit "long"));
  Ok (Order (i_code i) (i_price i) (i_amount i) act (i_id i) st sty cr en sd
        (i_confirm i) (dfl (i_filled i) 0) (dfl (i_canceled i) 0) (dfl (i_deal i) 0) (i_avg i)
        (dfl (i_comm i) 0) (dfl (i_err i) [])).

(** lines 302-311 [__eq__] *)
Definition same (a b : order) : bool :=
  eqb (o_status a) (o_status b) && eqb (o_confirm a) (o_confirm b) && (o_filled a =? o_filled b)
  && (o_canceled a =? o_canceled b) && (o_deal a =? o_deal b) && eqb (o_avg a) (o_avg b)
  && (o_comm a =? o_comm b).

(** json.dump: fails on a price it does not know *)
Definition serialisable (i : oinfo) : bool := match i_price i with PBad _ => false | _ => true end.
