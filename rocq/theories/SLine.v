(** Specification: what one line of the broker's update or result file does (C130). *)
From Verif Require Import PyBase PyStr MTime MDate MOrder MAccount MGate SGate.
Open Scope Z_scope.

Section Lines.
  Variables (ptime f3 f4 : str -> option Z).

  (** an order with other figures *)
  Definition figures (i : oinfo) (st : str) (en cf : option str) (fi ca de av : option Z) (er : option str) : oinfo :=
    OInfo (i_code i) (i_price i) (i_amount i) (i_action i) (i_id i) st (i_style i) (i_create i) en (i_side i) cf fi ca de av (i_comm i) er.

  (** [update_makes l i i' e]: an update line of the order [i] makes [i'] of it, and [e] is the
      error.  The columns are read in the order status (7), time (1 and 2), filled amount (11),
      filled balance (13), cancelled amount (14), average price (12); those before the first
      that cannot be read take effect, the confirmation id (15) with the time, the message
      (18) only if all can be read. *)
  Inductive update_makes (l : str) (i : oinfo) : oinfo -> option exn -> Prop :=
  | um_status : (forall st, ~ status_code (col 7 l) st) -> update_makes l i i (Some ParserError)
  | um_time st : status_code (col 7 l) st -> ptime (col 1 l ++ col 2 l) = None ->
      update_makes l i (figures i (status_str st) (i_entrust i) (i_confirm i) (i_filled i) (i_canceled i) (i_deal i) (i_avg i) (i_err i)) (Some ValueError)
  | um_filled st t : status_code (col 7 l) st -> ptime (col 1 l ++ col 2 l) = Some t -> py_int (col 11 l) = None ->
      update_makes l i (figures i (status_str st) (Some (fmt_dt t)) (Some (col 15 l)) (i_filled i) (i_canceled i) (i_deal i) (i_avg i) (i_err i)) (Some ValueError)
  | um_deal st t q : status_code (col 7 l) st -> ptime (col 1 l ++ col 2 l) = Some t -> py_int (col 11 l) = Some q -> f4 (col 13 l) = None ->
      update_makes l i (figures i (status_str st) (Some (fmt_dt t)) (Some (col 15 l)) (Some q) (i_canceled i) (i_deal i) (i_avg i) (i_err i)) (Some ValueError)
  | um_canceled st t q a : status_code (col 7 l) st -> ptime (col 1 l ++ col 2 l) = Some t -> py_int (col 11 l) = Some q ->
      f4 (col 13 l) = Some a -> py_int (col 14 l) = None ->
      update_makes l i (figures i (status_str st) (Some (fmt_dt t)) (Some (col 15 l)) (Some q) (i_canceled i) (Some a) (i_avg i) (i_err i)) (Some ValueError)
  | um_avg st t q a c : status_code (col 7 l) st -> ptime (col 1 l ++ col 2 l) = Some t -> py_int (col 11 l) = Some q ->
      f4 (col 13 l) = Some a -> py_int (col 14 l) = Some c -> f3 (col 12 l) = None ->
      update_makes l i (figures i (status_str st) (Some (fmt_dt t)) (Some (col 15 l)) (Some q) (Some c) (Some a) (i_avg i) (i_err i)) (Some ValueError)
  | um_all st t q a c p : status_code (col 7 l) st -> ptime (col 1 l ++ col 2 l) = Some t -> py_int (col 11 l) = Some q ->
      f4 (col 13 l) = Some a -> py_int (col 14 l) = Some c -> f3 (col 12 l) = Some p ->
      update_makes l i (figures i (status_str st) (Some (fmt_dt t)) (Some (col 15 l)) (Some q) (Some c) (Some a) (Some p) (Some (col 18 l))) None.

  (** what a line means for the orders and for reading: stop before it; go on behind it
      without moving the read position; move the position behind it; an error *)
  Inductive fate := Stops | Passes | Taken | Fails (x : exn).
  (** orders: one changed or none *)
  Definition same_orders (o o' : dict str oinfo) : Prop := forall id, dget id o' = dget id o.
  Definition one_changed (id : str) (i' : oinfo) (o o' : dict str oinfo) : Prop :=
    dget id o' = Some i' /\ forall k, k <> id -> dget k o' = dget k o.

  Inductive update_fate (l : str) (o : dict str oinfo) : fate -> dict str oinfo -> Prop :=
  | uf_header o' : header_line l -> same_orders o o' -> update_fate l o Taken o'
  | uf_short o' : ~ header_line l -> (commas l < 19)%nat -> same_orders o o' -> update_fate l o Stops o'
  | uf_long o' : ~ header_line l -> (19 < commas l)%nat -> same_orders o o' -> update_fate l o (Fails TypeError) o'
  | uf_unknown id o' : update_for id l -> dget id o = None -> same_orders o o' -> update_fate l o Passes o'
  | uf_known id i i' e o' : update_for id l -> dget id o = Some i -> update_makes l i i' e -> one_changed id i' o o' ->
      update_fate l o (match e with Some x => Fails x | None => Taken end) o'.

  Inductive result_fate (l : str) (o : dict str oinfo) : fate -> dict str oinfo -> Prop :=
  | rf_header o' : header_line l -> same_orders o o' -> result_fate l o Taken o'
  | rf_short o' : ~ header_line l -> (commas l < 5)%nat -> same_orders o o' -> result_fate l o Stops o'
  | rf_long o' : ~ header_line l -> (5 < commas l)%nat -> same_orders o o' -> result_fate l o (Fails TypeError) o'
  | rf_reject id i o' : reject_for id l -> dget id o = Some i ->
      one_changed id (figures i (lit "rejected") (i_entrust i) (i_confirm i) (i_filled i) (i_canceled i) (i_deal i) (i_avg i) (Some (col 5 l))) o o' ->
      result_fate l o Taken o'
  | rf_other o' : ~ header_line l -> commas l = 5%nat -> (forall id, reject_for id l -> dget id o = None) -> same_orders o o' ->
      result_fate l o Taken o'.

  (** a file read from a position on, line after line: [reads fate ls pos off o e off' o']:
      [pos] is where the lines begin, [off] the stored position; [e] the error raised *)
  Inductive reads (ignore : bool) (kind : str -> dict str oinfo -> fate -> dict str oinfo -> Prop)
    : list str -> nat -> nat -> dict str oinfo -> option exn -> nat -> dict str oinfo -> Prop :=
  | r_end pos off o o' : same_orders o o' -> reads ignore kind [] pos off o None off o'
  | r_stop l ls pos off o o' : kind l o Stops o' -> reads ignore kind (l :: ls) pos off o None off o'
  | r_pass l ls pos off o o1 e off' o' : kind l o Passes o1 ->
      reads ignore kind ls (pos + length l) off o1 e off' o' -> reads ignore kind (l :: ls) pos off o e off' o'
  | r_take l ls pos off o o1 e off' o' : kind l o Taken o1 ->
      reads ignore kind ls (pos + length l) (pos + length l) o1 e off' o' -> reads ignore kind (l :: ls) pos off o e off' o'
  | r_ignore l ls pos off o x o1 e off' o' : ignore = true -> kind l o (Fails x) o1 ->
      reads ignore kind ls (pos + length l) (pos + length l) o1 e off' o' -> reads ignore kind (l :: ls) pos off o e off' o'
  | r_fail l ls pos off o x o' : ignore = false -> kind l o (Fails x) o' -> reads ignore kind (l :: ls) pos off o (Some x) off o'.
End Lines.
