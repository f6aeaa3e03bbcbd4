(** C80: what the order and the cancel file of a day have to hold, over whole histories of
    an account trading through the AnXin gate, with restarts. *)
From Verif Require Import PyBase PyStr SDate MTime MDate MOrder MAccount MGate SAccount SGate.
Open Scope Z_scope.

(** a call of order: what was asked for, on which day, whether the disk took the text, and
    whether an id was returned *)
Record oreq := OReq { oq_id : str; oq_code : str; oq_n : Z; oq_style : style; oq_day : Z; oq_done : bool; oq_ack : bool }.
(** a call of cancel_order; [cq_known]: the account has the order *)
Record creq := CReq { cq_id : str; cq_day : Z; cq_done : bool; cq_known : bool }.

Definition took (w : wout) : bool := match w with WDone => true | _ => false end.
Definition torn (e : genv) : Prop := exists n x, ge_write e = WTorn n x.

Section Trail.
  Context (udigit : N -> bool) (ptime f3 f4 : str -> option Z) (go : gopts) (bal : gst -> res binfo * gst).
  Notation gt := (anxin ptime f3 f4 go bal).
  (** [env]: what disk and clock may do; [sty]: the styles of the orders asked for *)
  Context (env : genv -> Prop) (sty : style -> Prop).

  (** the orders and cancels asked for so far, oldest first; the codes and amounts are
      those that api.order lets through *)
  Inductive trail : acct -> gst -> list oreq -> list creq -> Prop :=
  | t_start g : (forall d, text_of d (gs_ofile g) = []) -> (forall d, text_of d (gs_cfile g) = []) ->
      gs_orders g = [] -> gs_data g = [] -> env (gs_env g) -> trail acct_new g [] []
  | t_order a g os cs id now sep code n st sd r a' g' : trail a g os cs ->
      code_form udigit sep code -> n <> 0 -> sty st ->
      acc_order gt id now code n st sd a g = (r, a', g') ->
      trail a' g' (os ++ [OReq id code n st (ge_date (gs_env g)) (took (ge_write (gs_env g)))
                            match r with Some _ => true | None => false end]) cs
  | t_cancel a g os cs id : trail a g os cs ->
      trail (fst (acc_cancel gt id a g)) (snd (acc_cancel gt id a g)) os
        (cs ++ [CReq id (ge_date (gs_env g)) (took (ge_write (gs_env g))) (dmem id (a_orders a))])
  | t_env a g os cs e : trail a g os cs -> env e -> trail a (set_env e g) os cs
  | t_broker a g os cs r u : trail a g os cs -> trail a (set_bfiles r u g) os cs
  | t_sync a g os cs : trail a g os cs -> trail (fst (acc_sync_orders gt a g)) (snd (acc_sync_orders gt a g)) os cs
  | t_balance a g os cs : trail a g os cs -> snd (bal g) = g ->
      trail (fst (acc_sync_balance gt a g)) (snd (acc_sync_balance gt a g)) os cs
  | t_restart a g os cs ok : trail a g os cs -> trail acct_new (gate_setup ok g) os cs.
End Trail.

(** texts that can stand in a column *)
Definition plain_opts (go : gopts) : Prop := plain (go_acct go) /\ plain (go_counter go) /\ plain (go_algo go).
Definition plain_req (q : oreq) : Prop :=
  plain (oq_id q) /\ plain (oq_code q) /\ forall p, oq_style q = Limit p -> plain (pval_str p).

(** the line of an order, of a cancel *)
Definition line_for (go : gopts) (q : oreq) (l : str) : Prop :=
  exists sym cols, symbol_of (oq_code q) sym /\
    order_columns (oq_id q) (go_acct go) (go_counter go) (go_algo go) sym (oq_n q) (oq_style q) cols /\
    l = join_with COMMA cols ++ go_eol go /\
    (plain_opts go -> plain_req q -> split_on COMMA (join_with COMMA cols) = cols /\ ~ In NL (join_with COMMA cols)).
Definition cline_for (go : gopts) (q : creq) (l : str) : Prop :=
  exists stamp, l = stamp ++ COMMA :: cq_id q ++ go_eol go /\ numeral stamp.

(** a file that holds these lines: empty, or one header and the lines *)
Definition holds (header eol : str) (ls : list str) (text : str) : Prop :=
  text = match ls with [] => [] | _ => header ++ eol ++ concat ls end.

(** the requests of a day whose text reached the file *)
Definition written (d : Z) (os : list oreq) : list oreq := filter (fun q => (oq_day q =? d) && oq_done q) os.
Definition cwritten (d : Z) (cs : list creq) : list creq := filter (fun q => (cq_day q =? d) && cq_done q && cq_known q) cs.
