(** Specifications for the account and the trading API, independent of the functions in
    MAccount.v and MApi.v (only their data types are used). *)
From Verif Require Import PyBase PyStr SDate MOrder MAccount MApi.
Open Scope Z_scope.

(** ** C20: which arguments are an order *)

(** decimal digits by the character's own classification *)
Definition digit_char (udigit : N -> bool) (c : N) : Prop :=
  if (c <? 128)%N then (48 <= c <= 57)%N else udigit c = true.
Definition exchange (s : str) : Prop := s = lit "XSHE" \/ s = lit "XSHG".
(** digits, separator, exchange *)
Definition code_form (udigit : N -> bool) (sep : N) (s : str) : Prop :=
  exists d e, s = d ++ sep :: e /\ d <> [] /\ Forall (digit_char udigit) d /\ exchange e.

Definition amount_form (n : aarg) (z : Z) : Prop :=
  (n = AInt z /\ z <> 0) \/ (n = ABool true /\ z = 1).
Definition style_form (st : starg) (s : style) : Prop :=
  st = StStyle s \/ (st = StFalsy /\ s = Market (PNum (lit "0"))).
Definition side_form (sd : sdarg) (s : side) : Prop :=
  match s with
  | Long => sd = SdFalsy \/ sd = SdStr [] \/ sd = SdStr (lit "long")
  | Short => sd = SdStr (lit "short")
  end.
(** the arguments denote an order for [code], [z], [sty], [s], with separator [sep] *)
Definition order_args (udigit : N -> bool) sep c n st sd code z sty s : Prop :=
  c = CStr code /\ code_form udigit sep code /\ amount_form n z /\ style_form st sty /\ side_form sd s.

(** the order object that has to reach the gate *)
Definition order_for (id : str) (now : Z) (code : str) (z : Z) (sty : style) (o : order) : Prop :=
  o_id o = id /\ o_code o = code /\ o_amount o = Z.abs z /\ (o_action o = Open <-> 0 < z) /\
  o_style o = sty /\ o_price o = style_price sty /\ o_create o = now /\ o_status o = Snew /\
  o_filled o = 0 /\ o_canceled o = 0.

(** ** The order book *)

Definition book_ok (a : acct) : Prop :=
  NoDup (dkeys (a_orders a)) /\
  (forall k r, dget k (a_orders a) = Some r ->
     exists o, nth_error (a_heap a) r = Some o /\ o_id o = k /\ style_price (o_style o) = o_price o).
(** the recorded order with this id *)
Definition recorded (a : acct) (id : str) (o : order) : Prop :=
  exists r, dget id (a_orders a) = Some r /\ nth_error (a_heap a) r = Some o.
Definition known (a : acct) (id : str) : Prop := exists o, recorded a id o.

(** ** C26 *)
(** the names of the statuses *)
Definition status_name (x : status) (s : str) : Prop :=
  In (x, s) [(Snew, lit "new"); (Sopen, lit "open"); (Sfilling, lit "filling"); (Sfilled, lit "filled"); (Scanceling, lit "canceling");
             (Spartly_canceled, lit "partly_canceled"); (Scanceled, lit "canceled"); (Srejected, lit "rejected")].
Definition filter_id (f : option str) (k : str) : Prop := match f with None => True | Some i => k = i end.
Definition filter_code (f : option carg) (o : order) : Prop :=
  match f with None | Some (CStr []) => True | Some (CStr s) => o_code o = s | Some _ => False end.
Definition filter_status (f : fstatus) (o : order) : Prop :=
  match f with
  | FsFalsy | FsStr [] => True
  | FsMember s => o_status o = s
  | FsStr s => status_name (o_status o) s
  | _ => False
  end.

(** ** C28: the reported values *)
Definition agrees (i : oinfo) (o : order) : Prop :=
  status_str (o_status o) = i_status i /\ o_confirm o = i_confirm i /\
  o_filled o = dfl (i_filled i) 0 /\ o_canceled o = dfl (i_canceled i) 0 /\
  o_deal o = dfl (i_deal i) 0 /\ o_avg o = i_avg i /\ o_comm o = dfl (i_comm i) 0.
(** the order that a report denotes *)
Definition entrust_as (s : option str) (t : option Z) : Prop :=
  match s, t with
  | None, None | Some [], None => True
  | Some (c :: s'), Some v => dt_text (c :: s') v
  | _, _ => False
  end.
Definition denotes (i : oinfo) (o : order) : Prop :=
  agrees i o /\ o_code o = i_code i /\ o_price o = i_price i /\ o_amount o = i_amount i /\ o_id o = i_id i /\
  action_str (o_action o) = i_action i /\
  ((i_style i = lit "market" /\ o_style o = Market (i_price i)) \/ (i_style i = lit "limit" /\ o_style o = Limit (i_price i))) /\
  dt_text (i_create i) (o_create o) /\ entrust_as (i_entrust i) (o_entrust o) /\
  side_str (o_side o) = dfl (i_side i) (lit "long") /\ o_err o = dfl (i_err i) [].
(** it denotes one at all *)
Definition loadable (i : oinfo) : Prop := exists o, denotes i o.

(** ** C29 *)
Definition changed (l r : order) : Prop :=
  (o_status l, o_confirm l, o_filled l, o_canceled l, o_deal l, o_avg l, o_comm l)
  <> (o_status r, o_confirm r, o_filled r, o_canceled r, o_deal r, o_avg r, o_comm r).
Definition final_status (s : status) : Prop := In s [Sfilled; Spartly_canceled; Scanceled; Srejected].
Definition kind_of (k : notice) (s : status) : Prop :=
  match k with
  | NConfirmed => s = Sopen
  | NFilling => s = Sfilling
  | NFilled => s = Sfilled
  | NCanceling => s = Scanceling
  | NCanceled => s = Spartly_canceled \/ s = Scanceled
  | NRejected => s = Srejected
  end.

(** ** C30 *)
(** the last reported position of a code on a side *)
Definition last_pos (sd : side) (code : str) (l : list pinfo) : option pinfo :=
  find (fun p => str_eqb (dfl (p_side p) []) (side_str sd) && str_eqb (dfl (p_code p) []) code) (rev l).
Definition pos_complete (p : pinfo) : Prop :=
  (p_side p = Some (lit "long") \/ p_side p = Some (lit "short")) /\
  p_code p <> None /\ p_amount p <> None /\ p_avail p <> None /\ p_avg p <> None.
Definition pos_as (p : pinfo) (q : position) : Prop :=
  p_side p = Some (side_str (ps_side q)) /\ p_code p = Some (ps_code q) /\ p_amount p = Some (ps_amount q) /\
  p_avail p = Some (ps_avail q) /\ p_avg p = Some (ps_avg q) /\ p_last p = ps_last q /\ p_value p = ps_value q.
(** the position map holds exactly what was reported for the side *)
Definition map_as (sd : side) (l : list pinfo) (d : dict str position) : Prop :=
  forall code, match last_pos sd code l with
               | None => dget code d = None
               | Some p => exists q, dget code d = Some q /\ pos_as p q
               end.

(** ** C31: quantity sold by the accepted orders of a history *)
Fixpoint sold {G} (code : str) (ops : list (aop (G := G))) (rs : list (option str)) : Z :=
  match ops, rs with
  | AOrder _ _ c z _ _ :: ops', Some _ :: rs' =>
      (if str_eqb c code && (z <? 0) then - z else 0) + sold code ops' rs'
  | _ :: ops', _ :: rs' => sold code ops' rs'
  | _, _ => 0
  end.
Definition no_balance_sync {G} (ops : list (aop (G := G))) : Prop :=
  Forall (fun op => op <> ASyncBal) ops.
