(** C142: what became of an order whose id order() returned, at any later time of the day. *)
From Verif Require Import PyBase PyStr MTime MOrder MAccount MGate SAccount SGate SLife.
Open Scope list_scope.
Open Scope Z_scope.

Section Acked.
  Context (ptime f3 f4 : str -> option Z) (go : gopts) (bal : gst -> res binfo * gst).
  Notation gt := (anxin ptime f3 f4 go bal).
  Notation life := (life ptime f3 f4 go bal).

  (** one step of a life (see SLife.v) *)
  Inductive lstep (d : Z) : acct -> gst -> dict str oinfo -> acct -> gst -> dict str oinfo -> Prop :=
  | ls_order a g p id now code n st sd r a' g' : dget id p = None -> year4 now ->
      (forall l, In l (lines_of (text_of d (gs_ufile g))) -> whole l -> ~ update_for id l) ->
      (forall l, In l (lines_of (text_of d (gs_rfile g))) -> whole l -> ~ reject_for id l) ->
      acc_order gt id now code n st sd a g = (r, a', g') ->
      lstep d a g p a' g' (match dget id (gs_orders g') with Some i => dset id i p | None => p end)
  | ls_cancel a g p id : lstep d a g p (fst (acc_cancel gt id a g)) (snd (acc_cancel gt id a g)) p
  | ls_env a g p e : ge_date e = d -> lstep d a g p a (set_env e g) p
  | ls_grow a g p r u dr du : text_of d u = text_of d (gs_ufile g) ++ du -> text_of d r = text_of d (gs_rfile g) ++ dr ->
      lstep d a g p a (set_bfiles r u g) p
  | ls_sync a g p :
      (forall r u, dget d (gs_rfile g) = Some r -> dget d (gs_ufile g) = Some u ->
         exists rs us, calm 5 r rs /\ calm 19 u us /\ exclusive rs us) ->
      lstep d a g p (fst (acc_sync_orders gt a g)) (snd (acc_sync_orders gt a g)) p
  | ls_balance a g p : snd (bal g) = g -> lstep d a g p (fst (acc_sync_balance gt a g)) (snd (acc_sync_balance gt a g)) p
  | ls_restart a g p : lstep d a g p acct_new (gate_setup true g) (filter (fun kv => dmem (fst kv) (gs_orders (gate_setup true g))) p).

  (** order(code, n, style) returned [id] at some time of the life, and it went on to now *)
  Inductive since (d : Z) (id code : str) (n : Z) (st : style) : acct -> gst -> dict str oinfo -> Prop :=
  | si_placed a g p now sd a' g' : life d a g p -> dget id p = None -> year4 now ->
      (forall l, In l (lines_of (text_of d (gs_ufile g))) -> whole l -> ~ update_for id l) ->
      (forall l, In l (lines_of (text_of d (gs_rfile g))) -> whole l -> ~ reject_for id l) ->
      acc_order gt id now code n st sd a g = (Some id, a', g') ->
      since d id code n st a' g' (match dget id (gs_orders g') with Some i => dset id i p | None => p end)
  | si_later a g p a' g' p' : since d id code n st a g p -> lstep d a g p a' g' p' -> since d id code n st a' g' p'.
End Acked.

(** the order that was asked for *)
Definition asked (code : str) (n : Z) (st : style) (o : order) : Prop :=
  o_code o = code /\ o_amount o = Z.abs n /\ (o_action o = Close <-> n < 0) /\
  o_price o = match st with Market p => p | Limit p => p end.
