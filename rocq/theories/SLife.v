(** C68: a strategy process trading through the AnXin gate on one day, with crashes and
    restarts: the histories considered, and what the account has to show. *)
From Verif Require Import PyBase PyStr SDate MTime MDate MOrder MAccount MGate SAccount SGate.
Open Scope Z_scope.

(** every order is kept under its own id, once *)
Definition own_ids (o : dict str oinfo) : Prop := NoDup (dkeys o) /\ forall k i, dget k o = Some i -> i_id i = k.

(** a year that strftime writes with four digits *)
Definition year4 (t : Z) : Prop := 1000 <= fst (fst (civil_of_days (dt_date t))) <= 9999.

Section Life.
  Context (ptime f3 f4 : str -> option Z) (go : gopts) (bal : gst -> res binfo * gst).
  Notation gt := (anxin ptime f3 f4 go bal).

  (** [life d a g p]: account and gate of a process on day [d]; [p] holds the orders the
      gate submitted, as they were submitted, as far as they are known to it *)
  Inductive life (d : Z) : acct -> gst -> dict str oinfo -> Prop :=
  | l_start g : gs_day g = d -> ge_date (gs_env g) = d -> gs_orders g = [] -> gs_uoff g = 0%nat -> gs_roff g = 0%nat ->
      dget d (gs_data g) = None -> life d acct_new g []
  | l_order a g p id now code n st sd r a' g' : life d a g p -> dget id p = None -> year4 now ->
      (* the broker does not report an order before it was submitted *)
      (forall l, In l (lines_of (text_of d (gs_ufile g))) -> whole l -> ~ update_for id l) ->
      (forall l, In l (lines_of (text_of d (gs_rfile g))) -> whole l -> ~ reject_for id l) ->
      acc_order gt id now code n st sd a g = (r, a', g') ->
      life d a' g' (match dget id (gs_orders g') with Some i => dset id i p | None => p end)
  | l_cancel a g p id : life d a g p -> life d (fst (acc_cancel gt id a g)) (snd (acc_cancel gt id a g)) p
  | l_env a g p e : life d a g p -> ge_date e = d -> life d a (set_env e g) p
  | l_grow a g p r u dr du : life d a g p ->
      text_of d u = text_of d (gs_ufile g) ++ du -> text_of d r = text_of d (gs_rfile g) ++ dr ->
      life d a (set_bfiles r u g) p
  | l_sync a g p : life d a g p ->
      (forall r u, dget d (gs_rfile g) = Some r -> dget d (gs_ufile g) = Some u ->
         exists rs us, calm 5 r rs /\ calm 19 u us /\ exclusive rs us) ->
      life d (fst (acc_sync_orders gt a g)) (snd (acc_sync_orders gt a g)) p
  | l_balance a g p : life d a g p -> snd (bal g) = g ->
      life d (fst (acc_sync_balance gt a g)) (snd (acc_sync_balance gt a g)) p
  | l_restart a g p : life d a g p ->
      let g' := gate_setup true g in
      life d acct_new g' (filter (fun kv => dmem (fst kv) (gs_orders g')) p).
End Life.

(** the order the strategy asked for *)
Definition same_order (i : oinfo) (o : order) : Prop :=
  o_code o = i_code i /\ o_amount o = i_amount i /\ action_str (o_action o) = i_action i /\ o_price o = i_price i.
