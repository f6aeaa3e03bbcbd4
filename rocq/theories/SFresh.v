(** C138: a task process with an account over one day: what the callbacks of the loop and the
    strategy do to account and gate, and the order sync that succeeded last. *)
From Verif Require Import PyBase PyStr MTime MDate MOrder MAccount MGate MStrategy SProcess SAccount SGate SLife.
Open Scope Z_scope.

(** the order-sync callback *)
Definition is_ord (c : cb) : bool := match c with CbOrd _ => true | _ => false end.

(** a moment in the life of the process: the callbacks called up to then, the gate with the
    broker's files as they were then, and the orders submitted by then *)
Record moment := Moment { mo_inv : list (Z * cb); mo_gate : gst; mo_put : dict str oinfo }.

Section Fresh.
  Context (ptime f3 f4 : str -> option Z) (go : gopts) (bal : gst -> res binfo * gst) (d : Z).
  Notation gt := (anxin ptime f3 f4 go bal).

  (** the conditions of C36 on the files a sync sees *)
  Definition legible (g : gst) : Prop :=
    exists r u rs us, dget d (gs_rfile g) = Some r /\ dget d (gs_ufile g) = Some u /\
      calm 5 r rs /\ calm 19 u us /\ exclusive rs us.
  Definition succeeds (g : gst) : Prop := exists l, fst (gate_sync_orders ptime f3 f4 go g) = Ok l.

  (** [traded inv a g p m fl]: the callbacks [inv] were called, leaving account [a] and gate
      [g]; [p] are the orders submitted, [m] is the moment of the last sync that succeeded,
      [fl] are the instants whose sync failed.  In between the strategy may order, cancel and
      sync as it likes, and the broker's files may grow. *)
  Inductive traded : list (Z * cb) -> acct -> gst -> dict str oinfo -> option moment -> list Z -> Prop :=
  | tr_start g : gs_day g = d -> ge_date (gs_env g) = d -> gs_orders g = [] -> gs_uoff g = 0%nat -> gs_roff g = 0%nat ->
      dget d (gs_data g) = None -> traded [] acct_new g [] None []
  | tr_timer inv a g p m fl t i : traded inv a g p m fl -> legible g -> succeeds g ->
      traded (inv ++ [(t, CbOrd i)]) (fst (acc_sync_orders gt a g)) (snd (acc_sync_orders gt a g)) p
        (Some (Moment (inv ++ [(t, CbOrd i)]) g p)) fl
  | tr_failed inv a g p m fl t i : traded inv a g p m fl ->
      (legible g \/ dget d (gs_rfile g) = None \/ dget d (gs_ufile g) = None) -> ~ succeeds g ->
      traded (inv ++ [(t, CbOrd i)]) (fst (acc_sync_orders gt a g)) (snd (acc_sync_orders gt a g)) p m (fl ++ [t])
  | tr_call inv a g p m fl t c : traded inv a g p m fl -> is_ord c = false -> traded (inv ++ [(t, c)]) a g p m fl
  | tr_sync inv a g p m fl : traded inv a g p m fl -> legible g -> succeeds g ->
      traded inv (fst (acc_sync_orders gt a g)) (snd (acc_sync_orders gt a g)) p (Some (Moment inv g p)) fl
  | tr_sync_failed inv a g p m fl : traded inv a g p m fl ->
      (legible g \/ dget d (gs_rfile g) = None \/ dget d (gs_ufile g) = None) -> ~ succeeds g ->
      traded inv (fst (acc_sync_orders gt a g)) (snd (acc_sync_orders gt a g)) p m fl
  | tr_order inv a g p m fl id now code n st sd r a' g' : traded inv a g p m fl -> dget id p = None -> year4 now ->
      (forall l, In l (lines_of (text_of d (gs_ufile g))) -> SGate.whole l -> ~ update_for id l) ->
      (forall l, In l (lines_of (text_of d (gs_rfile g))) -> SGate.whole l -> ~ reject_for id l) ->
      acc_order gt id now code n st sd a g = (r, a', g') ->
      traded inv a' g' (match dget id (gs_orders g') with Some i => dset id i p | None => p end) m fl
  | tr_cancel inv a g p m fl id : traded inv a g p m fl ->
      traded inv (fst (acc_cancel gt id a g)) (snd (acc_cancel gt id a g)) p m fl
  | tr_env inv a g p m fl e : traded inv a g p m fl -> ge_date e = d -> traded inv a (set_env e g) p m fl
  | tr_grow inv a g p m fl r u dr du : traded inv a g p m fl ->
      text_of d u = text_of d (gs_ufile g) ++ du -> text_of d r = text_of d (gs_rfile g) ++ dr ->
      traded inv a (set_bfiles r u g) p m fl
  | tr_balance inv a g p m fl : traded inv a g p m fl -> snd (bal g) = g ->
      traded inv (fst (acc_sync_balance gt a g)) (snd (acc_sync_balance gt a g)) p m fl.

  (** what the strategy is to see of the order [id], submitted as [i], if the broker's files
      say [rs] and [us]: what was ordered; the values of its last update line if that one
      parses; rejected if a result line rejects it; new if there is no line about it *)
  Definition told (rs us : list str) (id : str) (i : oinfo) (o : order) : Prop :=
    same_order i o /\
    (forall pre u post st t q m c pz, us = pre ++ u :: post -> update_for id u -> (forall x, In x post -> ~ update_for id x) ->
       status_code (col 7 u) st -> ptime (col 1 u ++ col 2 u) = Some t -> py_int (col 11 u) = Some q ->
       f4 (col 13 u) = Some m -> py_int (col 14 u) = Some c -> f3 (col 12 u) = Some pz ->
       o_status o = st /\ o_filled o = q /\ o_canceled o = c /\ o_deal o = m /\ o_avg o = Some pz /\ o_confirm o = Some (col 15 u)) /\
    ((exists r, In r rs /\ reject_for id r) -> o_status o = Srejected) /\
    ((forall r, In r rs -> ~ reject_for id r) -> (forall u, In u us -> ~ update_for id u) -> o_status o = Snew /\ o_filled o = 0).

  (** the account shows the orders submitted by moment [m] as the broker's files were then *)
  Definition shows (a : acct) (m : moment) : Prop :=
    forall r u rs us, dget d (gs_rfile (mo_gate m)) = Some r -> dget d (gs_ufile (mo_gate m)) = Some u ->
      calm 5 r rs -> calm 19 u us -> exclusive rs us ->
      forall id i, dget id (mo_put m) = Some i -> exists o, recorded a id o /\ told rs us id i o.
End Fresh.
