(** C82: a task process whose k-th run_daily function places one order per call, trading
    through the AnXin gate. *)
From Verif Require Import PyBase PyStr MTime MDate MOrder MAccount MGate MStrategy SProcess SAccount SGate SOfile.
Open Scope Z_scope.

(** the day of an instant *)
Definition on_day (D t : Z) : bool := t / DAY =? D.

Section System.
  Context (udigit : N -> bool) (ptime f3 f4 : str -> option Z) (go : gopts) (bal : gst -> res binfo * gst).
  Notation gt := (anxin ptime f3 f4 go bal).
  Context (env : genv -> Prop) (k : nat) (code : str) (n : Z) (st : style).

  (** [works inv a g os cs]: the callbacks [inv] were called, the k-th entry's function
      calling order(code, n, style=st) once each time, on the day it was due; in between
      anything else may have happened, except other orders *)
  Inductive works : list (Z * cb) -> acct -> gst -> list oreq -> list creq -> Prop :=
  | w_start g : (forall d, text_of d (gs_ofile g) = []) -> (forall d, text_of d (gs_cfile g) = []) ->
      gs_orders g = [] -> gs_data g = [] -> env (gs_env g) -> works [] acct_new g [] []
  | w_order inv a g os cs t o id now sd r a' g' : works inv a g os cs -> ge_date (gs_env g) = t / DAY ->
      acc_order gt id now code n st sd a g = (r, a', g') ->
      works (inv ++ [(t, CbUser k o)]) a' g'
        (os ++ [OReq id code n st (ge_date (gs_env g)) (took (ge_write (gs_env g))) match r with Some _ => true | None => false end]) cs
  | w_other inv a g os cs t c : works inv a g os cs -> (forall o, c <> CbUser k o) -> works (inv ++ [(t, c)]) a g os cs
  | w_cancel inv a g os cs id : works inv a g os cs ->
      works inv (fst (acc_cancel gt id a g)) (snd (acc_cancel gt id a g)) os
        (cs ++ [CReq id (ge_date (gs_env g)) (took (ge_write (gs_env g))) (dmem id (a_orders a))])
  | w_env inv a g os cs e : works inv a g os cs -> env e -> works inv a (set_env e g) os cs
  | w_broker inv a g os cs r u : works inv a g os cs -> works inv a (set_bfiles r u g) os cs
  | w_sync inv a g os cs : works inv a g os cs -> works inv (fst (acc_sync_orders gt a g)) (snd (acc_sync_orders gt a g)) os cs
  | w_balance inv a g os cs : works inv a g os cs -> snd (bal g) = g ->
      works inv (fst (acc_sync_balance gt a g)) (snd (acc_sync_balance gt a g)) os cs.
End System.
