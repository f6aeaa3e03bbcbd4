(** C138, money and positions: a task process with an account behind any gate, and the balance
    report that arrived in full last. *)
From Verif Require Import PyBase PyStr MOrder MAccount MStrategy SProcess SAccount SMoney.
Open Scope Z_scope.

Definition is_bal (c : cb) : bool := match c with CbBal _ => true | _ => false end.

Section Dealt.
  Context {G : Type} (gt : gate G).
  (** [dealt inv a hs iv fl]: the callbacks [inv] were called, leaving account [a]; [hs] are the
      full reports so far, oldest first; [iv] are the callbacks called when the last of them was
      read; [fl] are the instants whose sync gave no full report.  In between the strategy may
      order, cancel and sync as it likes; the gate's state is arbitrary each time. *)
  Inductive dealt : list (Z * cb) -> acct -> list (cash * list pinfo) -> list (Z * cb) -> list Z -> Prop :=
  | de_start : dealt [] acct_new [] [] []
  | de_timer inv a hs iv fl t i g x : dealt inv a hs iv fl -> full (fst (g_sync_balance gt g)) x ->
      dealt (inv ++ [(t, CbBal i)]) (fst (acc_sync_balance gt a g)) (hs ++ [x]) (inv ++ [(t, CbBal i)]) fl
  | de_failed inv a hs iv fl t i g : dealt inv a hs iv fl -> (forall x, ~ full (fst (g_sync_balance gt g)) x) ->
      dealt (inv ++ [(t, CbBal i)]) (fst (acc_sync_balance gt a g)) hs iv (fl ++ [t])
  | de_call inv a hs iv fl t c : dealt inv a hs iv fl -> is_bal c = false -> dealt (inv ++ [(t, c)]) a hs iv fl
  | de_sync inv a hs iv fl g x : dealt inv a hs iv fl -> full (fst (g_sync_balance gt g)) x ->
      dealt inv (fst (acc_sync_balance gt a g)) (hs ++ [x]) inv fl
  | de_sync_failed inv a hs iv fl g : dealt inv a hs iv fl -> (forall x, ~ full (fst (g_sync_balance gt g)) x) ->
      dealt inv (fst (acc_sync_balance gt a g)) hs iv fl
  | de_order inv a hs iv fl id now code n st sd g : dealt inv a hs iv fl ->
      dealt inv (snd (fst (acc_order gt id now code n st sd a g))) hs iv fl
  | de_cancel inv a hs iv fl id g : dealt inv a hs iv fl -> dealt inv (fst (acc_cancel gt id a g)) hs iv fl
  | de_orders inv a hs iv fl g : dealt inv a hs iv fl -> dealt inv (fst (acc_sync_orders gt a g)) hs iv fl.
End Dealt.
