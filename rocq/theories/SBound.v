(** Specification of what a task process keeps in memory (C96). *)
From Verif Require Import PyBase PyStr MTime MEventSource MOrder MAccount MGate.
Open Scope Z_scope.

(** the days an event source looks ahead *)
Definition ahead (cfg : escfg) (es : esrc) : nat :=
  Z.to_nat (match es_end es, es_start es with
            | Some e, Some s => e / DAY - s / DAY + 1
            | _, _ => cf_count cfg
            end).

(** no more events than the entries of one day, no more days than it looks ahead *)
Definition slim (cfg : escfg) (es : esrc) : Prop :=
  (length (es_events es) <= length (es_daily es))%nat /\ (length (es_days es) <= ahead cfg es)%nat.

Section Book.
  Context (ptime f3 f4 : str -> option Z) (go : gopts) (bal : gst -> res binfo * gst).
  Notation gt := (anxin ptime f3 f4 go bal).

  (** [moves x n y]: account and gate go from [x] to [y] with [n] calls of order(), any
      cancels and syncs, on any days *)
  Inductive moves (x : acct * gst) : nat -> acct * gst -> Prop :=
  | mv_start : moves x 0 x
  | mv_env n a g e r u : moves x n (a, g) -> moves x n (a, set_env e (set_bfiles r u g))
  | mv_order n a g id now code z st sd : moves x n (a, g) ->
      moves x (S n) (snd (fst (acc_order gt id now code z st sd a g)), snd (acc_order gt id now code z st sd a g))
  | mv_cancel n a g id : moves x n (a, g) -> moves x n (acc_cancel gt id a g)
  | mv_sync n a g : moves x n (a, g) -> moves x n (acc_sync_orders gt a g)
  | mv_balance n a g : moves x n (a, g) -> snd (bal g) = g -> moves x n (acc_sync_balance gt a g).
End Book.

(** an order in the account's book, in the gate's *)
Definition booked (id : str) (x : acct * gst) : Prop := In id (map fst (a_orders (fst x))).
Definition cached (id : str) (x : acct * gst) : Prop := In id (map fst (gs_orders (snd x))).

(** messages of event sources *)
From Verif Require Import MQueue MSched.
Definition of_source (m : msg scb) : bool := match m_cb m with CSched _ _ => true | COther => false end.
