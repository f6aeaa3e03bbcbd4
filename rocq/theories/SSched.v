(** Specification of dispatch order and of bounded sources (C03, C04). *)
From Coq Require Import Sorted.
From Verif Require Import PyBase MTime MTimeExpr MEventSource SEvent.
Open Scope Z_scope.

(** earlier first; at the same time, higher priority first *)
Definition before (a b : Z * ecls) : Prop :=
  fst a < fst b \/ (fst a = fst b /\ ec_prio (snd b) <= ec_prio (snd a)).

(** a fresh source with start, end and valid entries denoting [tasks] *)
Definition bounded_src (cfg : escfg) (es : esrc) (st e : Z) (tasks : list task) : Prop :=
  es_start es = Some st /\ es_end es = Some e /\ es_need es = true /\
  Forall2 (fun de t => expr_offset (cf_mp cfg) (fst de) = Ok (fst t) /\ snd de = snd t) (es_daily es) tasks.

Definition window_days (st e : Z) : nat := Z.to_nat (dt_date e - dt_date st + 1).

(** tasks on whole seconds, within their day, all of one priority *)
Definition plain_tasks (tasks : list task) : Prop :=
  exists p, Forall (fun t => 0 <= fst t < DAY /\ fst t mod US = 0 /\ ec_prio (snd t) = p) tasks.
