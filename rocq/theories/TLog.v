(** C74: the log of a task. *)
From Verif Require Import PyBase PyStr MLog.
Open Scope list_scope.
Open Scope Z_scope.

(** where the log is to go, and from which level on *)
Definition target (out : option str) : dest := match out with Some (c :: f) => LogFile (c :: f) | _ => Stdout end.
Definition least (debug : bool) : Z := if debug then 10 else 20.
(** the log calls among the events *)
Fixpoint calls (es : list levent) : list lrec :=
  match es with [] => [] | LeLog r :: es' => r :: calls es' | LeLevel _ _ :: es' => calls es' end.

Lemma log_run d hl root :
  forall es s, lg_handlers s = [Handler d hl] -> lg_root s = root -> lg_user s = 0 -> lg_system s = 0 ->
    Forall (fun e => match e with LeLog _ => True | LeLevel _ _ => False end) es ->
    lg_written (fold_left log_event es s) =
    lg_written s ++ map (fun r => (d, r)) (filter (fun r => (root <=? r_level r) && (hl <=? r_level r)) (calls es)).
Proof.
  induction es as [|e es IH]; intros s Hh Hr Hu Hs F; cbn [fold_left calls filter map]; [rewrite app_nil_r; reflexivity|].
  inversion F as [|? ? F1 F2]; subst. destruct e as [r|]; [|contradiction]. cbn [log_event calls filter].
  assert (E : effective (r_name r) s = lg_root s) by (unfold effective; destruct (r_name r); rewrite ?Hu, ?Hs; reflexivity).
  unfold log_call. rewrite E, Hh. destruct (lg_root s <=? r_level r) eqn:L.
  - cbn [andb filter h_level]. destruct (hl <=? r_level r) eqn:L2; cbn [map h_dest]; rewrite IH by (assumption || reflexivity); cbn [lg_written lg_root]; rewrite <- ?app_assoc; reflexivity.
  - rewrite IH by (assumption || reflexivity). reflexivity.
Qed.
(** Proved for strategies that do not set levels: the calls from INFO (with --debug, DEBUG)
    on are written, each once, in order, to the log file if one is given and to the standard
    output otherwise, and nothing is written elsewhere. *)
Theorem C74_routed_partial :
  forall out debug es, Forall (fun e => match e with LeLog _ => True | LeLevel _ _ => False end) es ->
    task_log out debug es = map (fun r => (target out, r)) (filter (fun r => least debug <=? r_level r) (calls es)).
Proof.
  intros out debug es F. unfold task_log.
  assert (X : exists hl, lg_handlers (runner_log out debug log_init) = [Handler (target out) hl] /\ hl <= least debug /\
    lg_root (runner_log out debug log_init) = least debug /\ lg_user (runner_log out debug log_init) = 0 /\ lg_system (runner_log out debug log_init) = 0 /\
    lg_written (runner_log out debug log_init) = []).
  { destruct out as [[|c f]|], debug; cbn; eexists; (split; [reflexivity|]); repeat split; unfold least, DEBUG, INFO; lia. }
  destruct X as (hl & X1 & X2 & X3 & X4 & X5 & X6). rewrite (log_run _ hl _ es _ X1 X3 X4 X5 F), X6. cbn [app]. f_equal.
  apply filter_ext. intros r. destruct (Z.leb_spec (least debug) (r_level r)); [|reflexivity]. cbn [andb]. apply Z.leb_le. lia.
Qed.
Print Assumptions C74_routed_partial.
(** Proved for all strategies: whatever levels are set, nothing is written elsewhere and
    nothing twice, and order is kept. *)
Theorem C74_only_partial :
  forall out debug es, exists keep, task_log out debug es = map (fun r => (target out, r)) keep /\
    exists f : list bool, length f = length (calls es) /\ keep = map fst (filter snd (combine (calls es) f)).
Proof.
  intros out debug es. unfold task_log.
  assert (X : exists hl, lg_handlers (runner_log out debug log_init) = [Handler (target out) hl] /\ lg_written (runner_log out debug log_init) = []).
  { destruct out as [[|c f]|], debug; cbn; eauto. }
  destruct X as (hl & X1 & X2).
  assert (G : forall es s, lg_handlers s = [Handler (target out) hl] -> exists f : list bool, length f = length (calls es) /\
    lg_written (fold_left log_event es s) = lg_written s ++ map (fun r => (target out, r)) (map fst (filter snd (combine (calls es) f)))).
  { clear. induction es as [|e es IH]; intros s H; cbn [fold_left calls]; [exists []; split; [reflexivity|rewrite app_nil_r; reflexivity]|].
    destruct e as [r|n l]; cbn [log_event].
    - assert (Y : exists b : bool, lg_handlers (log_call r s) = [Handler (target out) hl] /\ lg_written (log_call r s) = lg_written s ++ if b then [(target out, r)] else []).
      { unfold log_call. destruct (effective (r_name r) s <=? r_level r); [|exists false; rewrite app_nil_r; auto]. rewrite H. cbn [lg_handlers lg_written filter h_level].
        destruct (hl <=? r_level r); [exists true|exists false]; auto. }
      destruct Y as (b & Y1 & Y2). destruct (IH _ Y1) as (f & F1 & F2). exists (b :: f). split; [cbn [calls length]; f_equal; exact F1|].
      rewrite F2, Y2, <- app_assoc. destruct b; reflexivity.
    - assert (Y : lg_handlers (set_level n l s) = [Handler (target out) hl] /\ lg_written (set_level n l s) = lg_written s) by (destruct n; auto).
      destruct Y as [Y1 Y2]. destruct (IH _ Y1) as (f & F1 & F2). exists f. split; [exact F1|]. rewrite F2, Y2. reflexivity. }
  destruct (G es _ X1) as (f & F1 & F2). eexists. split; [rewrite F2, X2; reflexivity|]. exists f. auto.
Qed.
Print Assumptions C74_only_partial.
(** False: after log.setLevel("DEBUG") a strategy's debug messages are shown on the standard
    output, but are missing in the log file, whose handler has its own level. *)
Theorem C74_refuted :
  forall c f t, let es := [LeLevel LUser 10; LeLog (LRec LUser 10 t)] in
    task_log None false es = [(Stdout, LRec LUser 10 t)] /\ task_log (Some (c :: f)) false es = [].
Proof. intros. split; reflexivity. Qed.
Print Assumptions C74_refuted.
Example C74_demo :
  let es := [LeLog (LRec LSystem 20 (lit "start")); LeLog (LRec LUser 10 (lit "x")); LeLog (LRec LUser 30 (lit "y"))] in
  task_log (Some (lit "a.log")) false es = [(LogFile (lit "a.log"), LRec LSystem 20 (lit "start")); (LogFile (lit "a.log"), LRec LUser 30 (lit "y"))] /\
  length (task_log None true es) = 3%nat /\
  Forall (fun e => match e with LeLog _ => True | LeLevel _ _ => False end) es.
Proof. split; [reflexivity|]. split; [reflexivity|]. repeat constructor. Qed.
