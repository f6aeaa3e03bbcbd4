(** C96: what a task process keeps in memory. *)
From Coq Require Import String.
From Verif Require Import PyBase PyStr MTime MTimeExpr MEventSource MQueue MLoop MSched MBus MStrategy MProcess LSched LSched2 LEventSource2
  SLate LLate2 MOrder MAccount MGate SLife SBound LBound TGate TLife TProcess.
Open Scope list_scope.
Open Scope Z_scope.

(** ** the scheduler *)

(** Whatever was run, however long: at most one message per event source is queued, and each
    source holds the events of at most one day and the days it looks ahead. *)
Theorem C104_scheduler :
  forall fuel cfg sc tz st en now calls ns dates s4 s0 s ls,
    (0 < fuel)%nat ->
    start fuel cfg sc tz st en now calls ns dates = Some (s4, s0) -> List.length dates = List.length (st_srcs s4) ->
    Forall ok_label ls -> l_exec (sched_handler fuel (loop_cfg cfg sc s4) tz) s0 ls = Some s ->
    (List.length (filter of_source (queued s)) <= List.length (st_srcs s4))%nat /\
    List.length (w_srcs (l_w s)) = List.length (st_srcs s4) /\
    forall k es, nth_error (w_srcs (l_w s)) k = Some es ->
      exists es0, nth_error (st_srcs s4) k = Some es0 /\ es_daily es = es_daily es0 /\
        (List.length (es_events es) <= List.length (es_daily es0))%nat /\ (List.length (es_days es) <= ahead cfg es0)%nat.
Proof.
  intros fuel cfg sc tz st en now calls ns dates s4 s0 s ls Hf Hs Hl Hok Hx.
  destruct (start_slim fuel cfg sc st en tz now calls ns dates s4 s0 Hs) as [Hsl Hb].
  assert (Hr : sreach fuel (loop_cfg cfg sc s4) tz (st_srcs s4) s) by (exists dates, s0, ls; auto).
  split; [|split].
  - eapply Nat.le_trans; [|exact (sched_msgs fuel _ tz _ Hf s Hr)]. rewrite <- of_source_len. apply filter_app_len.
  - apply (f_SI _ _ _ _ _ (FI_reach fuel _ tz _ Hf s Hr)).
  - intros k es Hk. destruct (nth_error (st_srcs s4) k) as [es0|] eqn:E.
    + exists es0. split; [reflexivity|]. rewrite Forall_forall in Hsl. pose proof (Hsl es0 (nth_error_In _ _ E)) as H0.
      destruct (sources_slim fuel _ tz _ Hf s k es0 Hr E H0) as (es' & E' & [S1 S2] & K). rewrite Hk in E'. injection E' as <-.
      pose proof K as (K1 & _ & _). rewrite K1 in S1. rewrite (kin_ahead _ _ _ K) in S2. auto.
    + exfalso. apply nth_error_None in E. pose proof (s_len _ _ _ _ _ _ _ (f_SI _ _ _ _ _ (FI_reach fuel _ tz _ Hf s Hr))) as G.
      assert (H : (k < List.length (w_srcs (l_w s)))%nat) by (apply nth_error_Some; congruence). lia.
Qed.
Print Assumptions C104_scheduler.

(** If nothing else is put on the loop, these are all the messages there are. *)
Theorem C104_queue :
  forall fuel cfg sc tz st en now calls ns dates s4 s0 s ls,
    (0 < fuel)%nat ->
    start fuel cfg sc tz st en now calls ns dates = Some (s4, s0) -> List.length dates = List.length (st_srcs s4) ->
    Forall no_push ls -> Forall no_defer ls -> l_exec (sched_handler fuel (loop_cfg cfg sc s4) tz) s0 ls = Some s ->
    (List.length (queued s) <= List.length (st_srcs s4))%nat.
Proof.
  intros fuel cfg sc tz st en now calls ns dates s4 s0 s ls Hf Hs Hl Hp Hd Hx.
  destruct (start_slim fuel cfg sc st en tz now calls ns dates s4 s0 Hs) as [_ Hb].
  pose proof (late_LE fuel _ tz _ Hf dates s0 s ls Hl Hb Hp Hd Hx) as [_ He].
  pose proof (sched_msgs fuel _ tz _ Hf s (late_reach fuel _ tz _ dates s0 s ls Hl Hb Hp Hx)) as H.
  rewrite all_srcs in H by exact He. unfold msgs in H. rewrite app_length in H. lia.
Qed.
Print Assumptions C104_queue.

(** The process of C58_demo after its run: three sources; the events of "every_minute" left for the day. *)
Example C96_demo :
  option_map (fun x => (List.length (st_srcs (fst x)), List.length (queued (snd x)),
    map (fun es => (List.length (es_daily es), List.length (es_events es), List.length (es_days es))) (w_srcs (l_w (snd x))))) demo_state =
  Some (3%nat, 3%nat, [(242%nat, 241%nat, 364%nat); (1%nat, 1%nat, 363%nat); (1%nat, 1%nat, 364%nat)]).
Proof. vm_compute. reflexivity. Qed.

(** ** the order books *)

(** No order is ever forgotten by the account or the gate of a running process. *)
Theorem C96_kept :
  forall ptime f3 f4 go bal x n y id, moves ptime f3 f4 go bal x n y -> own_ids (gs_orders (snd x)) ->
    (booked id x -> booked id y) /\ (cached id x -> cached id y).
Proof. intros ptime f3 f4 go bal x n y id M Ho. exact (moves_kept ptime f3 f4 go bal x n y id M Ho). Qed.
Print Assumptions C96_kept.

(** The books hold at most as many orders as order() was called for since the process was
    started with empty books. *)
Theorem C96_books_partial :
  forall ptime f3 f4 go bal g0 n a g, gs_orders g0 = [] -> moves ptime f3 f4 go bal (acct_new, g0) n (a, g) ->
    (List.length (a_orders a) <= n)%nat /\ (List.length (gs_orders g) <= n)%nat.
Proof.
  intros ptime f3 f4 go bal g0 n a g H0 M. destruct (moves_within ptime f3 f4 go bal g0 n (a, g) H0 M) as (L & HL & HN & H1 & H2). cbn [fst snd] in *.
  assert (Ho : own_ids (gs_orders g)).
  { apply (moves_own ptime f3 f4 go bal (acct_new, g0) n (a, g) M). cbn. rewrite H0. split; [constructor|discriminate]. }
  destruct Ho as [Hn _]. pose proof (NoDup_incl_length HN H1) as G1. pose proof (NoDup_incl_length Hn H2) as G2.
  unfold dkeys in G1, G2. rewrite map_length in G1, G2. lia.
Qed.
Print Assumptions C96_books_partial.

(** The full statement: of days past only orders that are not finished are kept ("the day's
    orders", trade_gate.py:221). *)
Definition only_current : Prop :=
  forall ptime f3 f4 go bal g0 n a g, gs_orders g0 = [] -> moves ptime f3 f4 go bal (acct_new, g0) n (a, g) ->
    forall id o, local_order id a = Some o -> finished (o_status o) = true -> dt_date (o_create o) = ge_date (gs_env g).

(** An order of one day, filled that day, and the syncs of the next day. *)
Definition next_env : genv := GEnv 19001 (19001 * DAY + 34200 * US) WDone (Ok tt).
Definition old_1 : acct * gst := (life_a1, set_env demo_env (set_bfiles [(19000, [])] [(19000, u_done)] life_g1)).
Definition old_2 : acct * gst := acc_sync_orders life_gate (fst old_1) (snd old_1).
Definition old_3 : acct * gst := (fst old_2, set_env next_env (set_bfiles [(19001, [])] [(19001, u_head)] (snd old_2))).
Definition old_4 : acct * gst := acc_sync_orders life_gate (fst old_3) (snd old_3).
Lemma old_moves : moves life_ptime demo_f3 demo_f4 demo_go no_bal (acct_new, demo_g0) 1 old_4.
Proof.
  unfold old_4. destruct old_3 as [a3 g3] eqn:E3. cbn [fst snd]. apply mv_sync. rewrite <- E3. unfold old_3.
  apply mv_env. destruct old_2 as [a2 g2] eqn:E2. cbn [fst snd]. rewrite <- E2. unfold old_2, old_1. cbn [fst snd]. apply mv_sync, mv_env.
  unfold life_a1, life_g1, life_s1. apply mv_order, mv_start.
Qed.
Example C96_old_demo :
  seen "77" (fst old_2) = Some (Sfilled, 300) /\ seen "77" (fst old_4) = Some (Sfilled, 300) /\
  (exists l, fst (gate_sync_orders life_ptime demo_f3 demo_f4 demo_go (snd old_3)) = Ok l) /\ List.length (gs_orders (snd old_4)) = 1%nat.
Proof. split; [vm_compute; reflexivity|]. split; [vm_compute; reflexivity|]. split; [eexists; vm_compute; reflexivity|vm_compute; reflexivity]. Qed.
Theorem C96_refuted : ~ only_current.
Proof.
  intros H. pose proof old_moves as M. destruct old_4 as [a g] eqn:E.
  assert (G : option_map (fun o => (finished (o_status o), dt_date (o_create o))) (local_order (lit "77") (fst old_4)) = Some (true, 19000)) by (vm_compute; reflexivity).
  assert (G2 : ge_date (gs_env (snd old_4)) = 19001) by (vm_compute; reflexivity).
  rewrite E in G, G2. cbn [fst snd] in G, G2. destruct (local_order (lit "77") a) as [o|] eqn:Eo; [|discriminate].
  cbn [option_map] in G. assert (K : forall A B (x x' : A) (y y' : B), Some (x, y) = Some (x', y') -> x = x' /\ y = y') by (intros * K; injection K; auto).
  apply K in G as [F1 F2]. pose proof (H _ _ _ _ _ demo_g0 1%nat a g eq_refl M (lit "77") o Eo F1) as X. rewrite F2, G2 in X. discriminate.
Qed.
Print Assumptions C96_refuted.
