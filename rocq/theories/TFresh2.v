(** C138 for money and positions: how fresh the portfolio is that a task's function sees. *)
From Coq Require Import Permutation Sorted String.
From Verif Require Import PyBase PyStr MTime MTimeExpr MEventSource MQueue MLoop MSched MBus MOrder MAccount SAccount
  MStrategy SEvent SExpr SStrategy LStrategy2 MProcess SProcess LProcess LProcess2 TProcess TProcess2 SMoney TMoney TAccount SFresh2.
Open Scope list_scope.
Open Scope Z_scope.

Lemma dealt_inv G (gt : gate G) inv a hs iv fl : dealt gt inv a hs iv fl -> lived gt a hs /\
  (forall t c, In (t, c) inv -> is_bal c = true -> In t fl \/ (In (t, c) iv /\ hs <> [])).
Proof.
  induction 1 as [|inv a hs iv fl t i g x _ (IL & IC) F|inv a hs iv fl t i g _ (IL & IC) F|inv a hs iv fl t c _ (IL & IC) Hc
    |inv a hs iv fl g x _ (IL & IC) F|inv a hs iv fl g _ (IL & IC) F|inv a hs iv fl id now code n st sd g _ (IL & IC)|inv a hs iv fl id g _ (IL & IC)
    |inv a hs iv fl g _ (IL & IC)].
  - split; [constructor|intros t c []].
  - split; [apply lv_full; assumption|]. intros t' c Hin _. right. split; [exact Hin|destruct hs; discriminate].
  - split; [apply lv_none; assumption|]. intros t' c Hin Hc. apply in_app_or in Hin as [Hin|[Hin|[]]].
    + destruct (IC t' c Hin Hc) as [X|X]; [left; apply in_or_app; auto|right; exact X].
    + injection Hin as <- _. left. apply in_or_app. right. left. reflexivity.
  - split; [exact IL|]. intros t' c' Hin Hc'. apply in_app_or in Hin as [Hin|[Hin|[]]]; [apply (IC t' c' Hin Hc')|]. injection Hin as _ <-. congruence.
  - split; [apply lv_full; assumption|]. intros t' c Hin _. right. split; [exact Hin|destruct hs; discriminate].
  - split; [apply lv_none; assumption|exact IC].
  - split; [apply lv_order, IL|exact IC].
  - split; [apply lv_cancel, IL|exact IC].
  - split; [apply lv_orders, IL|exact IC].
Qed.

(** the portfolio of [a] comes from the reports [hs], the last one [x] *)
Definition portfolio_of (a : acct) (hs : list (cash * list pinfo)) : Prop :=
  latest c_total hs (a_total a) /\ latest c_avail hs (a_cash a) /\ latest c_locked hs (a_locked a) /\
  exists h x pre, hs = h ++ [x] /\ good_part (snd x) pre /\ map_like Long pre (a_long a) /\ map_like Short pre (a_short a).
Lemma lived_portfolio G (gt : gate G) a hs : lived gt a hs -> hs <> [] -> portfolio_of a hs.
Proof.
  intros HL Hn. destruct (C30_money G gt a hs HL) as (A & B & C). split; [exact A|]. split; [exact B|]. split; [exact C|].
  destruct (exists_last Hn) as (h & x & ->). destruct (proj2 (C30_positions G gt a _ HL) h x eq_refl) as (pre & P). exists h, x, pre. auto.
Qed.
Lemma bal_made_in sc ko (em r : list Z) inv y i : syncs_of inv = flat_map (fun x => map (fun c => (x, c)) (sync_cbs sc ko 0)) (em ++ r) ->
  In (CbBal i) (sync_cbs sc ko 0) -> In y em -> In (y, CbBal i) inv.
Proof.
  intros E Hc Hy. assert (H : In (y, CbBal i) (syncs_of inv)).
  { rewrite E. apply in_flat_map. exists y. split; [apply in_or_app; auto|]. apply in_map_iff. exists (CbBal i). auto. }
  unfold syncs_of in H. apply filter_In in H. apply H.
Qed.

(** Once a task's function has been called for instant [x], the portfolio it sees comes from
    reports of which the last was read when the balance sync of every owed instant [y] up to
    [x] had been made (or that sync gave no full report). *)
Theorem C138_portfolio :
  forall fuel cfg sc tz st now pre ko e0 post ns dates s4 s o step qs offs d S ps,
    synced fuel cfg sc tz st now pre ko e0 post ns dates s4 s o step qs offs d S ->
    tz mod US = 0 -> market_period sc s4 = raw_of ps -> Forall (fun p => tod_ok (fst p) /\ tod_ok (snd p)) ps ->
    Forall (fun p => fst p mod US = 0 /\ snd p mod US = 0) ps -> ps <> [] ->
    forall j nj idj tj oj x,
      w_hung (l_w s) = false -> nth_error (asked (pre ++ UOpt ko e0 :: post)) j = Some (nj, idj, tj) -> owes ps tj oj ->
      In x (map fst (calls_of j (invoked s4 (l_w s)))) -> In (CbBal 0) (sync_cbs sc ko 0) ->
    forall G (gt : gate G) a hs iv fl,
      dealt gt (invoked s4 (l_w s)) a hs iv fl ->
      forall y, In y S -> y <= x -> In y fl \/ (In (y, CbBal 0) iv /\ portfolio_of a hs).
Proof.
  intros fuel cfg sc tz st now pre ko e0 post ns dates s4 s o step qs offs d S ps Hsy Htz Hmp Hps Hw Hne j nj idj tj oj x Hh Hj Ho Hx Hc
    G gt a hs iv fl HT y Hy Hyx.
  destruct (C62_sync_before_tasks fuel cfg sc tz st now pre ko e0 post ns dates s4 s o step qs offs d S ps Hsy Htz Hmp Hps Hw Hne j nj idj tj oj x Hh Hj Ho Hx) as (r & E).
  assert (Hin : In (y, CbBal 0) (invoked s4 (l_w s))).
  { apply (bal_made_in sc ko _ _ _ y 0 E Hc). apply filter_In. split; [exact Hy|apply Z.leb_le, Hyx]. }
  destruct (dealt_inv G gt _ a hs iv fl HT) as (HL & HC).
  destruct (HC y (CbBal 0) Hin eq_refl) as [F|[F N]]; [left; exact F|right]. split; [exact F|]. exact (lived_portfolio G gt a hs HL N).
Qed.
Print Assumptions C138_portfolio.

(** ... and whenever the loop goes to sleep, this holds for every instant up to the clock. *)
Theorem C138_portfolio_asleep :
  forall fuel cfg sc tz st now pre ko e0 post ns dates s4 s o step qs offs d S,
    synced fuel cfg sc tz st now pre ko e0 post ns dates s4 s o step qs offs d S -> tz mod US = 0 ->
    forall clock ex s' w,
      w_hung (l_w s) = false -> l_step (sched_handler fuel (loop_cfg cfg sc s4) tz) s (LTurn clock ex) = Some s' -> l_mode s' = Arming w ->
      In (CbBal 0) (sync_cbs sc ko 0) ->
    forall G (gt : gate G) a hs iv fl,
      dealt gt (invoked s4 (l_w s)) a hs iv fl ->
      forall y, In y S -> y <= clock * 1000 + tz -> In y fl \/ (In (y, CbBal 0) iv /\ portfolio_of a hs).
Proof.
  intros fuel cfg sc tz st now pre ko e0 post ns dates s4 s o step qs offs d S Hsy Htz clock ex s' w Hh Hs Hm Hc G gt a hs iv fl HT y Hy Hyx.
  destruct (C62_no_due_sync_left fuel cfg sc tz st now pre ko e0 post ns dates s4 s o step qs offs d S Hsy Htz clock ex s' w Hh Hs Hm) as (r & E).
  assert (Hin : In (y, CbBal 0) (invoked s4 (l_w s))).
  { apply (bal_made_in sc ko _ _ _ y 0 E Hc). apply filter_In. split; [exact Hy|apply Z.leb_le; lia]. }
  destruct (dealt_inv G gt _ a hs iv fl HT) as (HL & HC).
  destruct (HC y (CbBal 0) Hin eq_refl) as [F|[F N]]; [left; exact F|right]. split; [exact F|]. exact (lived_portfolio G gt a hs HL N).
Qed.
Print Assumptions C138_portfolio_asleep.

(** the callbacks of C62_demo; the sync of 9:30 works, that of 9:31 gives no full report *)
Definition p_bad : dgate := DGate [] [] (BInfo None None).
Definition p_inv0 : list (Z * cb) := [] ++ [(20000 * DAY + 34200 * US, CbBal 0)].
Definition p_inv : list (Z * cb) :=
  (((((p_inv0 ++ [(20000 * DAY + 34200 * US, CbOrd 0)]) ++ [(20000 * DAY + 34200 * US, CbUser 0 (Some (OUser 1)))]) ++
     [(20000 * DAY + 34260 * US, CbBal 0)]) ++ [(20000 * DAY + 34260 * US, CbOrd 0)]) ++ [(20000 * DAY + 34260 * US, CbUser 0 (Some (OUser 1)))]) ++
  [(20000 * DAY + 34260 * US, CbUser 1 (Some (OUser 2)))].
Example C138_portfolio_demo :
  option_map (fun x => invoked (fst x) (l_w (snd x))) sd_state = Some p_inv /\ In (CbBal 0) (sync_cbs scfg_default sd_opts 0) /\
  exists a, dealt demo p_inv a [(Cash (Some 60) (Some 0) None, [demo_pinfo])] p_inv0 [20000 * DAY + 34260 * US] /\ money a = (60, 0, 0).
Proof.
  split; [vm_compute; reflexivity|]. split; [vm_compute; auto|].
  exists (fst (acc_sync_balance demo (fst (acc_sync_balance demo acct_new money_gate)) p_bad)). split; [|vm_compute; reflexivity].
  unfold p_inv. apply de_call; [|reflexivity]. apply de_call; [|reflexivity]. apply de_call; [|reflexivity].
  change [20000 * DAY + 34260 * US] with ([] ++ [20000 * DAY + 34260 * US]). apply de_failed; [|intros x (b & E & A & _); injection E as <-; discriminate A].
  apply de_call; [|reflexivity]. apply de_call; [|reflexivity]. unfold p_inv0.
  apply (de_timer demo [] acct_new [] [] [] _ 0 money_gate (Cash (Some 60) (Some 0) None, [demo_pinfo])); [constructor|]. eexists. repeat split.
Qed.
