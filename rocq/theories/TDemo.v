(** C139: the cancelling functions of the example strategies. *)
From Coq Require Import String.
From Verif Require Import PyBase PyStr LStr MTime MDate MOrder MAccount MApi SAccount LAccount LAccount2 LAccount3 LApi MGate SGate LGate LGate4 TAccount TGate MDemo.
Open Scope list_scope.
Open Scope Z_scope.

(** get_orders() without arguments gives the whole book, in its order *)
Lemma fold_book (a : acct) : forall l acc, NoDup (dkeys l) ->
  (forall k r, In (k, r) l -> (exists o, deref a r = Some o /\ o_id o = k) /\ dget k acc = None) ->
  fold_left (fun d r => match deref a r with Some o => dset (o_id o) r d | None => d end) (dvals l) acc = acc ++ l.
Proof.
  induction l as [|[k r] l IH]; intros acc ND H; cbn [dvals map fold_left snd]; [rewrite app_nil_r; reflexivity|].
  destruct (H k r (or_introl eq_refl)) as [(o & -> & E) Hk]. rewrite E.
  assert (Ea : dset k r acc = acc ++ [(k, r)]).
  { clear - Hk. induction acc as [|[k' v'] acc IH]; [reflexivity|]. cbn [dset dget app] in *. destruct (eqb_spec k k') as [->|N]; [discriminate Hk|]. rewrite IH by exact Hk. reflexivity. }
  fold (dvals l). rewrite Ea, IH; [rewrite <- app_assoc; reflexivity|inversion ND; assumption|].
  intros k2 r2 Hin. destruct (H k2 r2 (or_intror Hin)) as [A B]. split; [exact A|].
  assert (N : k2 <> k). { intro Ek. inversion ND as [|? ? Hni]; subst. apply Hni. apply in_map_iff. eexists (_, r2). split; [reflexivity|exact Hin]. }
  clear - B N. induction acc as [|[k' v'] acc IH]; cbn [dget app] in *; [destruct (eqb_spec k2 k); [contradiction|reflexivity]|].
  destruct (eqb_spec k2 k'); [discriminate B|]. apply IH, B.
Qed.
Lemma all_orders udigit G (w : world G) a : ready w a -> book_ok a -> api_get_orders udigit None None FsFalsy w = Ok (a_orders a).
Proof.
  intros Hw [ND HB]. unfold api_get_orders. cbn [rbind check_fstatus]. rewrite (the_account_ready _ _ Hw). cbn [rbind]. f_equal.
  rewrite (fold_book a (a_orders a) []); [reflexivity|exact ND|]. intros k r Hin. split; [|reflexivity].
  apply (In_dget k r (a_orders a) ND) in Hin. destruct (HB k r Hin) as (o & E1 & E2 & _). exists o. auto.
Qed.

(** the orders waiting at the broker: those shown as new or open *)
Definition waiting (a : acct) (id : str) : Prop := exists o, recorded a id o /\ (o_status o = Snew \/ o_status o = Sopen).
Definition waiting_ids (a : acct) : list str := map fst (filter (fun kr => waits a (snd kr)) (a_orders a)).
Lemma waits_iff a r : waits a r = true <-> exists o, deref a r = Some o /\ (o_status o = Snew \/ o_status o = Sopen).
Proof.
  unfold waits. destruct (deref a r) as [o|]; [|split; [discriminate|intros (o & E & _); discriminate E]].
  split.
  - intro H. exists o. split; [reflexivity|]. destruct (o_status o); vm_compute in H; try discriminate H; auto.
  - intros (o' & E & [H|H]); injection E as <-; rewrite H; reflexivity.
Qed.

Section Run.
  Context {G : Type} (gt : gate G).
  Definition logged (ids : list str) (a : acct) : acct :=
    Acct (a_heap a) (a_orders a) (a_long a) (a_short a) (a_total a) (a_cash a) (a_locked a) (a_synced a) (a_log a ++ map EvCancel ids).

  Lemma loop_is_batch a0 : forall l w a, ready w a -> a_heap a = a_heap a0 -> a_orders a = a_orders a0 ->
    (forall k r, In (k, r) l -> exists o, deref a0 r = Some o /\ o_id o = k) ->
    cancel_loop gt (dvals l) w = batch_cancel gt (map fst (filter (fun kr => waits a0 (snd kr)) l)) w.
  Proof.
    induction l as [|[k r] l IH]; intros w a Hw Hh Ho H; [reflexivity|]. cbn [dvals map snd cancel_loop filter]. fold (dvals l).
    destruct (H k r (or_introl eq_refl)) as (o & E & Ek).
    assert (Ed : deref a r = Some o) by (unfold deref in *; rewrite Hh; exact E).
    assert (Ew : now_waits w r = waits a0 r).
    { unfold now_waits. rewrite (proj2 Hw). unfold waits. rewrite Ed, E. reflexivity. }
    rewrite Ew. destruct (waits a0 r).
    - rewrite (proj2 Hw), Ed. cbn [map fst batch_cancel]. rewrite Ek.
      pose proof (api_cancel_spec gt k w a Hw) as X. cbv zeta in X. rewrite X.
      apply (IH _ (if dmem k (a_orders a) then acc_log (EvCancel k) a else a)); [split; reflexivity| | |].
      + destruct (dmem k (a_orders a)); exact Hh.
      + destruct (dmem k (a_orders a)); exact Ho.
      + intros k2 r2 Hin. apply H. right. exact Hin.
    - apply (IH w a Hw Hh Ho). intros k2 r2 Hin. apply H. right. exact Hin.
  Qed.
End Run.


Lemma book_in a : book_ok a -> forall k r, In (k, r) (a_orders a) -> exists o, deref a r = Some o /\ o_id o = k.
Proof. intros [ND HB] k r Hin. apply (In_dget k r (a_orders a) ND) in Hin. destruct (HB k r Hin) as (o & E1 & E2 & _). exists o. auto. Qed.
Lemma waiting_known a : book_ok a -> known_ids a (waiting_ids a) = waiting_ids a.
Proof.
  intro HB. unfold known_ids.
  assert (X : forall l, (forall k, In k l -> dget k (a_orders a) <> None) -> filter (fun id => dmem id (a_orders a)) l = l).
  { induction l as [|x l IH]; intro H; [reflexivity|]. cbn [filter]. pose proof (H x (or_introl eq_refl)) as H0. unfold dmem at 1.
    destruct (dget x (a_orders a)); [|congruence]. rewrite IH; [reflexivity|]. intros y Hy. apply H. right. exact Hy. }
  apply X. intros k Hk. unfold waiting_ids in Hk. apply in_map_iff in Hk as ([k' r] & Ekr & Hk). cbn in Ekr. subst k'. apply filter_In in Hk as [Hk _].
  rewrite (In_dget k r (a_orders a) (proj1 HB) Hk). discriminate.
Qed.
Definition after {G} (gt : gate G) (a : acct) (g : G) : world G :=
  World true (Some (logged (waiting_ids a) a)) (fold_left (fun g id => snd (g_cancel gt id g)) (waiting_ids a) g).
Lemma batch_exact udigit G (gt : gate G) w a : ready w a -> book_ok a -> batch_do_cancel udigit gt w = (Ok tt, after gt a (w_gate w)).
Proof.
  intros Hw HB. destruct (batch_cancel_spec gt (waiting_ids a) w a Hw) as (a' & E & ->). rewrite (waiting_known a HB) in E.
  unfold batch_do_cancel. rewrite (all_orders udigit G w a Hw HB). etransitivity; [|exact E]. unfold waiting_ids. f_equal. f_equal.
  apply filter_ext. intros [k r]. unfold now_waits. rewrite (proj2 Hw). reflexivity.
Qed.
Lemma open_exact udigit G (gt : gate G) w a : ready w a -> book_ok a -> cancel_open_orders udigit gt w = (Ok tt, after gt a (w_gate w)).
Proof.
  intros Hw HB. rewrite <- (batch_exact udigit G gt w a Hw HB). unfold cancel_open_orders, batch_do_cancel. rewrite (all_orders udigit G w a Hw HB).
  rewrite (loop_is_batch gt a (a_orders a) w a Hw eq_refl eq_refl (book_in a HB)). f_equal. f_equal.
  apply filter_ext. intros [k r]. unfold now_waits. rewrite (proj2 Hw). reflexivity.
Qed.
Lemma waiting_in a : book_ok a -> forall id, In id (waiting_ids a) <-> waiting a id.
Proof.
  intros [ND HB2] id. unfold waiting_ids. rewrite in_map_iff. split.
  - intros ([k r] & E & X). cbn in E. subst k. apply filter_In in X as [X Y]. cbn [snd] in Y. apply waits_iff in Y as (o & Ed & Hs).
    exists o. split; [|exact Hs]. exists r. split; [apply In_dget; assumption|exact Ed].
  - intros (o & (r & E1 & E2) & Hs). exists (id, r). split; [reflexivity|]. apply filter_In. split; [apply dget_In, E1|]. apply waits_iff. exists o. split; [exact E2|exact Hs].
Qed.
Lemma waiting_sub a : book_ok a -> exists keep, waiting_ids a = filter keep (dkeys (a_orders a)).
Proof.
  intros [ND _]. exists (fun k => match dget k (a_orders a) with Some r => waits a r | None => false end). unfold waiting_ids, dkeys.
  assert (X : forall l, (forall k r, In (k, r) l -> dget k (a_orders a) = Some r) ->
    map fst (filter (fun kr => waits a (snd kr)) l) = filter (fun k => match dget k (a_orders a) with Some r => waits a r | None => false end) (map fst l)).
  { induction l as [|[k r] l IH]; intro H; [reflexivity|]. cbn [filter map fst snd]. rewrite (H k r (or_introl eq_refl)).
    specialize (IH (fun k2 r2 Hi => H k2 r2 (or_intror Hi))). destruct (waits a r); cbn [map fst]; rewrite IH; reflexivity. }
  apply X. intros k r Hi. apply In_dget; assumption.
Qed.
Lemma waiting_once a : book_ok a -> NoDup (waiting_ids a).
Proof. intro HB. destruct (waiting_sub a HB) as (keep & ->). apply NoDup_filter, HB. Qed.

(** Both functions send one cancel for each waiting order, in the order in which the orders
    came into the book, and none for any other; nothing else about the account changes. *)
Theorem C139_cancels :
  forall udigit G (gt : gate G) w a, ready w a -> book_ok a ->
    exists ids, NoDup ids /\ (forall id, In id ids <-> waiting a id) /\
      (exists keep, ids = filter keep (dkeys (a_orders a))) /\
      let w' := World true (Some (logged ids a)) (fold_left (fun g id => snd (g_cancel gt id g)) ids (w_gate w)) in
      cancel_open_orders udigit gt w = (Ok tt, w') /\ batch_do_cancel udigit gt w = (Ok tt, w').
Proof.
  intros udigit G gt w a Hw HB. exists (waiting_ids a). split; [apply waiting_once, HB|]. split; [apply waiting_in, HB|]. split; [apply waiting_sub, HB|].
  split; [apply open_exact|apply batch_exact]; assumption.
Qed.
Print Assumptions C139_cancels.

(** With the AnXin gate and a working disk the cancel file gets one row for each waiting order. *)
Theorem C139_rows :
  forall udigit ptime f3 f4 go bal w a, ready w a -> book_ok a ->
    let gt := anxin ptime f3 f4 go bal in
    let g := w_gate w in
    let d := ge_date (gs_env g) in
    let old := text_of d (gs_cfile g) in
    ge_write (gs_env g) = WDone ->
    exists ids, (forall id, In id ids <-> waiting a id) /\ NoDup ids /\
      exists a' g', cancel_open_orders udigit gt w = (Ok tt, World true (Some a') g') /\
        (ids = [] -> g' = g) /\
        (ids <> [] -> text_of d (gs_cfile g') = old ++ (match old with [] => cancel_header ++ go_eol go | _ => [] end)
           ++ concat (map (fun id => fmt_stamp (ge_now (gs_env g)) ++ COMMA :: id ++ go_eol go) ids)).
Proof.
  intros udigit ptime f3 f4 go bal w a Hw HB gt g d old Hd. exists (waiting_ids a). split; [apply waiting_in, HB|]. split; [apply waiting_once, HB|].
  destruct (C25_batch_file ptime f3 f4 go bal (waiting_ids a) w a Hw Hd) as (a2 & g2 & E2 & H1 & H2). fold gt in E2.
  destruct (batch_cancel_spec gt (waiting_ids a) w a Hw) as (a3 & E3 & _). rewrite E2 in E3. rewrite (waiting_known a HB) in *. injection E3 as _ Eg.
  exists (logged (waiting_ids a) a), g2. split; [|split; [exact H2|exact H1]]. rewrite (open_exact udigit gst gt w a Hw HB). unfold after. rewrite Eg. reflexivity.
Qed.
Print Assumptions C139_rows.

(** A second run before the next sync sends the same cancels again. *)
Theorem C139_again :
  forall udigit G (gt : gate G) w a, ready w a -> book_ok a ->
    exists w1 w2 a1 a2 ids, cancel_open_orders udigit gt w = (Ok tt, w1) /\ cancel_open_orders udigit gt w1 = (Ok tt, w2) /\
      w_acc w1 = Some a1 /\ w_acc w2 = Some a2 /\ (forall id, In id ids <-> waiting a id) /\
      a_log a1 = a_log a ++ map EvCancel ids /\ a_log a2 = a_log a1 ++ map EvCancel ids.
Proof.
  intros udigit G gt w a Hw HB. exists (after gt a (w_gate w)), (after gt (logged (waiting_ids a) a) (w_gate (after gt a (w_gate w)))).
  exists (logged (waiting_ids a) a), (logged (waiting_ids (logged (waiting_ids a) a)) (logged (waiting_ids a) a)), (waiting_ids a).
  split; [apply open_exact; assumption|]. split; [apply open_exact; [split; reflexivity|exact HB]|]. split; [reflexivity|]. split; [reflexivity|].
  split; [apply waiting_in, HB|]. split; reflexivity.
Qed.
Print Assumptions C139_again.

(** do_order then do_cancel: the order placed is cancelled; if order() returned None nothing is
    cancelled, even if the order was written (C23). *)
Theorem C139_order_then_cancel :
  forall udigit G (gt : gate G) id now c n st sd w a w1 r, ready w a -> book_ok a ->
    api_order udigit gt id now c n st sd w = (Ok r, w1) -> (~ known a (lit "None")) -> id <> lit "None" ->
    exists a1 g1, w1 = World true (Some a1) g1 /\
      (r = None -> order_then_cancel udigit gt id now c n st sd w = (Ok tt, w1)) /\
      (r <> None -> order_then_cancel udigit gt id now c n st sd w = (Ok tt, World true (Some (acc_log (EvCancel id) a1)) (snd (g_cancel gt id g1)))).
Proof.
  intros udigit G gt id now c n st sd w a w1 r Hw HB E Hk Hid. unfold order_then_cancel. rewrite E. revert E.
  unfold api_order. destruct (check_code udigit c) as [code|e]; cbn [rbind]; [|discriminate].
  destruct (check_amount n) as [z|e]; cbn [rbind]; [|discriminate]. destruct (check_style st) as [sty|e]; cbn [rbind]; [|discriminate].
  destruct (check_side sd) as [s|e]; cbn [rbind]; [|discriminate]. rewrite (the_account_ready _ _ Hw). cbn [rbind].
  destruct (acc_order gt id now code z sty s a (w_gate w)) as [[r0 a1] g1] eqn:Ea. intro E. injection E as <- <-.
  rewrite (proj1 Hw). exists a1, g1. split; [reflexivity|].
  destruct (acc_order_book gt _ _ _ _ _ _ _ _ _ _ _ Ea) as (SB & Er & _).
  assert (Hloc : forall k, local_order k a1 = local_order k (store id (new_order id now code z sty s) a)) by (intro k; apply same_book_local, SB).
  pose proof (proj1 (acc_order_ok gt _ _ _ _ _ _ _ _ _ _ _ Ea HB)) as HB1.
  assert (Mem : forall k, dmem k (a_orders a1) = true <-> local_order k a1 <> None).
  { intro k. unfold dmem, local_order. destruct (dget k (a_orders a1)) as [q|] eqn:Eq; [|split; [discriminate|congruence]].
    destruct (proj2 HB1 _ _ Eq) as (o & Eo & _). unfold deref. rewrite Eo. split; [discriminate|reflexivity]. }
  split.
  - intros ->. pose proof (api_cancel_spec gt (lit "None") (World true (Some a1) g1) a1 (conj eq_refl eq_refl)) as X. cbv zeta in X. rewrite X.
    destruct (dmem (lit "None") (a_orders a1)) eqn:M; [|reflexivity]. exfalso. apply (proj1 (Mem _)) in M. rewrite Hloc in M.
    rewrite local_store_other in M by (try assumption; congruence). destruct (local_order (lit "None") a) as [o|] eqn:L; [|congruence].
    apply Hk. exists o. apply local_recorded, L.
  - intro Hr. destruct r0 as [i|]; [|congruence].
    assert (i = id). { unfold acc_order in Ea. destruct (g_order gt _ (w_gate w)) as [[u|e] g']; congruence. } subst i.
    pose proof (api_cancel_spec gt id (World true (Some a1) g1) a1 (conj eq_refl eq_refl)) as X. cbv zeta in X. rewrite X.
    replace (dmem id (a_orders a1)) with true; [reflexivity|]. symmetry. apply Mem. rewrite Hloc.
    rewrite (proj2 (local_recorded _ _ _) (recorded_store_same id (new_order id now code z sty s) a)). discriminate.
Qed.
Print Assumptions C139_order_then_cancel.

(** The example's name promises more: every order that may still trade is cancelled.  False:
    a partly filled order is left alone. *)
Definition may_trade (o : order) : Prop := o_status o = Snew \/ o_status o = Sopen \/ o_status o = Sfilling.
Definition cancels_all : Prop :=
  forall (w : world gst) a id o, ready w a -> book_ok a -> recorded a id o -> may_trade o ->
    exists a', w_acc (snd (cancel_open_orders no_ud demo_gate w)) = Some a' /\ In (EvCancel id) (a_log a').
Definition part_world : world gst :=
  snd (api_sync_orders demo_gate (World true (w_acc demo_w1) (with_files [] (u_open ++ u_part) (w_gate demo_w1)))).
Definition part_acct : acct := match w_acc part_world with Some a => a | None => acct_new end.
Theorem C139_cancels_all_refuted : ~ cancels_all.
Proof.
  intro H. assert (HB : book_ok part_acct).
  { refine (proj1 (reachable_ok no_ud demo_gate part_acct _)). exists true, demo_g0, [KOrder (lit "77") (19000 * DAY + 34200 * US) (CStr (lit "600000.XSHG")) (AInt (-300)) (StStyle (Limit (PNum (lit "10.5")))) SdFalsy;
      KEnv (with_files [] (u_open ++ u_part) (w_gate demo_w1)); KSyncOrd]. vm_compute. reflexivity. }
  destruct (local_order (lit "77") part_acct) as [o|] eqn:L; [|vm_compute in L; discriminate L].
  destruct (H part_world part_acct (lit "77") o) as (a' & E & I).
  - split; vm_compute; reflexivity.
  - exact HB.
  - apply local_recorded, L.
  - right. right. vm_compute in L. injection L as <-. reflexivity.
  - vm_compute in E. injection E as <-. vm_compute in I. repeat destruct I as [I|I]; try discriminate I. destruct I.
Qed.
Print Assumptions C139_cancels_all_refuted.
(** order 77 is new in [demo_w1]: it is cancelled, also by the second run *)
Example C139_demo :
  let w1 := snd (cancel_open_orders no_ud demo_gate demo_w1) in
  text_of 19000 (gs_cfile (w_gate w1)) = cancel_header ++ eol_posix ++ nl "093000.000000,77" /\
  text_of 19000 (gs_cfile (w_gate (snd (cancel_open_orders no_ud demo_gate w1)))) =
    cancel_header ++ eol_posix ++ nl "093000.000000,77" ++ nl "093000.000000,77" /\
  snd (batch_do_cancel no_ud demo_gate demo_w1) = w1 /\
  text_of 19000 (gs_cfile (w_gate (snd (order_then_cancel no_ud demo_gate (lit "5") 0 (CStr (lit "000001.XSHE")) (AInt 100) StFalsy SdFalsy demo_w1)))) =
    cancel_header ++ eol_posix ++ nl "093000.000000,5".
Proof. vm_compute. repeat split. Qed.
