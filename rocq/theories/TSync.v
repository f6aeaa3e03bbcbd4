(** C65, C66: repeated order syncs, for every trade gate and every gate state. *)
From Coq Require Import String.
From Verif Require Import PyBase PyStr MTime MDate LDate MOrder MAccount MApi SAccount
  LAccount LAccount2 SSync LSync TAccount.
Open Scope list_scope.
Open Scope Z_scope.

(** ** C65 *)

(** A sync whose reports say what the book already says changes nothing. *)
Theorem C65_no_news_partial :
  forall G (gt : gate G) a g l g', g_sync_orders gt g = (Ok l, g') -> Forall (no_news a) l ->
    unchanged a (fst (acc_sync_orders gt a g)) /\ a_synced (fst (acc_sync_orders gt a g)) = true.
Proof.
  intros G gt a g l g' Hg H. unfold acc_sync_orders. rewrite Hg. cbn [fst].
  rewrite sync_all_settled by (eapply Forall_impl; [|exact H]; intros i; apply no_news_settled).
  split; [unfold unchanged; cbn; auto 10|reflexivity].
Qed.
Print Assumptions C65_no_news_partial.
(** The same report a second time changes nothing, also when it fails midway, as long as it
    has at most one entry per order. *)
Theorem C65_twice_partial :
  forall G (gt : gate G) a g l g1 g2, book_ok a -> NoDup (map i_id l) ->
    g_sync_orders gt g = (Ok l, g1) -> g_sync_orders gt g1 = (Ok l, g2) ->
    let s1 := acc_sync_orders gt a g in
    fst (acc_sync_orders gt (fst s1) (snd s1)) = fst s1.
Proof.
  intros G gt a g l g1 g2 HB HN H1 H2. cbv zeta. unfold acc_sync_orders. rewrite H1. cbn [fst snd]. rewrite H2. cbn [fst].
  apply sync_all_twice; assumption.
Qed.
Print Assumptions C65_twice_partial.
(** Without that, C65 is false: two different entries for one order are applied one after
    the other by every sync, with new notices each time. *)
Theorem C65_refuted :
  forall G (gt : gate G) a g i j o1 o2 o g1 g2, book_ok a ->
    denotes i o1 -> denotes j o2 -> i_id j = i_id i ->
    o_status o1 = Sopen -> o_status o2 = Sfilled ->
    recorded a (i_id i) o -> o_status o = Snew ->
    g_sync_orders gt g = (Ok [i; j], g1) -> g_sync_orders gt g1 = (Ok [i; j], g2) ->
    let s1 := acc_sync_orders gt a g in
    a_log (fst s1) = a_log a ++ [EvNotice NConfirmed o1; EvNotice NFilled o2] /\
    a_log (fst (acc_sync_orders gt (fst s1) (snd s1))) = a_log (fst s1) ++ [EvNotice NFilled o2].
Proof.
  intros G gt a g i j o1 o2 o g1 g2 HB Hi Hj Hid S1 S2 R S0 H1 H2. cbv zeta. unfold acc_sync_orders. rewrite H1. cbn [fst snd].
  rewrite H2. cbn [fst]. apply load_iff in Hi, Hj. apply local_recorded in R.
  assert (X : forall a0 l0 i0 rem k, load i0 = Ok rem -> local_order (i_id i0) a0 = Some l0 -> o_status rem <> o_status l0 ->
            notice_for l0 rem = k ->
            sync_one i0 a0 = Ok (match k with Some k => acc_log (EvNotice k rem) (store (i_id i0) rem a0) | None => store (i_id i0) rem a0 end)).
  { intros a0 l0 i0 rem k L0 E0 N0 K0. unfold sync_one. rewrite L0; cbn [rbind]. rewrite E0.
    replace (same rem l0) with false; [rewrite K0; reflexivity|]. symmetry. destruct (same rem l0) eqn:Q; [|reflexivity].
    apply same_fields in Q. destruct Q as [Q _]. congruence. }
  assert (Y : forall a0 rem k, local_order (i_id i) (match k with Some k => acc_log (EvNotice k rem) (store (i_id i) rem a0) | None => store (i_id i) rem a0 end) = Some rem).
  { intros a0 rem k. assert (K : local_order (i_id i) (store (i_id i) rem a0) = Some rem) by apply local_recorded, recorded_store_same.
    destruct k; exact K. }
  assert (N1 : notice_for o o1 = Some NConfirmed) by (unfold notice_for; rewrite S0, S1; reflexivity).
  assert (N2 : notice_for o1 o2 = Some NFilled) by (unfold notice_for; rewrite S1, S2; reflexivity).
  assert (N3 : notice_for o2 o1 = None) by (unfold notice_for; rewrite S1, S2; reflexivity).
  cbn [sync_all]. rewrite (X a o i o1 _ Hi R ltac:(congruence) N1). cbv iota.
  set (a1 := acc_log _ _). assert (E1 : local_order (i_id j) a1 = Some o1) by (rewrite Hid; apply (Y a o1 (Some NConfirmed))).
  rewrite (X a1 o1 j o2 _ Hj E1 ltac:(congruence) N2). cbv iota.
  set (a2 := acc_log (EvNotice NFilled o2) _). split; [cbn; rewrite <- app_assoc; reflexivity|].
  assert (E2 : local_order (i_id i) (set_synced a2) = Some o2).
  { unfold a2. rewrite Hid. apply (Y a1 o2 (Some NFilled)). }
  rewrite (X (set_synced a2) o2 i o1 _ Hi E2 ltac:(congruence) N3). cbv iota.
  set (a3 := store _ _ _). assert (E3 : local_order (i_id j) a3 = Some o1) by (rewrite Hid; apply (Y (set_synced a2) o1 None)).
  rewrite (X a3 o1 j o2 _ Hj E3 ltac:(congruence) N2). reflexivity.
Qed.
Print Assumptions C65_refuted.

(** the account of TAccount's example with order "1" placed, and reports about it *)
Definition stat (s : string) : oinfo :=
  OInfo (i_code demo_report) (i_price demo_report) (i_amount demo_report) (i_action demo_report) (i_id demo_report)
    (lit s) (i_style demo_report) (i_create demo_report) (i_entrust demo_report) (i_side demo_report)
    (i_confirm demo_report) (i_filled demo_report) (i_canceled demo_report) (i_deal demo_report) (i_avg demo_report)
    (i_comm demo_report) (i_err demo_report).
Definition demo_a : acct := match w_acc demo_w with Some a => a | None => acct_new end.
Definition says (l : list oinfo) : dgate := DGate [] l demo_bal.
Example C65_demo :
  option_map o_status (local_order (lit "1") demo_a) = Some Snew /\
  (let a1 := fst (acc_sync_orders demo demo_a (says [stat "filling"])) in
   List.length (a_log a1) = S (List.length (a_log demo_a)) /\
   fst (acc_sync_orders demo a1 (says [stat "filling"])) = a1) /\
  (let a1 := fst (acc_sync_orders demo demo_a (says [stat "open"; stat "filled"])) in
   final_notes (lit "1") (a_log (fst (acc_sync_orders demo a1 (says [stat "open"; stat "filled"])))) = [lit "filled"; lit "filled"]).
Proof. vm_compute. repeat split. Qed.
Example C65_demo_no_news :
  exists a, Forall (no_news a) [stat "open"; stat "open"] /\ a_orders a <> [].
Proof.
  exists (fst (acc_sync_orders demo demo_a (says [stat "open"]))).
  assert (N : no_news (fst (acc_sync_orders demo demo_a (says [stat "open"]))) (stat "open")).
  { apply no_news_settled. unfold settled.
    destruct (load (stat "open")) as [rem|] eqn:L; [|vm_compute in L; discriminate].
    destruct (local_order (i_id (stat "open")) (fst (acc_sync_orders demo demo_a (says [stat "open"])))) as [o|] eqn:E;
      [|vm_compute in E; discriminate].
    exists rem, o. split; [reflexivity|]. split; [reflexivity|].
    vm_compute in L, E. apply Ok_inj in L. subst rem. injection E as <-. reflexivity. }
  split; [apply Forall_cons; [exact N|apply Forall_cons; [exact N|apply Forall_nil]]|]. vm_compute. discriminate.
Qed.

(** ** C66 *)

(** Over any history in which all reports can be loaded, the notices telling the end of a
    known order are exactly the points where its reported status turns final. *)
Theorem C108_notices :
  forall G (gt : gate G) id ops a g o, book_ok a -> recorded a id o -> not_placed id ops ->
    Forall (Forall loadable) (reports gt ops (a, g)) ->
    final_notes id (a_log (fst (snd (a_run gt ops (a, g))))) =
    final_notes id (a_log a) ++ finishes (status_str (o_status o)) (heard gt id ops (a, g)).
Proof. intros G gt id ops a g o HB R HP HL. apply local_recorded in R. exact (run_finals gt id ops a g o HB R HP HL). Qed.
Print Assumptions C108_notices.
(** Hence, if the broker never takes back the end of an order: one notice, for the first
    final status, and none as long as there is no final status. *)
Theorem C66_once_partial :
  forall G (gt : gate G) id ops a g o, book_ok a -> recorded a id o -> not_placed id ops ->
    Forall (Forall loadable) (reports gt ops (a, g)) ->
    ~ final_status (o_status o) -> never_back (heard gt id ops (a, g)) ->
    final_notes id (a_log (fst (snd (a_run gt ops (a, g))))) =
    final_notes id (a_log a) ++ match find final_text (heard gt id ops (a, g)) with Some x => [x] | None => [] end.
Proof.
  intros G gt id ops a g o HB R HP HL HF HN. rewrite (C108_notices G gt id ops a g o HB R HP HL). f_equal.
  apply finishes_once; [|exact HN]. rewrite final_text_status. destruct (o_status o) eqn:E; try reflexivity;
    exfalso; apply HF; cbn; auto.
Qed.
Print Assumptions C66_once_partial.
(** an order that was final when the history starts gets no such notice *)
Theorem C108_none_after_end :
  forall G (gt : gate G) id ops a g o, book_ok a -> recorded a id o -> not_placed id ops ->
    Forall (Forall loadable) (reports gt ops (a, g)) ->
    final_status (o_status o) -> Forall (fun x => final_text x = true) (heard gt id ops (a, g)) ->
    final_notes id (a_log (fst (snd (a_run gt ops (a, g))))) = final_notes id (a_log a).
Proof.
  intros G gt id ops a g o HB R HP HL HF HN. rewrite (C108_notices G gt id ops a g o HB R HP HL).
  rewrite finishes_final; [apply app_nil_r| |exact HN]. rewrite final_text_status.
  destruct HF as [<-|[<-|[<-|[<-|[]]]]]; reflexivity.
Qed.
Print Assumptions C108_none_after_end.

Definition demo_hist : list (aop (G := dgate)) :=
  [ASyncOrd; AEnv (says [stat "open"]); ASyncOrd; AEnv (says [stat "filling"]); ASyncOrd; ACancel (lit "1");
   AEnv (says [stat "filled"; stat "filled"]); ASyncOrd; ASyncOrd].
Example C66_demo :
  heard demo (lit "1") demo_hist (demo_a, says []) = [lit "open"; lit "filling"; lit "filled"; lit "filled"; lit "filled"; lit "filled"] /\
  final_notes (lit "1") (a_log demo_a) = [] /\
  final_notes (lit "1") (a_log (fst (snd (a_run demo demo_hist (demo_a, says []))))) = [lit "filled"].
Proof. vm_compute. repeat split. Qed.
Example C66_demo_hyps :
  not_placed (lit "1") demo_hist /\ Forall (Forall loadable) (reports demo demo_hist (demo_a, says [])) /\
  never_back (heard demo (lit "1") demo_hist (demo_a, says [])).
Proof.
  split; [repeat constructor|]. split.
  - apply forall_loadable. vm_compute. reflexivity.
  - apply back_check_ok. vm_compute. reflexivity.
Qed.
(** If the broker does take it back, C66 is false: a second notice. *)
Definition demo_back : list (aop (G := dgate)) :=
  [AEnv (says [stat "filled"]); ASyncOrd; AEnv (says [stat "open"]); ASyncOrd; AEnv (says [stat "canceled"]); ASyncOrd].
Theorem C66_refuted :
  exists (a : acct) (g : dgate) (o : order), recorded a (lit "1") o /\ ~ final_status (o_status o) /\
    final_notes (lit "1") (a_log a) = [] /\
    final_notes (lit "1") (a_log (fst (snd (a_run demo demo_back (a, g))))) = [lit "filled"; lit "canceled"].
Proof.
  exists demo_a, (says []). destruct (local_order (lit "1") demo_a) as [o|] eqn:E; [|vm_compute in E; discriminate].
  exists o. split; [apply local_recorded, E|]. vm_compute in E. injection E as <-.
  split; [cbn; intuition discriminate|]. split; vm_compute; reflexivity.
Qed.
Print Assumptions C66_refuted.
