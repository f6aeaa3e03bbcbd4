(** C65 for the AnXin gate, and C68: from the broker's files to the orders a strategy sees. *)
From Coq Require Import String.
From Verif Require Import PyBase PyStr LStr SDate MTime MDate LDate LDate2 MOrder MAccount MApi SAccount LAccount LAccount2 LAccount3
  MGate SGate LGate LGate2 LGate3 LGate4 TGate SSync LSync TSync SLife LSync2 LLife.
Open Scope list_scope.
Open Scope Z_scope.

(** ** C65 *)

(** With the AnXin gate, a second sync with unchanged files changes nothing in the account:
    its reports never have two entries for an order. *)
Theorem C65_anxin_partial :
  forall ptime f3 f4 go bal a g l g1, book_ok a -> own_ids (gs_orders g) ->
    gate_sync_orders ptime f3 f4 go g = (Ok l, g1) ->
    let gt := anxin ptime f3 f4 go bal in
    let s1 := acc_sync_orders gt a g in
    fst (acc_sync_orders gt (fst s1) (snd s1)) = fst s1.
Proof.
  intros ptime f3 f4 go bal a g l g1 HB HO E. cbv zeta.
  destruct (gate_sync_again go ptime f3 f4 g l g1 E) as [g2 E2].
  apply (C65_twice_partial gst (anxin ptime f3 f4 go bal) a g l g1 g2 HB); [|exact E|exact E2].
  pose proof (own_after ptime f3 f4 go g HO) as N. rewrite E in N. cbn [snd] in N.
  rewrite (sync_list go ptime f3 f4 g l g1 E). apply own_NoDup, N.
Qed.
Print Assumptions C65_anxin_partial.

(** ** C68 *)

(** C68 asks for every history of the files.  Proved: for every life of a process on one day
    (orders, cancels, syncs, failures, restarts), under the conditions of C36 on what each
    sync sees: after a sync that succeeds, every order the gate knows is shown with the code,
    amount, direction and price it was placed with; with the values of its last update line
    if that one parses; as rejected if a result line rejects it; as new if there is no line. *)
Theorem C68_shown_partial :
  forall ptime f3 f4 go bal d a g p rt ut rs us l,
    go_ignore go = true -> (forall s t, ptime s = Some t -> year4 t) ->
    life ptime f3 f4 go bal d a g p ->
    dget d (gs_rfile g) = Some rt -> dget d (gs_ufile g) = Some ut ->
    calm 5 rt rs -> calm 19 ut us -> exclusive rs us ->
    fst (gate_sync_orders ptime f3 f4 go g) = Ok l ->
    let a' := fst (acc_sync_orders (anxin ptime f3 f4 go bal) a g) in
    forall id i, dget id p = Some i -> exists o, recorded a' id o /\ same_order i o /\
      (forall pre u post st t q m c pz, us = pre ++ u :: post -> update_for id u -> (forall x, In x post -> ~ update_for id x) ->
         status_code (col 7 u) st -> ptime (col 1 u ++ col 2 u) = Some t -> py_int (col 11 u) = Some q ->
         f4 (col 13 u) = Some m -> py_int (col 14 u) = Some c -> f3 (col 12 u) = Some pz ->
         o_status o = st /\ o_filled o = q /\ o_canceled o = c /\ o_deal o = m /\ o_avg o = Some pz /\ o_confirm o = Some (col 15 u)) /\
      ((exists r, In r rs /\ reject_for id r) -> o_status o = Srejected) /\
      ((forall r, In r rs -> ~ reject_for id r) -> (forall u, In u us -> ~ update_for id u) -> o_status o = Snew /\ o_filled o = 0).
Proof.
  intros ptime f3 f4 go bal d a g p rt ut rs us l Hi Hpt HL Hr Hu Cr Cu X Hok a' id i Hp.
  destruct (life_inv ptime f3 f4 go bal Hpt Hi d a g p HL) as (Hh & HB & HG & HD & HM).
  pose proof (hist_inv ptime f3 f4 go d g p Hi Hh) as I.
  destruct (sync_reads ptime f3 f4 go d g p rt ut rs us Hi I Hr Hu Cr Cu X) as (_ & _ & _ & _ & _ & G1 & _).
  specialize (G1 id). rewrite Hp in G1. cbn [option_map] in G1.
  destruct (sync_shows ptime f3 f4 go bal Hpt Hi d a g p l id _ HL Hok G1) as (o & R & A). fold a' in R. exists o. split; [exact R|].
  assert (HL' : life ptime f3 f4 go bal d a' (snd (acc_sync_orders (anxin ptime f3 f4 go bal) a g)) p).
  { apply l_sync; [exact HL|]. intros r u Hr2 Hu2. exists rs, us. rewrite Hr in Hr2. rewrite Hu in Hu2. injection Hr2 as <-. injection Hu2 as <-. auto. }
  destruct (life_inv ptime f3 f4 go bal Hpt Hi d _ _ p HL') as (_ & _ & _ & _ & HM').
  assert (Sg : snd (acc_sync_orders (anxin ptime f3 f4 go bal) a g) = snd (gate_sync_orders ptime f3 f4 go g)).
  { unfold acc_sync_orders. cbn [anxin g_sync_orders]. destruct (gate_sync_orders ptime f3 f4 go g) as [[?|] ?]; reflexivity. }
  rewrite Sg in HM'. pose proof (HM' id o _ R G1) as SO.
  assert (ST : forall st, i_status (replay ptime f3 f4 id rs us i) = status_str st -> o_status o = st).
  { intros st Hst. destruct A as (A1 & _). rewrite Hst in A1.
    pose proof (get_status_str (o_status o)) as Q. rewrite A1, get_status_str in Q. congruence. }
  split; [|split; [|split]].
  - eapply (same_order_statics _ i o); [|exact SO]. unfold replay.
    destruct (all_on_eff rtarget id rs) as [e1 E1]. destruct (all_on_eff (utarget ptime f3 f4) id us) as [e2 E2]. rewrite E2, E1, !apply_fields.
    unfold statics. cbn. auto.
  - intros pre u post st t q m c pz -> U1 U2 U3 U4 U5 U6 U7 U8.
    pose proof (replay_last ptime f3 f4 id rs pre u post i st t q m c pz X U1 U2 U3 U4 U5 U6 U7 U8) as RL.
    split; [apply ST; rewrite RL; reflexivity|]. rewrite RL in A. destruct A as (_ & A2 & A3 & A4 & A5 & A6 & _). cbn in *. auto.
  - intros (r & R1 & R2). apply ST. unfold replay. rewrite (all_on_none (utarget ptime f3 f4) id us); [apply (rejected_by rs id r i R1 R2)|].
    intros u e Hu2 Tu. apply (X id r u R1 Hu2 R2). apply (utarget_iff ptime f3 f4). eauto.
  - intros N1 N2. assert (RN : replay ptime f3 f4 id rs us i = i).
    { unfold replay. rewrite (all_on_none rtarget id rs), (all_on_none (utarget ptime f3 f4) id us); [reflexivity| |].
      - intros u e Hu2 Tu. apply (N2 u Hu2), (utarget_iff ptime f3 f4). eauto.
      - intros r e Hr2 Tr. apply (N1 r Hr2), rtarget_iff. eauto. }
    destruct (life_new ptime f3 f4 go bal Hpt Hi d a g p HL id i Hp) as [F1 F2].
    split; [apply ST; rewrite RN; exact F1|]. rewrite RN in A. destruct A as (_ & _ & A3 & _). rewrite A3, F2. reflexivity.
Qed.
Print Assumptions C68_shown_partial.

(** After a crash and a restart, the first sync shows the same orders with the same values. *)
Theorem C68_restart_partial :
  forall ptime f3 f4 go bal d a g p rt ut rs us l l2,
    go_ignore go = true -> (forall s t, ptime s = Some t -> year4 t) ->
    life ptime f3 f4 go bal d a g p ->
    dget d (gs_rfile g) = Some rt -> dget d (gs_ufile g) = Some ut ->
    calm 5 rt rs -> calm 19 ut us -> exclusive rs us ->
    fst (gate_sync_orders ptime f3 f4 go g) = Ok l ->
    let gt := anxin ptime f3 f4 go bal in
    let s1 := acc_sync_orders gt a g in
    let g2 := gate_setup true (snd s1) in
    fst (gate_sync_orders ptime f3 f4 go g2) = Ok l2 ->
    let s2 := acc_sync_orders gt acct_new g2 in
    forall id i, dget id p = Some i ->
      exists o1 o2, recorded (fst s1) id o1 /\ recorded (fst s2) id o2 /\ same_order i o1 /\ same_order i o2 /\ ~ changed o1 o2.
Proof.
  intros ptime f3 f4 go bal d a g p rt ut rs us l l2 Hi Hpt HL Hr Hu Cr Cu X Hok gt s1 g2 Hok2 s2 id i Hp.
  destruct (life_inv ptime f3 f4 go bal Hpt Hi d a g p HL) as (Hh & _).
  pose proof (hist_inv ptime f3 f4 go d g p Hi Hh) as I.
  destruct (sync_reads ptime f3 f4 go d g p rt ut rs us Hi I Hr Hu Cr Cu X) as (_ & Ev & Fr & Fu & _ & G1 & _ & _ & _ & Sv & _).
  assert (Sg : snd s1 = snd (gate_sync_orders ptime f3 f4 go g)).
  { unfold s1, acc_sync_orders. cbn [gt anxin g_sync_orders]. destruct (gate_sync_orders ptime f3 f4 go g) as [[?|] ?]; reflexivity. }
  pose proof (C39_restart_partial ptime f3 f4 go d g p rt ut rs us l Hi Hh Hr Hu Cr Cu X Hok) as C39. cbv zeta in C39.
  unfold g2 in *. rewrite Sg in *. set (g1 := snd (gate_sync_orders ptime f3 f4 go g)) in *.
  destruct (C68_shown_partial ptime f3 f4 go bal d a g p rt ut rs us l Hi Hpt HL Hr Hu Cr Cu X Hok id i Hp) as (o1 & R1 & S1 & _).
  assert (HL1 : life ptime f3 f4 go bal d (fst s1) g1 p).
  { rewrite <- Sg. apply l_sync; [exact HL|]. intros r u Hr2 Hu2. exists rs, us. rewrite Hr in Hr2. rewrite Hu in Hu2. injection Hr2 as <-. injection Hu2 as <-. auto. }
  pose proof (l_restart ptime f3 f4 go bal d _ _ _ HL1) as HL2. cbv zeta in HL2.
  assert (G1i := G1 id). rewrite Hp in G1i. cbn [option_map] in G1i.
  assert (O2 : gs_orders (gate_setup true g1) = gs_orders g1).
  { cbn. rewrite Ev, (proj1 (proj2 I)), (Sv l Hok). apply data_after. }
  assert (Hp2 : dget id (filter (fun kv => dmem (fst kv) (gs_orders (gate_setup true g1))) p) = Some i).
  { rewrite (dget_filter (fun k => dmem k (gs_orders (gate_setup true g1)))), O2. unfold dmem. rewrite G1i. exact Hp. }
  assert (Hr2 : dget d (gs_rfile (gate_setup true g1)) = Some rt) by (cbn; rewrite Fr; exact Hr).
  assert (Hu2 : dget d (gs_ufile (gate_setup true g1)) = Some ut) by (cbn; rewrite Fu; exact Hu).
  destruct (C68_shown_partial ptime f3 f4 go bal d acct_new _ _ rt ut rs us l2 Hi Hpt HL2 Hr2 Hu2 Cr Cu X Hok2 id i Hp2) as (o2 & R2 & S2 & _).
  exists o1, o2. split; [exact R1|]. split; [unfold s2, gt; rewrite Sg; exact R2|]. split; [exact S1|]. split; [exact S2|].
  destruct (sync_shows ptime f3 f4 go bal Hpt Hi d a g p l id _ HL Hok G1i) as (x1 & Q1 & A1).
  assert (G2i := C39 id). rewrite G1i in G2i.
  destruct (sync_shows ptime f3 f4 go bal Hpt Hi d acct_new _ _ l2 id _ HL2 Hok2 G2i) as (x2 & Q2 & A2).
  apply local_recorded in R1, R2, Q1, Q2. rewrite Q1 in R1. rewrite Q2 in R2. injection R1 as ->. injection R2 as ->.
  unfold agrees in A1, A2. destruct A1 as (B1 & B2 & B3 & B4 & B5 & B6 & B7). destruct A2 as (C1 & C2 & C3 & C4 & C5 & C6 & C7).
  assert (St : o_status o1 = o_status o2).
  { pose proof (get_status_str (o_status o1)) as Z1. rewrite B1, <- C1, get_status_str in Z1. congruence. }
  unfold changed. intro N. apply N. rewrite St, B2, B3, B4, B5, B6, B7, C2, C3, C4, C5, C6, C7. reflexivity.
Qed.
Print Assumptions C68_restart_partial.

(** ** Examples *)
Definition life_ptime (s : str) : option Z :=
  match demo_ptime s with
  | Some t => let y := fst (fst (civil_of_days (dt_date t))) in if (1000 <=? y) && (y <=? 9999) then Some t else None
  | None => None
  end.
Lemma life_ptime_ok s t : life_ptime s = Some t -> year4 t.
Proof.
  unfold life_ptime, year4. destruct (demo_ptime s) as [t'|]; [|discriminate].
  destruct (1000 <=? _) eqn:E1; [|discriminate]. destruct (_ <=? 9999) eqn:E2; [|discriminate]. cbn [andb]. intro H. injection H as <-.
  apply Z.leb_le in E1, E2. split; assumption.
Qed.
Definition no_bal (g : gst) : res binfo * gst := (Err OSError, g).
Definition life_gate : gate gst := anxin life_ptime demo_f3 demo_f4 demo_go no_bal.
Definition life_now : Z := 19000 * DAY + 34200 * US.
Definition life_s1 : option str * acct * gst :=
  acc_order life_gate (lit "77") life_now (lit "600000.XSHG") (-300) (Limit (PNum (lit "10.5"))) Long acct_new demo_g0.
Definition life_a1 : acct := snd (fst life_s1).
Definition life_g1 : gst := snd life_s1.
Definition life_p : dict str oinfo := match dget (lit "77") (gs_orders life_g1) with Some i => dset (lit "77") i [] | None => [] end.
Definition life_g2 : gst := with_files [] (u_open ++ u_else ++ u_part ++ half) life_g1.
Lemma life_demo : life life_ptime demo_f3 demo_f4 demo_go no_bal 19000 life_a1 life_g2 life_p.
Proof.
  apply (l_grow life_ptime demo_f3 demo_f4 demo_go no_bal 19000 life_a1 life_g1 life_p _ _ [] (u_open ++ u_else ++ u_part ++ half)); [|vm_compute; reflexivity|reflexivity].
  apply (l_order life_ptime demo_f3 demo_f4 demo_go no_bal 19000 acct_new demo_g0 [] (lit "77") life_now (lit "600000.XSHG") (-300)
           (Limit (PNum (lit "10.5"))) Long (fst (fst life_s1))).
  - apply l_start; reflexivity.
  - reflexivity.
  - vm_compute. split; discriminate.
  - intros x [].
  - intros x [].
  - unfold life_a1, life_g1. destruct life_s1 as [[r a] g] eqn:E. exact E.
Qed.
Definition seen (id : string) (a : acct) : option (status * Z) := option_map (fun o => (o_status o, o_filled o)) (local_order (lit id) a).
(** hypotheses met (those on the files are C36_demo), and what is shown before and after a restart *)
Example C68_demo :
  dget (lit "77") life_p <> None /\ dget 19000 (gs_rfile life_g2) = Some [] /\
  dget 19000 (gs_ufile life_g2) = Some (u_open ++ u_else ++ u_part ++ half) /\
  (exists l, fst (gate_sync_orders life_ptime demo_f3 demo_f4 demo_go life_g2) = Ok l) /\
  let s1 := acc_sync_orders life_gate life_a1 life_g2 in
  seen "77" life_a1 = Some (Snew, 0) /\ seen "77" (fst s1) = Some (Sfilling, 100) /\
  seen "77" (fst (acc_sync_orders life_gate acct_new (gate_setup true (snd s1)))) = Some (Sfilling, 100).
Proof.
  split; [vm_compute; discriminate|]. split; [reflexivity|]. split; [reflexivity|].
  split; [eexists; vm_compute; reflexivity|]. vm_compute. auto.
Qed.
Example C65_anxin_demo :
  own_ids (gs_orders life_g2) /\ book_ok life_a1 /\
  let s1 := acc_sync_orders life_gate life_a1 life_g2 in
  a_log (fst s1) <> a_log life_a1 /\ a_log (fst (acc_sync_orders life_gate (fst s1) (snd s1))) = a_log (fst s1).
Proof.
  destruct (life_inv life_ptime demo_f3 demo_f4 demo_go no_bal life_ptime_ok eq_refl _ _ _ _ life_demo) as (_ & B & G & _).
  split; [apply G|]. split; [exact B|]. vm_compute. split; [discriminate|reflexivity].
Qed.
(** C68 is false in general: seen once without its line break, a line blocks all later ones,
    and the strategy sees the order open although the broker reported it filled. *)
Theorem C68_refuted :
  exists a g part rest,
    let s1 := acc_sync_orders life_gate a (with_files [] part g) in
    let s2 := acc_sync_orders life_gate (fst s1) (with_files [] (part ++ rest ++ u_done) (snd s1)) in
    (exists l, fst (gate_sync_orders life_ptime demo_f3 demo_f4 demo_go (with_files [] (part ++ rest ++ u_done) (snd s1))) = Ok l) /\
    update_for (lit "77") u_done /\ status_code (col 7 u_done) Sfilled /\ a_synced (fst s2) = true /\
    seen "77" (fst s2) = Some (Sopen, 0).
Proof.
  exists life_a1, life_g1, (removelast u_open), [NL]. cbv zeta. split; [eexists; vm_compute; reflexivity|].
  split; [split; [intro H; apply header_iff in H; vm_compute in H; discriminate|split; vm_compute; reflexivity]|].
  split; [vm_compute; auto|]. vm_compute. auto.
Qed.
Print Assumptions C68_refuted.
(** Also after a restart without the broker's files: the saved orders are known to the gate,
    but the sync fails and the strategy sees none of them. *)
Theorem C68_no_files_refuted :
  exists g, dget (lit "77") (gs_orders (gate_setup true g)) <> None /\
    seen "77" (fst (acc_sync_orders life_gate acct_new (gate_setup true g))) = None.
Proof. exists life_g1. vm_compute. split; [discriminate|reflexivity]. Qed.
Print Assumptions C68_no_files_refuted.
