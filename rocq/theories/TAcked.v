(** C142: an acknowledged order, from order() through the files to what the strategy sees. *)
From Coq Require Import String.
From Verif Require Import PyBase PyStr LStr SDate MTime MDate MOrder MAccount MApi SAccount LAccount LAccount2
  MGate SGate LGate LGate2 LGate3 LGate4 TGate SLife LSync LSync2 LLife TLife SAcked.
Open Scope list_scope.
Open Scope Z_scope.

Section Acked.
  Context (ptime f3 f4 : str -> option Z) (go : gopts) (bal : gst -> res binfo * gst)
          (Hpt : forall s t, ptime s = Some t -> year4 t) (Hi : go_ignore go = true).
  Notation gt := (anxin ptime f3 f4 go bal).
  Notation life := (life ptime f3 f4 go bal).
  Notation lstep := (lstep ptime f3 f4 go bal).
  Notation since := (since ptime f3 f4 go bal).
  Notation sync := (gate_sync_orders ptime f3 f4 go).

  Lemma lstep_life d a g p a' g' p' : life d a g p -> lstep d a g p a' g' p' -> life d a' g' p'.
  Proof.
    intros L S. destruct S.
    - eapply l_order; eassumption.
    - apply l_cancel, L.
    - apply l_env; assumption.
    - eapply l_grow; eassumption.
    - apply l_sync; assumption.
    - apply l_balance; assumption.
    - apply (l_restart ptime f3 f4 go bal d a g p L).
  Qed.
  Lemma since_life d id code n st a g p : since d id code n st a g p -> life d a g p.
  Proof. induction 1; [eapply l_order; eassumption|eapply lstep_life; eassumption]. Qed.

  (** the gate's part of a step: the order stays known and saved, the order file only grows *)
  Definition held (d : Z) (id : str) (g : gst) : Prop :=
    (exists i, dget id (gs_orders g) = Some i) /\ (exists i, dget id (data_of d (gs_data g)) = Some i).
  Definition longer (s t : str) : Prop := exists x, t = s ++ x.
  Lemma longer_refl s : longer s s. Proof. exists []. symmetry. apply app_nil_r. Qed.
  Lemma longer_trans s t u : longer s t -> longer t u -> longer s u.
  Proof. intros [x ->] [y ->]. exists (x ++ y). symmetry. apply app_assoc. Qed.
  Lemma write_longer header line old w r txt : write_line go header line old w = (r, txt) -> longer old txt.
  Proof. destruct w; intro H; injection H as <- <-; [eexists; reflexivity|apply longer_refl|eexists; reflexivity]. Qed.

  Lemma sync_keys id g i : dget id (gs_orders g) = Some i -> exists j, dget id (gs_orders (snd (sync g))) = Some j.
  Proof.
    intro H. apply (sync_orders_of ptime f3 f4 go g (fun o => exists j, dget id o = Some j)); [|eauto].
    intros k o j e [j' E] Hk. rewrite dget_dset. destruct (eqb id k); eauto.
  Qed.
  Lemma sync_env_of a g : snd (acc_sync_orders gt a g) = snd (sync g).
  Proof. unfold acc_sync_orders. cbn [anxin g_sync_orders]. destruct (sync g) as [[l|] g']; reflexivity. Qed.
  Lemma sync_ofile g : gs_ofile (snd (sync g)) = gs_ofile g.
  Proof.
    unfold gate_sync_orders. destruct (dget _ (gs_ufile g)) as [ut|]; [|reflexivity]. destruct (dget _ (gs_rfile g)) as [rt|]; [|reflexivity].
    destruct (read_file go result_line rt (gs_roff g) (gs_orders g)) as [[[x1|] roff] o1]; [reflexivity|].
    destruct (read_file go (update_line ptime f3 f4) ut _ o1) as [[[x2|] uoff] o2]; [reflexivity|].
    set (g2 := set_uread _ _ _). destruct (save_orders_spec g2) as (r & Hf & Hsn). destruct (save_orders g2) as [r' g3]. cbn [fst snd] in *. subst r' g3.
    destruct r; reflexivity.
  Qed.
  Lemma order_ofile o g : longer (text_of (ge_date (gs_env g)) (gs_ofile g)) (text_of (ge_date (gs_env g)) (gs_ofile (snd (gate_order go o g)))).
  Proof.
    unfold gate_order. destruct (go_acct go); [apply longer_refl|]. destruct (negb _); [apply longer_refl|]. destruct (o_side o); [|apply longer_refl].
    destruct (encode _); [|apply longer_refl]. destruct (write_line _ _ _ _ _) as [[[]|x] txt] eqn:W; apply write_longer in W; cbn [snd set_ofile gs_ofile]; [|rewrite text_same; exact W].
    set (g1 := set_gorders _ _). destruct (save_orders_spec g1) as (r & Hf & Hsn). destruct (save_orders g1) as [r' g3]. cbn [fst snd] in *. subst r' g3.
    destruct r; cbn; rewrite text_same; exact W.
  Qed.
  Lemma life_date d a g p : life d a g p -> gs_day g = d /\ ge_date (gs_env g) = d.
  Proof.
    intro L. destruct (life_inv ptime f3 f4 go bal Hpt Hi d a g p L) as (Hh & _).
    destruct (hist_inv ptime f3 f4 go d g p Hi Hh) as (A & B & _). auto.
  Qed.

  Lemma lstep_held d id i0 a g p a' g' p' : life d a g p -> lstep d a g p a' g' p' -> held d id g -> dget id p = Some i0 ->
    held d id g' /\ dget id p' = Some i0 /\ longer (text_of d (gs_ofile g)) (text_of d (gs_ofile g')).
  Proof.
    intros L S [[i Ei] [j Ej]] Ep. destruct (life_date d a g p L) as [Dd De]. destruct S as [a g p id' now code n st sd r a' g' Hn Hy NU NR E|a g p id'|a g p e He|a g p r u dr du Eu Er|a g p HC|a g p Hb|a g p].
    - destruct (acc_order_book gt _ _ _ _ _ _ _ _ _ _ _ E) as (_ & _ & Eg & _). cbn [anxin g_order] in Eg.
      pose proof (order_data go (new_order id' now code n st sd) g) as OD. cbv zeta in OD. rewrite <- Eg in OD. cbn [new_order o_id] in OD.
      pose proof (order_ofile (new_order id' now code n st sd) g) as OF. rewrite <- Eg, De in OF.
      assert (Hne : id <> id') by congruence.
      split; [|split; [|exact OF]].
      + destruct OD as [[O1 O2]|[O1 O2]]; unfold held; [rewrite O1, O2; eauto|].
        assert (K : exists i, dget id (gs_orders g') = Some i) by (rewrite O1, dget_dset_other by exact Hne; eauto).
        split; [exact K|]. destruct O2 as [-> | ->]; [eauto|]. rewrite Dd, data_after. exact K.
      + destruct (dget id' (gs_orders g')); [|exact Ep]. rewrite dget_dset_other by exact Hne. exact Ep.
    - rewrite acc_cancel_spec. cbv zeta. cbn [fst snd anxin g_cancel]. destruct (dmem id' (a_orders a)); [|split; [split; eauto|split; [exact Ep|apply longer_refl]]].
      unfold held. rewrite cancel_orders_of. unfold gate_cancel. destruct (write_line _ _ _ _ _). cbn. split; [split; eauto|]. split; [exact Ep|apply longer_refl].
    - split; [split; eauto|]. split; [exact Ep|apply longer_refl].
    - split; [split; eauto|]. split; [exact Ep|apply longer_refl].
    - rewrite sync_env_of. destruct (sync_keys id g i Ei) as [i' Ei']. split; [split; [eauto|]|split; [exact Ep|rewrite sync_ofile; apply longer_refl]].
      destruct (sync_data ptime f3 f4 go g) as [-> | ->]; [eauto|]. rewrite Dd, data_after. eauto.
    - assert (Sg : snd (acc_sync_balance gt a g) = g).
      { unfold acc_sync_balance. cbn [anxin g_sync_balance]. destruct (bal g) as [[b|e] g1]; cbn in Hb; subst g1; [|reflexivity].
        destruct (b_cash b), (b_pos b); reflexivity. }
      rewrite Sg. split; [split; eauto|]. split; [exact Ep|apply longer_refl].
    - assert (Eo : gs_orders (gate_setup true g) = data_of d (gs_data g)) by (cbn; rewrite De; reflexivity).
      split; [|split].
      + split; [rewrite Eo; eauto|]. cbn [gate_setup gs_data]. eauto.
      + rewrite (dget_filter (fun x => dmem x (gs_orders (gate_setup true g)))). rewrite Eo. unfold dmem. rewrite Ej. exact Ep.
      + apply longer_refl.
  Qed.

  (** what holds when order() returns *)
  Lemma placed_held d id code n st a g p now sd a' g' : life d a g p -> dget id p = None ->
    acc_order gt id now code n st sd a g = (Some id, a', g') ->
    held d id g' /\ dget id (gs_orders g') = Some (json (new_order id now code n st sd)) /\
    exists sym pre, encode code = Ok sym /\
      text_of d (gs_ofile g') = pre ++ join_with COMMA (order_fields go (ge_now (gs_env g)) (new_order id now code n st sd) sym) ++ go_eol go.
  Proof.
    intros L Hn E. destruct (life_date d a g p L) as [Dd De].
    destruct (acc_order_book gt _ _ _ _ _ _ _ _ _ _ _ E) as (_ & _ & Eg & Er). cbn [anxin g_order] in Eg, Er. set (o := new_order id now code n st sd) in *.
    destruct (gate_order go o g) as [r g2] eqn:G. cbn [fst snd] in Eg, Er. subst g2. destruct r as [[]|x]; [|discriminate].
    unfold gate_order in G. destruct (go_acct go) eqn:Ga; [discriminate|]. destruct (negb _); [discriminate|]. cbn [o new_order o_side o_code o_id] in G.
    destruct (encode code) as [sym|] eqn:Ec; [|discriminate]. rewrite De in G.
    destruct (write_line _ _ _ _ _) as [[[]|x] txt] eqn:W; [|discriminate]. apply write_ok in W.
    unfold save_orders in G. destruct (forallb _ _); [|discriminate]. destruct (ge_save _); [|discriminate]. injection G as <-. fold o.
    cbn [gs_orders gs_data set_data set_gorders set_ofile gs_ofile gs_day]. unfold held. cbn [gs_orders gs_data set_data set_gorders set_ofile gs_ofile gs_day].
    rewrite Dd, data_after, !dget_dset_same. split; [split; eauto|]. split; [reflexivity|]. rewrite text_same.
    exists sym. eexists. split; [reflexivity|]. unfold appended in W. rewrite app_assoc in W. exact W.
  Qed.
  Lemma new_order_for id now code n st sd : n <> 0 -> order_for id now code n st (new_order id now code n st sd).
  Proof.
    intro Hn. unfold order_for, new_order. cbn. repeat (split; [reflexivity|]). split; [|auto 10].
    destruct (Z.ltb_spec n 0); split; intro; try discriminate; try reflexivity; lia.
  Qed.
  Definition row_in (d : Z) (id code : str) (n : Z) (st : style) (g : gst) : Prop :=
    exists sym cols pre post, encode code = Ok sym /\ (n <> 0 -> order_columns id (go_acct go) (go_counter go) (go_algo go) sym n st cols) /\
      text_of d (gs_ofile g) = pre ++ join_with COMMA cols ++ go_eol go ++ post.
  Lemma since_inv d id code n st a g p : since d id code n st a g p ->
    held d id g /\ (exists now sd, dget id p = Some (json (new_order id now code n st sd))) /\ row_in d id code n st g.
  Proof.
    induction 1 as [a g p now sd a' g' L Hn Hy NU NR E|a g p a' g' p' S (H & (now & sd & P) & (sym & cols & pre & post & R1 & R2 & R3)) LS].
    - destruct (placed_held d id code n st a g p now sd a' g' L Hn E) as (H & G & sym & pre & R1 & R2).
      split; [exact H|]. split; [exists now, sd; rewrite G; apply dget_dset_same|].
      exists sym, (order_fields go (ge_now (gs_env g)) (new_order id now code n st sd) sym), pre, []. split; [exact R1|].
      split; [intro; eapply order_columns_ok; [apply new_order_for; assumption|assumption]|]. rewrite app_nil_r. exact R2.
    - destruct (lstep_held d id _ a g p a' g' p' (since_life _ _ _ _ _ _ _ _ S) LS H P) as (H' & P' & [x X]).
      split; [exact H'|]. split; [eauto|]. exists sym, cols, pre, (post ++ x). split; [exact R1|]. split; [exact R2|]. rewrite X, R3, <- !app_assoc. reflexivity.
  Qed.

  Lemma asked_of id now code n st sd o : same_order (json (new_order id now code n st sd)) o -> asked code n st o.
  Proof.
    unfold same_order, asked, json, new_order. cbn. intros (A & B & C & D). split; [exact A|]. split; [exact B|]. split; [|exact D].
    destruct (Z.ltb_spec n 0), (o_action o); split; intro; try reflexivity; try lia; try discriminate; exfalso; vm_compute in C; discriminate.
  Qed.
End Acked.

(** The row of an acknowledged order is in the order file at every later time of the day,
    whatever else happens, and the gate knows the order, also after any restart. *)
Theorem C142_kept :
  forall udigit sep ptime f3 f4 go bal d id code n st a g p,
    go_ignore go = true -> (forall s t, ptime s = Some t -> year4 t) ->
    since ptime f3 f4 go bal d id code n st a g p -> code_form udigit sep code -> n <> 0 ->
    (exists i, dget id (gs_orders g) = Some i) /\ (exists i, dget id (gs_orders (gate_setup true g)) = Some i) /\
    exists sym cols pre post, symbol_of code sym /\ order_columns id (go_acct go) (go_counter go) (go_algo go) sym n st cols /\
      text_of d (gs_ofile g) = pre ++ join_with COMMA cols ++ go_eol go ++ post.
Proof.
  intros udigit sep ptime f3 f4 go bal d id code n st a g p Hi Hpt S Hf Hn.
  destruct (since_inv ptime f3 f4 go bal Hpt Hi d id code n st a g p S) as ([H1 H2] & _ & (sym & cols & pre & post & R1 & R2 & R3)).
  destruct (life_date ptime f3 f4 go bal Hpt Hi d a g p (since_life _ _ _ _ _ _ _ _ _ _ _ _ _ S)) as [_ De].
  split; [exact H1|]. split; [cbn; rewrite De; exact H2|]. exists sym, cols, pre, post.
  destruct (encode_form _ _ _ Hf) as (dd & sym' & Es' & Hs & _). rewrite R1 in Es'. apply Ok_inj in Es'. subst sym'. auto.
Qed.
Print Assumptions C142_kept.

(** C142 asks for every history of the files.  Proved under the conditions of C36 on what the
    syncs see: from any such time on, a sync that succeeds shows the strategy the order as it
    asked for it, with what the broker's lines say of it. *)
Theorem C142_shown_partial :
  forall ptime f3 f4 go bal d id code n st a g p rt ut rs us l,
    go_ignore go = true -> (forall s t, ptime s = Some t -> year4 t) ->
    since ptime f3 f4 go bal d id code n st a g p ->
    dget d (gs_rfile g) = Some rt -> dget d (gs_ufile g) = Some ut ->
    calm 5 rt rs -> calm 19 ut us -> exclusive rs us ->
    fst (gate_sync_orders ptime f3 f4 go g) = Ok l ->
    exists o, recorded (fst (acc_sync_orders (anxin ptime f3 f4 go bal) a g)) id o /\ asked code n st o /\
      (forall pre u post s t q m c pz, us = pre ++ u :: post -> update_for id u -> (forall x, In x post -> ~ update_for id x) ->
         status_code (col 7 u) s -> ptime (col 1 u ++ col 2 u) = Some t -> py_int (col 11 u) = Some q ->
         f4 (col 13 u) = Some m -> py_int (col 14 u) = Some c -> f3 (col 12 u) = Some pz ->
         o_status o = s /\ o_filled o = q /\ o_canceled o = c /\ o_deal o = m /\ o_avg o = Some pz /\ o_confirm o = Some (col 15 u)) /\
      ((exists r, In r rs /\ reject_for id r) -> o_status o = Srejected) /\
      ((forall r, In r rs -> ~ reject_for id r) -> (forall u, In u us -> ~ update_for id u) -> o_status o = Snew /\ o_filled o = 0).
Proof.
  intros ptime f3 f4 go bal d id code n st a g p rt ut rs us l Hi Hpt S Hr Hu Cr Cu X Hok.
  destruct (since_inv ptime f3 f4 go bal Hpt Hi d id code n st a g p S) as (_ & (now & sd & P) & _).
  destruct (C68_shown_partial ptime f3 f4 go bal d a g p rt ut rs us l Hi Hpt (since_life _ _ _ _ _ _ _ _ _ _ _ _ _ S) Hr Hu Cr Cu X Hok id _ P) as (o & R & A & B).
  exists o. split; [exact R|]. split; [exact (asked_of id now code n st sd o A)|exact B].
Qed.
Print Assumptions C142_shown_partial.

(** After a sync that succeeds, the order can be cancelled: the row goes to the cancel file. *)
Theorem C142_cancel :
  forall ptime f3 f4 go bal d id code n st a g p l,
    go_ignore go = true -> (forall s t, ptime s = Some t -> year4 t) ->
    since ptime f3 f4 go bal d id code n st a g p ->
    fst (gate_sync_orders ptime f3 f4 go g) = Ok l -> ge_write (gs_env g) = WDone ->
    let gt := anxin ptime f3 f4 go bal in
    let s1 := acc_sync_orders gt a g in
    let s2 := acc_cancel gt id (fst s1) (snd s1) in
    exists stamp pre, numeral stamp /\ text_of d (gs_cfile (snd s2)) = text_of d (gs_cfile g) ++ pre ++ join_with COMMA [stamp; id] ++ go_eol go.
Proof.
  intros ptime f3 f4 go bal d id code n st a g p l Hi Hpt S Hok Hw gt s1 s2.
  pose proof (since_life _ _ _ _ _ _ _ _ _ _ _ _ _ S) as L.
  destruct (since_inv ptime f3 f4 go bal Hpt Hi d id code n st a g p S) as ([[i Hi0] _] & _ & _).
  destruct (sync_keys ptime f3 f4 go id g i Hi0) as [j Hj].
  destruct (sync_shows ptime f3 f4 go bal Hpt Hi d a g p l id j L Hok Hj) as (o & (r & R & _) & _).
  unfold s2. rewrite acc_cancel_spec. cbv zeta. assert (K : dmem id (a_orders (fst s1)) = true) by (unfold dmem; fold gt in R; fold s1 in R; rewrite R; reflexivity).
  rewrite K. cbn [snd gt anxin g_cancel].
  assert (Sg : snd s1 = snd (gate_sync_orders ptime f3 f4 go g)) by apply sync_env_of. rewrite Sg.
  assert (Q : gs_env (snd (gate_sync_orders ptime f3 f4 go g)) = gs_env g /\ gs_cfile (snd (gate_sync_orders ptime f3 f4 go g)) = gs_cfile g).
  { unfold gate_sync_orders. destruct (dget _ (gs_ufile g)) as [ut|]; [|auto]. destruct (dget _ (gs_rfile g)) as [rt|]; [|auto].
    destruct (read_file go result_line rt (gs_roff g) (gs_orders g)) as [[[x1|] roff] o1]; [split; reflexivity|].
    destruct (read_file go (update_line ptime f3 f4) ut _ o1) as [[[x2|] uoff] o2]; [split; reflexivity|].
    set (g2 := set_uread _ _ _). destruct (save_orders_spec g2) as (r' & Hf & Hsn). destruct (save_orders g2) as [r2 g3]. cbn [fst snd] in *. subst r2 g3.
    destruct r'; split; reflexivity. }
  destruct Q as [Q1 Q2]. destruct (life_date ptime f3 f4 go bal Hpt Hi d a g p L) as [_ De].
  unfold gate_cancel. rewrite Q1, Q2, De, Hw, write_done. cbn [snd set_cfile gs_cfile]. rewrite text_same.
  exists (fmt_stamp (ge_now (gs_env g))). eexists. split; [apply stamp_numeral|]. reflexivity.
Qed.
Print Assumptions C142_cancel.

(** Without such a sync it is false.  After a restart, as long as no sync has succeeded (the
    broker's files are not there yet, or syncing is switched off), an acknowledged order is
    not shown, and cancelling it does nothing at all. *)
Theorem C142_restart_refuted :
  forall ptime f3 f4 go bal d id code n st a g p, since ptime f3 f4 go bal d id code n st a g p ->
    let gt := anxin ptime f3 f4 go bal in
    let g' := gate_setup true g in
    since ptime f3 f4 go bal d id code n st acct_new g' (filter (fun kv => dmem (fst kv) (gs_orders g')) p) /\
    (forall o, ~ recorded acct_new id o) /\ acc_cancel gt id acct_new g' = (acct_new, g') /\
    (dget d (gs_ufile g) = None -> go_ignore go = true -> (forall s t, ptime s = Some t -> year4 t) ->
       let s1 := acc_sync_orders gt acct_new g' in (forall o, ~ recorded (fst s1) id o) /\ acc_cancel gt id (fst s1) (snd s1) = s1).
Proof.
  intros ptime f3 f4 go bal d id code n st a g p S gt g'.
  assert (N : forall o, ~ recorded acct_new id o) by (intros o (r & K & _); discriminate K).
  split; [eapply si_later; [exact S|apply ls_restart]|]. split; [exact N|]. split; [reflexivity|]. intros Hu Hi Hpt s1.
  destruct (life_date ptime f3 f4 go bal Hpt Hi d a g p (since_life _ _ _ _ _ _ _ _ _ _ _ _ _ S)) as [_ De].
  assert (E : s1 = (acct_new, g')).
  { unfold s1, acc_sync_orders. cbn [gt anxin g_sync_orders]. unfold gate_sync_orders. replace (dget (gs_day g') (gs_ufile g')) with (@None str); [reflexivity|].
    cbn [g' gate_setup gs_day gs_ufile]. rewrite De. symmetry. exact Hu. }
  rewrite E. cbn [fst snd]. split; [exact N|reflexivity].
Qed.
Print Assumptions C142_restart_refuted.

(** ** Example: a sale of 300, reported filled in part; the process restarts *)
Definition ak_code : str := lit "600000.XSHG".
Lemma ak_since : exists p, since life_ptime demo_f3 demo_f4 demo_go no_bal 19000 (lit "77") ak_code (-300) (Limit (PNum (lit "10.5"))) acct_new (gate_setup true life_g2) p.
Proof.
  eexists. eapply si_later; [|apply ls_restart]. eapply si_later.
  - eapply (si_placed life_ptime demo_f3 demo_f4 demo_go no_bal 19000 (lit "77") ak_code (-300) (Limit (PNum (lit "10.5"))) acct_new demo_g0 [] life_now Long life_a1 life_g1).
    + apply l_start; reflexivity.
    + reflexivity.
    + vm_compute. split; discriminate.
    + intros x [].
    + intros x [].
    + vm_compute. reflexivity.
  - apply (ls_grow life_ptime demo_f3 demo_f4 demo_go no_bal 19000 life_a1 life_g1 _ _ _ [] (u_open ++ u_else ++ u_part ++ half)); [vm_compute; reflexivity|reflexivity].
Qed.
Example C142_demo :
  let g := gate_setup true life_g2 in
  let s1 := acc_sync_orders life_gate acct_new g in
  (exists l, fst (gate_sync_orders life_ptime demo_f3 demo_f4 demo_go g) = Ok l) /\ ge_write (gs_env g) = WDone /\
  text_of 19000 (gs_ofile g) = order_header ++ eol_posix ++ nl "093000.000000,77,UM0,8888,600000.SH,2,300,DMA,AT,0,10.5,10.5" /\
  option_map (fun o => (o_code o, o_amount o, o_action o, o_status o, o_filled o)) (local_order (lit "77") (fst s1)) = Some (ak_code, 300, Close, Sfilling, 100) /\
  text_of 19000 (gs_cfile (snd (acc_cancel life_gate (lit "77") (fst s1) (snd s1)))) = cancel_header ++ eol_posix ++ nl "093000.000000,77" /\
  text_of 19000 (gs_cfile (snd (acc_cancel life_gate (lit "77") acct_new g))) = [].
Proof.
  cbv zeta. split; [eexists; vm_compute; reflexivity|]. split; [reflexivity|]. split; [vm_compute; reflexivity|]. split; [vm_compute; reflexivity|]. split; vm_compute; reflexivity.
Qed.
