(** Lemmas for C68. *)
From Verif Require Import PyBase PyStr LStr SDate MTime MDate LDate LDate2 MOrder MAccount MApi SAccount LAccount LAccount2
  MGate SGate LGate LGate2 LGate3 LGate4 SLife LSync LSync2.
Open Scope Z_scope.

(** ** reports that can be loaded *)
Definition all_load (o : dict str oinfo) : Prop := forall k i, dget k o = Some i -> loadable i.
(** an assignment that keeps a report loadable *)
Definition eff_ok (e : eff) : Prop :=
  (forall s, e_st e = Some s -> exists st, s = status_str st) /\
  (forall s, e_en e = Some s -> exists t, s = fmt_dt t /\ date_ok (dt_date t)).
Lemma loads_apply e i : eff_ok e -> loadable i -> loadable (apply e i).
Proof.
  intros [E1 E2] [o (A & B)]. destruct A as (A1 & A2 & A3 & A4 & A5 & A6 & A7).
  destruct B as (B1 & B2 & B3 & B4 & B5 & B6 & B7 & B8 & B9 & B10).
  pose (i' := apply e i). fold i'. assert (F := apply_fields e i). fold i' in F.
  assert (S : exists st, status_str st = i_status i').
  { rewrite F. cbn. destruct (e_st e) as [s|] eqn:Es; [|eauto]. destruct (E1 s eq_refl) as [st ->]. eauto. }
  assert (N : exists en, entrust_as (i_entrust i') en).
  { rewrite F. cbn. destruct (e_en e) as [s|] eqn:Es; [|eauto]. destruct (E2 s eq_refl) as (t & -> & Ht). cbn [later].
    exists (Some t). unfold entrust_as. destruct (fmt_dt t) as [|c x] eqn:Ef; [destruct (fmt_dt_nonempty t Ef)|].
    rewrite <- Ef. apply parse_dt_iff, parse_fmt_dt, Ht. }
  destruct S as [st Hst], N as [en Hen].
  exists (Order (i_code i') (i_price i') (i_amount i') (o_action o) (i_id i') st (o_style o) (o_create o) en (o_side o)
            (i_confirm i') (dfl (i_filled i') 0) (dfl (i_canceled i') 0) (dfl (i_deal i') 0) (i_avg i') (dfl (i_comm i') 0) (dfl (i_err i') [])).
  unfold denotes, agrees; cbn. replace (i_action i') with (i_action i) by (rewrite F; reflexivity).
  replace (i_style i') with (i_style i) by (rewrite F; reflexivity). replace (i_price i') with (i_price i) by (rewrite F; reflexivity).
  replace (i_create i') with (i_create i) by (rewrite F; reflexivity). replace (i_side i') with (i_side i) by (rewrite F; reflexivity).
  auto 20.
Qed.

(** ** what stays of a report *)
Definition statics (i j : oinfo) : Prop :=
  i_code j = i_code i /\ i_amount j = i_amount i /\ i_action j = i_action i /\ i_price j = i_price i /\ i_id j = i_id i.
Lemma statics_apply e i : statics i (apply e i).
Proof. rewrite apply_fields. unfold statics. cbn. auto. Qed.
Lemma statics_trans i j k : statics i j -> statics j k -> statics i k.
Proof. unfold statics. intuition congruence. Qed.
Definition grown (o o' : dict str oinfo) : Prop := forall k i', dget k o' = Some i' -> exists i, dget k o = Some i /\ statics i i'.
Lemma grown_refl o : grown o o.
Proof. intros k i H. exists i. split; [exact H|]. unfold statics. auto. Qed.
Lemma grown_apply o0 id o i e : grown o0 o -> dget id o = Some i -> grown o0 (dset id (apply e i) o).
Proof.
  intros H E k i'. rewrite dget_dset. destruct (eqb_spec k id) as [->|]; [|apply H]. intro Q. injection Q as <-.
  destruct (H _ _ E) as (i0 & K1 & K2). exists i0. split; [exact K1|]. eapply statics_trans; [exact K2|apply statics_apply].
Qed.

Section Sync.
  Context (ptime f3 f4 : str -> option Z) (go : gopts)
          (Hpt : forall s t, ptime s = Some t -> year4 t).

  Lemma eff_update_ok u : eff_ok (eff_update ptime f3 f4 u).
  Proof.
    unfold eff_update. destruct (parse_status (ul_status u)) as [st|]; [|split; intros s H; discriminate H].
    destruct (ptime (ul_date u ++ ul_time u)) as [t|] eqn:Et.
    - assert (D : date_ok (dt_date t)) by (apply Hpt in Et; exact Et).
      destruct (py_int (ul_filled u)); [destruct (f4 (ul_amt u)); [destruct (py_int (ul_cancel u)); [destruct (f3 (ul_avg u))|]|]|];
        split; cbn; intros s0 H0; injection H0 as <-; eauto.
    - split; cbn; intros s0 H0; [injection H0 as <-; eauto|discriminate H0].
  Qed.
  Lemma update_loads : step_ok (update_line ptime f3 f4) all_load.
  Proof.
    intros l o Ho. unfold update_line. destruct (strip l); [exact I|]. destruct (startswith _ _); [exact Ho|].
    destruct (Nat.ltb _ _); [exact I|]. destruct (uline_of _) as [u|]; [|exact Ho].
    destruct (dget (ul_id u) o) as [i|] eqn:E; [|exact I].
    assert (K : all_load (dset (ul_id u) (apply (eff_update ptime f3 f4 u) i) o)).
    { intros k j. rewrite dget_dset. destruct (eqb k (ul_id u)); [|apply Ho]. intro Q. injection Q as <-.
      apply loads_apply; [apply eff_update_ok|apply (Ho _ _ E)]. }
    pose proof (update_order_eff ptime f3 f4 u i) as X. destruct (update_order ptime f3 f4 u i) as [i' [x|]]; cbn in X; subst i'; exact K.
  Qed.
  Lemma result_loads : step_ok result_line all_load.
  Proof.
    intros l o Ho. unfold result_line. destruct (strip l); [exact I|]. destruct (startswith _ _); [exact Ho|].
    destruct (columns _) as [|a [|b [|c [|d [|e [|f [|g r]]]]]]]; cbn [length Nat.ltb Nat.leb]; try exact I; try exact Ho.
    destruct (str_eqb b (lit "1") && str_eqb d (lit "1")); [|exact Ho]. destruct (dget c o) as [i|] eqn:E; [|exact Ho].
    intros k j. rewrite dget_dset. destruct (eqb k c); [|apply Ho]. intro Q. injection Q as <-.
    apply (loads_apply (Eff (Some (status_str Srejected)) None None (Some f) None None None None)); [|apply (Ho _ _ E)].
    split; cbn [e_st e_en]; intros s1 H1; [injection H1 as <-; exists Srejected; reflexivity|discriminate H1].
  Qed.
  Notation sync := (gate_sync_orders ptime f3 f4 go).
  Lemma sync_loads g : all_load (gs_orders g) -> all_load (gs_orders (snd (sync g))).
  Proof.
    intro H. unfold gate_sync_orders. destruct (dget _ (gs_ufile g)) as [ut|]; [|exact H]. destruct (dget _ (gs_rfile g)) as [rt|]; [|exact H].
    pose proof (read_file_keeps go result_line all_load rt (gs_roff g) (gs_orders g) result_loads H) as H1.
    destruct (read_file go result_line rt (gs_roff g) (gs_orders g)) as [[x1 roff] o1]. cbn in H1. destruct x1; [exact H1|].
    cbn [set_rread gs_uoff].
    pose proof (read_file_keeps go (update_line ptime f3 f4) all_load ut (gs_uoff g) o1 update_loads H1) as H2.
    destruct (read_file go (update_line ptime f3 f4) ut (gs_uoff g) o1) as [[x2 uoff] o2]. cbn in H2. destruct x2; [exact H2|].
    set (g2 := set_uread _ _ _). pose proof (save_orders_files g2) as (S & _). destruct (save_orders g2) as [[u|x] g3]; cbn in *; rewrite S; exact H2.
  Qed.
  (** the saved orders are either the old ones or the current ones *)
  Lemma sync_data g : gs_data (snd (sync g)) = gs_data g \/
    gs_data (snd (sync g)) = dset (gs_day g) (gs_orders (snd (sync g))) (gs_data g).
  Proof.
    unfold gate_sync_orders. destruct (dget _ (gs_ufile g)) as [ut|]; [|auto]. destruct (dget _ (gs_rfile g)) as [rt|]; [|auto].
    destruct (read_file go result_line rt (gs_roff g) (gs_orders g)) as [[[x1|] roff] o1]; [left; reflexivity|].
    destruct (read_file go (update_line ptime f3 f4) ut _ o1) as [[[x2|] uoff] o2]; [left; reflexivity|].
    set (g2 := set_uread _ _ _). destruct (save_orders_spec g2) as (r & Hf & Hsn). destruct (save_orders g2) as [r' g3]. cbn [fst snd] in *. subst r' g3.
    destruct r; cbn; auto.
  Qed.
  Lemma order_data o g : let g' := snd (gate_order go o g) in
    (gs_orders g' = gs_orders g /\ gs_data g' = gs_data g) \/
    (gs_orders g' = dset (o_id o) (json o) (gs_orders g) /\
     (gs_data g' = gs_data g \/ gs_data g' = dset (gs_day g) (gs_orders g') (gs_data g))).
  Proof.
    cbv zeta. unfold gate_order. destruct (go_acct go); [auto|]. destruct (negb _); [auto|]. destruct (o_side o); [|auto].
    destruct (encode _); [|auto]. destruct (write_line _ _ _ _ _) as [[[]|x] txt]; [|auto].
    set (g1 := set_gorders _ _). destruct (save_orders_spec g1) as (r & Hf & Hsn). destruct (save_orders g1) as [r' g3]. cbn [fst snd] in *. subst r' g3.
    right. destruct r; cbn; auto.
  Qed.
End Sync.

(** an order the account creates is reported as itself *)
Lemma new_loads id now code n st sd : year4 now -> loadable (json (new_order id now code n st sd)).
Proof.
  intro H. apply loadable_iff. exists (new_order id now code n st sd). apply load_json; [reflexivity|exact H|discriminate].
Qed.

(** where a recorded order comes from *)
Lemma sync_all_from l : forall a id o, book_ok a -> recorded (sync_all l a) id o ->
  recorded a id o \/ exists i, In i l /\ i_id i = id /\ load i = Ok o.
Proof.
  induction l as [|i l IH]; intros a id o HB H; cbn [sync_all] in H; [left; exact H|].
  destruct (sync_one i a) as [a1|] eqn:E; [|left; exact H]. destruct (sync_one_ok _ _ _ E HB) as [B1 _].
  destruct (IH a1 id o B1 H) as [K|(j & J1 & J2 & J3)]; [|right; exists j; split; [right; exact J1|auto]].
  destruct (sync_one_spec _ _ _ HB E) as [_ Ot]. apply local_recorded in K.
  destruct (str_eqb_spec id (i_id i)) as [->|Hn]; [|left; apply local_recorded; rewrite <- Ot by exact Hn; exact K].
  unfold sync_one in E. destruct (load i) as [rem|] eqn:L; cbn [rbind] in E; [|discriminate].
  assert (Kst : forall b, same_book (store (i_id i) rem a) b -> local_order (i_id i) b = Some rem).
  { intros b S. rewrite (same_book_local _ _ _ S). apply local_recorded, recorded_store_same. }
  destruct (local_order (i_id i) a) as [l0|] eqn:El.
  - destruct (same rem l0) eqn:Es; apply Ok_inj in E; subst a1.
    + left. apply local_recorded. rewrite El in K. congruence.
    + rewrite Kst in K by (destruct (notice_for l0 rem); split; reflexivity). injection K as <-.
      right. exists i. split; [left; reflexivity|auto].
  - apply Ok_inj in E; subst a1. rewrite Kst in K by (split; reflexivity). injection K as <-.
    right. exists i. split; [left; reflexivity|auto].
Qed.

(** ** the invariant of a life *)
Section Life.
  Context (ptime f3 f4 : str -> option Z) (go : gopts) (bal : gst -> res binfo * gst)
          (Hpt : forall s t, ptime s = Some t -> year4 t) (Hi : go_ignore go = true).
  Notation gt := (anxin ptime f3 f4 go bal).
  Notation sync := (gate_sync_orders ptime f3 f4 go).

  Definition good (o : dict str oinfo) : Prop := own_ids o /\ all_load o.
  Definition matches (a : acct) (g : gst) : Prop :=
    forall id o i, recorded a id o -> dget id (gs_orders g) = Some i -> same_order i o.
  Definition LInv (d : Z) (a : acct) (g : gst) (p : dict str oinfo) : Prop :=
    hist ptime f3 f4 go d g p /\ book_ok a /\ good (gs_orders g) /\ good (data_of d (gs_data g)) /\ matches a g.

  Lemma good_nil : good [].
  Proof. split; [split; [constructor|]|]; intros k i H; discriminate H. Qed.
  Lemma good_order o od : loadable (json o) -> good od -> good (dset (o_id o) (json o) od).
  Proof.
    intros L [[N K] A]. split; [split; [apply NoDup_dset, N|]|]; intros k j; rewrite dget_dset;
      destruct (eqb_spec k (o_id o)) as [->|]; try apply K; try apply A; intro Q; injection Q as <-; [reflexivity|exact L].
  Qed.
  Lemma same_order_statics i j o : statics i j -> same_order i o -> same_order j o.
  Proof. unfold statics, same_order. intros (A & B & C & D & _) (E & F & G & H). rewrite A, B, C, D. auto. Qed.
  Lemma hist_day d g p : hist ptime f3 f4 go d g p -> gs_day g = d.
  Proof. intro H. apply (hist_inv ptime f3 f4 go d g p Hi H). Qed.
  Lemma recorded_same a b id o : same_book a b -> recorded b id o -> recorded a id o.
  Proof. intros S H. apply local_recorded in H. apply local_recorded. rewrite <- (same_book_local a b id S). exact H. Qed.
  Lemma sync_grown g : grown (gs_orders g) (gs_orders (snd (sync g))).
  Proof. apply (sync_orders_of ptime f3 f4 go g (grown (gs_orders g))); [|apply grown_refl]. intros; apply grown_apply; assumption. Qed.
  Lemma data_after d v (f : dict Z (dict str oinfo)) : data_of d (dset d v f) = v.
  Proof. unfold data_of. rewrite dget_dset_same. reflexivity. Qed.
  Lemma own_after g : own_ids (gs_orders g) -> own_ids (gs_orders (snd (sync g))).
  Proof. intro H. exact (own_steps go ptime f3 f4 [GOSync] g H). Qed.

  Lemma life_inv d a g p : life ptime f3 f4 go bal d a g p -> LInv d a g p.
  Proof.
    induction 1 as [g H1 H2 H3 H4 H5 H6|a g p id now code n st sd r a' g' H IH Hn Hy NU NR E|a g p id H IH|a g p e H IH He
                   |a g p r u dr du H IH Eu Er|a g p H IH HC|a g p H IH Hb|a g p H IH].
    - split; [apply h_start; assumption|]. split; [split; [constructor|intros k r K; discriminate K]|].
      rewrite H3. unfold data_of. rewrite H6. split; [apply good_nil|]. split; [apply good_nil|].
      intros id o i (r & K & _). discriminate K.
    - destruct IH as (IH1 & IH2 & IH3 & IH4 & IH5).
      destruct (acc_order_book gt _ _ _ _ _ _ _ _ _ _ _ E) as (S & _ & Eg & _). cbn [anxin g_order] in Eg.
      set (o := new_order id now code n st sd) in *. assert (L : loadable (json o)) by (apply new_loads, Hy).
      assert (Hno : dget id (gs_orders g) = None).
      { destruct (hist_inv ptime f3 f4 go d g p Hi IH1) as (_ & _ & Rr & Ru & _ & _ & _ & _ & _ & HO & _). rewrite HO, Hn. reflexivity. }
      assert (B' : book_ok a') by (apply (acc_order_ok gt _ _ _ _ _ _ _ _ _ _ _ E IH2)).
      assert (HH : hist ptime f3 f4 go d g' (match dget id (gs_orders g') with Some i => dset id i p | None => p end)).
      { subst g'. apply (h_order ptime f3 f4 go d g p o IH1 Hn NU NR). }
      assert (R' : forall k x, recorded a' k x -> (k = id /\ x = o) \/ (k <> id /\ recorded a k x)).
      { intros k x Hx. apply (recorded_same _ _ _ _ S) in Hx. destruct (eqb_spec k id) as [->|Hk].
        - left. split; [reflexivity|]. apply local_recorded in Hx. rewrite (proj2 (local_recorded _ _ _) (recorded_store_same id o a)) in Hx. congruence.
        - right. split; [exact Hk|]. apply local_recorded in Hx. rewrite local_store_other in Hx by assumption. apply local_recorded, Hx. }
      assert (D := hist_day d g p IH1). pose proof (order_data go o g) as OD. cbv zeta in OD. rewrite <- Eg in OD.
      change (o_id o) with id in OD.
      destruct OD as [[O1 O2]|[O1 O2]].
      + split; [exact HH|]. split; [exact B'|]. rewrite O1, O2. split; [exact IH3|]. split; [exact IH4|].
        intros k x i Hx Hk. rewrite O1 in Hk. destruct (R' k x Hx) as [[-> ->]|[_ Hx']]; [congruence|apply (IH5 k x i Hx' Hk)].
      + assert (G' : good (gs_orders g')) by (rewrite O1; apply (good_order o (gs_orders g) L IH3)).
        split; [exact HH|]. split; [exact B'|]. split; [exact G'|]. split.
        * destruct O2 as [-> | ->]; [exact IH4|]. rewrite D, data_after. exact G'.
        * intros k x i Hx Hk. rewrite O1, dget_dset in Hk. destruct (R' k x Hx) as [[-> ->]|[Hne Hx']].
          -- rewrite eqb_refl in Hk. injection Hk as <-. unfold same_order. cbn. auto.
          -- destruct (eqb_spec k id); [contradiction|]. apply (IH5 k x i Hx' Hk).
    - destruct IH as (IH1 & IH2 & IH3 & IH4 & IH5). rewrite acc_cancel_spec. cbv zeta. cbn [fst snd anxin g_cancel].
      destruct (dmem id (a_orders a)).
      + split; [apply h_cancel, IH1|]. split; [exact IH2|].
        replace (gs_orders (snd (gate_cancel go id g))) with (gs_orders g) by (symmetry; apply cancel_orders_of).
        replace (gs_data (snd (gate_cancel go id g))) with (gs_data g)
          by (unfold gate_cancel; destruct (write_line _ _ _ _ _); reflexivity).
        split; [exact IH3|]. split; [exact IH4|]. intros k x i Hx Hk. rewrite cancel_orders_of in Hk. exact (IH5 k x i Hx Hk).
      + repeat (split; [assumption|]). assumption.
    - destruct IH as (IH1 & IH2 & IH3). split; [apply h_env; assumption|]. split; [exact IH2|exact IH3].
    - destruct IH as (IH1 & IH2 & IH3). split; [eapply h_grow; eassumption|]. split; [exact IH2|exact IH3].
    - destruct IH as (IH1 & IH2 & IH3 & IH4 & IH5).
      assert (G' : good (gs_orders (snd (sync g)))).
      { split; [apply own_after, IH3|apply (sync_loads ptime f3 f4 go Hpt g), IH3]. }
      assert (Sg : snd (acc_sync_orders gt a g) = snd (sync g)).
      { unfold acc_sync_orders. cbn [anxin g_sync_orders]. destruct (sync g) as [[l|] g']; reflexivity. }
      rewrite Sg. split; [apply h_sync; assumption|]. split; [apply (sync_orders_ok gt a g IH2)|]. split; [exact G'|]. split.
      + destruct (sync_data ptime f3 f4 go g) as [-> | ->]; [exact IH4|]. rewrite (hist_day d g p IH1), data_after. exact G'.
      + intros k x i Hx Hk.
        assert (Old : recorded a k x -> same_order i x).
        { intro K. destruct (sync_grown g k i Hk) as (i0 & K1 & K2). eapply same_order_statics; [exact K2|]. apply (IH5 k x i0 K K1). }
        unfold acc_sync_orders in Hx. cbn [anxin g_sync_orders] in Hx. destruct (sync g) as [[l|e] g1] eqn:Es; cbn [fst snd] in *; [|apply Old, Hx].
        destruct (sync_all_from l a k x IH2 Hx) as [K|(j & J1 & J2 & J3)]; [apply Old, K|].
        rewrite (sync_list go ptime f3 f4 g l g1 Es) in J1.
        apply load_iff in J3. destruct J3 as (_ & C1 & C2 & C3 & _ & C4 & _).
        assert (j = i); [|subst j; unfold same_order; auto].
        destruct G' as [[N K] _]. unfold dvals in J1. apply in_map_iff in J1. destruct J1 as ([k' j'] & Q1 & Q2). cbn in Q1. subst j'.
        apply (In_dget k' j (gs_orders g1) N) in Q2. pose proof (K _ _ Q2) as Q3. congruence.
    - destruct IH as (IH1 & IH2 & IH3 & IH4 & IH5).
      assert (Sg : snd (acc_sync_balance gt a g) = g).
      { unfold acc_sync_balance. cbn [anxin g_sync_balance]. destruct (bal g) as [[b|e] g1]; cbn in Hb; subst g1; [|reflexivity].
        destruct (b_cash b), (b_pos b); reflexivity. }
      rewrite Sg. destruct (sync_balance_book gt a g) as [S _]. split; [exact IH1|]. split; [eapply same_book_ok; eassumption|].
      split; [exact IH3|]. split; [exact IH4|]. intros k x i Hx. apply IH5, (recorded_same _ _ _ _ S Hx).
    - destruct IH as (IH1 & IH2 & IH3 & IH4 & IH5).
      destruct (hist_inv ptime f3 f4 go d g p Hi IH1) as (_ & Hd & _).
      split; [apply h_restart, IH1|]. split; [split; [constructor|intros k r K; discriminate K]|].
      cbn [g' gate_setup gs_orders gs_data]. rewrite Hd. split; [exact IH4|]. split; [exact IH4|].
      intros id o i (r & K & _). discriminate K.
  Qed.

  (** the account after a sync holds every order of the gate *)
  Lemma sync_shows d a g p l id i : life ptime f3 f4 go bal d a g p -> fst (sync g) = Ok l ->
    dget id (gs_orders (snd (sync g))) = Some i ->
    exists o, recorded (fst (acc_sync_orders gt a g)) id o /\ agrees i o.
  Proof.
    intros H Hl Hd. destruct (life_inv d a g p H) as (_ & HB & HG & _ & _).
    destruct (sync g) as [x g1] eqn:Es. cbn [fst snd] in *. subst x.
    assert (N := own_after g (proj1 HG)). rewrite Es in N. cbn [snd] in N.
    assert (A := sync_loads ptime f3 f4 go Hpt g (proj2 HG)). rewrite Es in A. cbn [snd] in A.
    unfold acc_sync_orders. cbn [anxin g_sync_orders]. rewrite Es. cbn [fst].
    rewrite (sync_list go ptime f3 f4 g l g1 Es).
    assert (FL : Forall loadable (dvals (gs_orders g1))).
    { apply Forall_forall. intros j Hj. unfold dvals in Hj. apply in_map_iff in Hj. destruct Hj as ([k j'] & Q & Hj). cbn in Q. subst j'.
      apply (A k), In_dget; [apply N|exact Hj]. }
    assert (Hin : In i (dvals (gs_orders g1))).
    { apply dget_In in Hd. unfold dvals. apply in_map_iff. exists (id, i). auto. }
    apply in_split in Hin. destruct Hin as (pre & post & Sp). rewrite Sp in *.
    assert (ND := own_NoDup _ N). rewrite Sp, map_app in ND. cbn [map] in ND. apply NoDup_remove_2 in ND.
    destruct (sync_all_agrees pre i post a HB FL) as (o & K1 & K2); [intro Q; apply ND, in_or_app; right; exact Q|].
    exists o. split; [|exact K2]. apply local_recorded. rewrite <- (proj2 N _ _ Hd). exact K1.
  Qed.
End Life.

(** ** orders as submitted, and what result lines do to them *)
Section Fresh.
  Context (ptime f3 f4 : str -> option Z) (go : gopts) (bal : gst -> res binfo * gst)
          (Hpt : forall s t, ptime s = Some t -> year4 t) (Hi : go_ignore go = true).
  Lemma life_new d a g p : life ptime f3 f4 go bal d a g p ->
    forall id i, dget id p = Some i -> i_status i = status_str Snew /\ i_filled i = Some 0.
  Proof.
    induction 1 as [g H1 H2 H3 H4 H5 H6|a g p id now code n st sd r a' g' H IH Hn Hy NU NR E|a g p id H IH|a g p e H IH He
                   |a g p r u dr du H IH Eu Er|a g p H IH HC|a g p H IH Hb|a g p H IH]; intros k i Hk; try (apply (IH k i Hk)).
    - discriminate Hk.
    - destruct (dget id (gs_orders g')) as [j|] eqn:Ej; [|apply (IH k i Hk)]. rewrite dget_dset in Hk.
      destruct (eqb_spec k id) as [->|]; [|apply (IH k i Hk)]. injection Hk as <-.
      destruct (acc_order_book (anxin ptime f3 f4 go bal) _ _ _ _ _ _ _ _ _ _ _ E) as (_ & _ & Eg & _). cbn [anxin g_order] in Eg.
      destruct (life_inv ptime f3 f4 go bal Hpt Hi d a g p H) as (Hh & _).
      destruct (hist_inv ptime f3 f4 go d g p Hi Hh) as (_ & _ & Rr & Ru & _ & _ & _ & _ & _ & HO & _).
      pose proof (HO id) as HO'. rewrite Hn in HO'. cbn in HO'.
      pose proof (order_data go (new_order id now code n st sd) g) as OD. cbv zeta in OD. rewrite <- Eg in OD. cbn [new_order o_id] in OD.
      destruct OD as [[O1 _]|[O1 _]]; rewrite O1 in Ej; [congruence|]. rewrite dget_dset_same in Ej. injection Ej as <-. split; reflexivity.
    - cbv zeta in Hk. rewrite (dget_filter (fun x => dmem x (gs_orders g'))) in Hk. destruct (dmem k (gs_orders g')); [|discriminate Hk]. apply (IH k i Hk).
  Qed.
  Lemma rtarget_rejects l id e i : rtarget l = Some (id, e) -> i_status (apply e i) = status_str Srejected.
  Proof.
    unfold rtarget. destruct (startswith _ _); [discriminate|].
    destruct (columns _) as [|c0 [|c1 [|c2 [|c3 [|c4 [|c5 [|c6 r]]]]]]]; try discriminate.
    destruct (str_eqb c1 (lit "1") && str_eqb c3 (lit "1")); [|discriminate]. intro H. injection H as _ <-. rewrite apply_fields. reflexivity.
  Qed.
  Lemma rejected_by rs : forall id r i, In r rs -> reject_for id r -> i_status (all_on rtarget id rs i) = status_str Srejected.
  Proof.
    induction rs as [|l rs IH] using rev_ind; intros id r i Hr Hj; [destruct Hr|].
    rewrite all_on_app. unfold all_on at 1. cbn [fold_left]. unfold on at 1.
    apply in_app_or in Hr. destruct Hr as [Hr|[->|[]]].
    - destruct (rtarget l) as [[k e]|] eqn:E; [|apply (IH id r i Hr Hj)].
      destruct (eqb k id); [apply (rtarget_rejects l k e _ E)|apply (IH id r i Hr Hj)].
    - apply rtarget_iff in Hj. destruct Hj as [e He]. rewrite He, eqb_refl. apply (rtarget_rejects r id e _ He).
  Qed.
End Fresh.
