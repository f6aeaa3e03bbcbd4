(** Histories of the AnXin gate on one day: orders, growing broker files, syncs and restarts. *)
From Verif Require Import PyBase PyStr LStr MTime MDate MOrder MAccount MGate SGate LGate LGate2.
Open Scope Z_scope.

Lemma dget_filter {V} (f : str -> bool) k (d : dict str V) :
  dget k (filter (fun kv => f (fst kv)) d) = if f k then dget k d else None.
Proof.
  induction d as [|[k' v] d IH]; cbn [filter]; [destruct (f k); reflexivity|]. cbn [fst].
  destruct (f k') eqn:E; cbn [dget]; destruct (eqb_spec k k') as [->|Hne]; rewrite ?IH, ?E; auto.
Qed.

Section History.
  Context (ptime f3 f4 : str -> option Z) (go : gopts).
  Notation sync := (gate_sync_orders ptime f3 f4 go).

  (** [hist d g p]: [g] was reached on day [d]; [p] holds the orders as they were submitted *)
  Inductive hist (d : Z) : gst -> dict str oinfo -> Prop :=
  | h_start g : gs_day g = d -> ge_date (gs_env g) = d -> gs_orders g = [] -> gs_uoff g = 0%nat -> gs_roff g = 0%nat ->
      dget d (gs_data g) = None -> hist d g []
  | h_order g p o : hist d g p -> dget (o_id o) p = None ->
      (* the broker does not report an order before it was submitted *)
      (forall l, In l (lines_of (text_of d (gs_ufile g))) -> whole l -> ~ update_for (o_id o) l) ->
      (forall l, In l (lines_of (text_of d (gs_rfile g))) -> whole l -> ~ reject_for (o_id o) l) ->
      hist d (snd (gate_order go o g))
        (match dget (o_id o) (gs_orders (snd (gate_order go o g))) with Some i => dset (o_id o) i p | None => p end)
  | h_cancel g p id : hist d g p -> hist d (snd (gate_cancel go id g)) p
  | h_env g p e : hist d g p -> ge_date e = d -> hist d (set_env e g) p
  | h_grow g p r u dr du : hist d g p ->
      text_of d u = text_of d (gs_ufile g) ++ du -> text_of d r = text_of d (gs_rfile g) ++ dr ->
      hist d (set_bfiles r u g) p
  | h_sync g p : hist d g p ->
      (forall r u, dget d (gs_rfile g) = Some r -> dget d (gs_ufile g) = Some u ->
         exists rs us, calm 5 r rs /\ calm 19 u us /\ exclusive rs us) ->
      hist d (snd (sync g)) p
  | h_restart g p : hist d g p ->
      let g' := gate_setup true g in
      hist d g' (filter (fun kv => dmem (fst kv) (gs_orders g')) p).

  (** what the lines say about an order *)
  Definition replay (id : str) (rs us : list str) (i : oinfo) : oinfo :=
    all_on (utarget ptime f3 f4) id us (all_on rtarget id rs i).

  Notation UT := (utarget ptime f3 f4).

  (** position of a reader: at the start, or behind [A] with [B] passed over *)
  Definition at_pos (T : str -> option (str * eff)) (R : list str) (off : nat) (o : dict str oinfo) : Prop :=
    off = 0%nat \/ exists A B, R = A ++ B /\ off = length (concat A) /\ Forall (stranger T o) B.

  Definition Inv (d : Z) (g : gst) (p : dict str oinfo) : Prop :=
    gs_day g = d /\ ge_date (gs_env g) = d /\
    exists Rr Ru,
      (exists t, text_of d (gs_rfile g) = concat Rr ++ t) /\ (exists t, text_of d (gs_ufile g) = concat Ru ++ t) /\
      Forall (readable 5) Rr /\ Forall (readable 19) Ru /\ exclusive Rr Ru /\
      (forall id, dget id (gs_orders g) = option_map (replay id Rr Ru) (dget id p)) /\
      at_pos rtarget Rr (gs_roff g) (gs_orders g) /\ at_pos UT Ru (gs_uoff g) (gs_orders g) /\
      exists Sr Su, (exists M, Rr = Sr ++ M) /\ (exists M, Ru = Su ++ M) /\
        (forall id i, dget id (data_of d (gs_data g)) = Some i ->
           exists i0, dget id p = Some i0 /\ i = replay id Sr Su i0).

  (** ** reading on *)
  Lemma known_not_stranger T o B id i e l :
    Forall (stranger T o) B -> dget id o = Some i -> In l B -> T l <> Some (id, e).
  Proof.
    intros F Hd Hl E. rewrite Forall_forall in F. destruct (F _ Hl) as (k & e' & K1 & K2). congruence.
  Qed.
  Lemma read_on T n step go' R M t off o :
    go_ignore go' = true ->
    (forall l o, readable n l ->
       step l o = LNext (put T l o) \/ (exists x, step l o = LFail (put T l o) x) \/
       (step l o = LSkip /\ exists id e, T l = Some (id, e) /\ dget id o = None)) ->
    (forall t o, t <> [] -> pending n t -> step t o = LStop) ->
    Forall (readable n) (R ++ M) -> pending n t -> at_pos T R off o ->
    exists off' Y,
      read_file go' step (concat (R ++ M) ++ t) off o = (None, off', fold_left (fun o l => put T l o) Y o) /\
      at_pos T (R ++ M) off' (fold_left (fun o l => put T l o) Y o) /\
      (forall l, In l Y -> In l (R ++ M)) /\
      (forall id i, dget id o <> None -> all_on T id Y (all_on T id R i) = all_on T id (R ++ M) i).
  Proof.
    intros Hi Hs Ht HF HP [-> | (A & B & -> & -> & HB)].
    - destruct (read_file_spec go' Hi n step T Hs Ht [] [] (R ++ M) t o HF HP) as (off' & A' & B' & E & S & Ho & HB').
      cbn [app concat length] in E, S. exists off', (R ++ M). split; [exact E|]. split; [|split].
      + right. exists A', B'. split; [exact S|]. split; [exact Ho|]. eapply Forall_impl; [|exact HB'].
        intro l. apply stranger_keys. symmetry. apply puts_keys.
      + auto.
      + intros id i _. apply all_on_absorb.
    - rewrite <- app_assoc in *. destruct (read_file_spec go' Hi n step T Hs Ht A B M t o HF HP) as (off' & A' & B' & E & S & Ho & HB').
      exists off', (B ++ M). split; [exact E|]. split; [|split].
      + right. exists A', B'. split; [exact S|]. split; [exact Ho|]. eapply Forall_impl; [|exact HB'].
        intro l. apply stranger_keys. symmetry. apply puts_keys.
      + intros l Hl. apply in_or_app. right. exact Hl.
      + intros id i Hk. destruct (dget id o) as [x|] eqn:Ex; [|congruence].
        rewrite !all_on_app. rewrite !(all_on_none T id B); try reflexivity.
        all: intros l e Hl; exact (known_not_stranger T o B id x e l HB Ex Hl).
  Qed.

  Lemma target_dec (T : str -> option (str * eff)) (id : str) ls : {exists l e, In l ls /\ T l = Some (id, e)} + {forall l e, In l ls -> T l <> Some (id, e)}.
  Proof.
    destruct (existsb (fun l => match T l with Some (k, _) => eqb k id | None => false end) ls) eqn:E.
    - left. apply existsb_exists in E. destruct E as (l & Hl & E). destruct (T l) as [[k e]|] eqn:F; [|discriminate].
      apply eqb_true in E. subst k. eauto.
    - right. intros l e Hl F. assert (X : existsb (fun l => match T l with Some (k, _) => eqb k id | None => false end) ls = true).
      { apply existsb_exists. exists l. split; [exact Hl|]. rewrite F. apply eqb_refl. }
      congruence.
  Qed.

  Lemma replay_on (id : str) rs us Rr Ru Yr Yu i0 :
    exclusive rs us ->
    (forall l, In l Rr -> In l rs) -> (forall l, In l Ru -> In l us) ->
    (forall l, In l Yr -> In l rs) -> (forall l, In l Yu -> In l us) ->
    (forall i, all_on rtarget id Yr (all_on rtarget id Rr i) = all_on rtarget id rs i) ->
    (forall i, all_on UT id Yu (all_on UT id Ru i) = all_on UT id us i) ->
    all_on UT id Yu (all_on rtarget id Yr (replay id Rr Ru i0)) = replay id rs us i0.
  Proof.
    intros X H1 H2 H3 H4 Er Eu. unfold replay. destruct (target_dec rtarget id rs) as [(r & e & Hr & Tr)|N].
    - assert (NU : forall l e', In l us -> UT l <> Some (id, e')).
      { intros l e' Hl Tl. apply (X id r l Hr Hl); [apply rtarget_iff|apply (utarget_iff ptime f3 f4)]; eauto. }
      rewrite !(all_on_none UT id) by (intros; apply NU; auto). apply Er.
    - rewrite !(all_on_none rtarget id) by (intros; apply N; auto). apply Eu.
  Qed.

  Lemma exclusive_sub rs us rs' us' :
    exclusive rs us -> (forall l, In l rs' -> In l rs) -> (forall l, In l us' -> In l us) -> exclusive rs' us'.
  Proof. intros X H1 H2 id r u Hr Hu. apply (X id r u); auto. Qed.

  Lemma readable_whole n ls : Forall (readable n) ls -> Forall whole ls.
  Proof. apply Forall_impl. intros l [H _]. exact H. Qed.

  Definition ocopy := dget (V := oinfo).

  (** ** a sync *)
  Lemma sync_reads d g p rt ut rs us :
    go_ignore go = true -> Inv d g p ->
    dget d (gs_rfile g) = Some rt -> dget d (gs_ufile g) = Some ut ->
    calm 5 rt rs -> calm 19 ut us -> exclusive rs us ->
    let g' := snd (sync g) in
    gs_day g' = d /\ gs_env g' = gs_env g /\ gs_rfile g' = gs_rfile g /\ gs_ufile g' = gs_ufile g /\
    dkeys (gs_orders g') = dkeys (gs_orders g) /\
    (forall id, dget id (gs_orders g') = option_map (replay id rs us) (dget id p)) /\
    at_pos rtarget rs (gs_roff g') (gs_orders g') /\ at_pos UT us (gs_uoff g') (gs_orders g') /\
    (gs_data g' = gs_data g \/ gs_data g' = dset d (gs_orders g') (gs_data g)) /\
    (forall l, fst (sync g) = Ok l -> gs_data g' = dset d (gs_orders g') (gs_data g)) /\
    (exists Rr Ru Mr Mu, rs = Rr ++ Mr /\ us = Ru ++ Mu /\
       (exists Sr Su, (exists M, Rr = Sr ++ M) /\ (exists M, Ru = Su ++ M) /\
        (forall id i, dget id (data_of d (gs_data g)) = Some i -> exists i0, dget id p = Some i0 /\ i = replay id Sr Su i0))).
  Proof.
    intros Hi (Hday & Hdate & Rr & Ru & (tr0 & Er0) & (tu0 & Eu0) & FRr & FRu & XR & HO & HPr & HPu & HS) Hr Hu Cr Cu X.
    destruct Cr as (tr & Er & Fr & Pr). destruct Cu as (tu & Eu & Fu & Pu).
    unfold text_of in Er0, Eu0. rewrite Hr in Er0. rewrite Hu in Eu0.
    destruct (prefix_lines Rr tr0 rs tr) as (Mr & Mr_eq & _);
      [eapply readable_whole; eassumption|eapply readable_whole; eassumption|apply Pr|congruence|].
    destruct (prefix_lines Ru tu0 us tu) as (Mu & Mu_eq & _);
      [eapply readable_whole; eassumption|eapply readable_whole; eassumption|apply Pu|congruence|].
    subst rs us.
    destruct (read_on rtarget 5 result_line go Rr Mr tr (gs_roff g) (gs_orders g) Hi result_step result_stop Fr Pr HPr)
      as (roff & Yr & E1 & P1 & S1 & A1).
    set (o1 := fold_left (fun o l => put rtarget l o) Yr (gs_orders g)) in *.
    assert (K1 : dkeys o1 = dkeys (gs_orders g)) by apply puts_keys.
    assert (HPu1 : at_pos UT Ru (gs_uoff g) o1).
    { destruct HPu as [H|(A & B & H1 & H2 & H3)]; [left; exact H|right]. exists A, B. split; [exact H1|]. split; [exact H2|].
      eapply Forall_impl; [|exact H3]. intro l. apply stranger_keys. symmetry; exact K1. }
    destruct (read_on UT 19 (update_line ptime f3 f4) go Ru Mu tu (gs_uoff g) o1 Hi (update_step ptime f3 f4) (update_stop ptime f3 f4) Fu Pu HPu1)
      as (uoff & Yu & E2 & P2 & S2 & A2).
    set (o2 := fold_left (fun o l => put UT l o) Yu o1) in *.
    assert (K2 : dkeys o2 = dkeys (gs_orders g)) by (unfold o2; rewrite puts_keys; exact K1).
    assert (G2 : forall id, dget id o2 = option_map (replay id (Rr ++ Mr) (Ru ++ Mu)) (dget id p)).
    { intro id. unfold o2, o1. rewrite !puts_get, HO. destruct (dget id p) as [i0|] eqn:Ep; [|reflexivity]. cbn [option_map]. f_equal.
      assert (Kn : dget id (gs_orders g) <> None) by (rewrite HO, Ep; discriminate).
      assert (Kn1 : dget id o1 <> None).
      { unfold o1. rewrite puts_get. destruct (dget id (gs_orders g)); [discriminate|congruence]. }
      apply replay_on; auto; intros l Hl; apply in_or_app; left; exact Hl. }
    cbn zeta. unfold gate_sync_orders. rewrite Hdate, Hr, Hu, Er, E1. cbn [set_rread gs_uoff]. rewrite Eu, E2.
    set (g2 := set_uread o2 uoff (set_rread o1 roff g)).
    destruct (save_orders_spec g2) as (r & Hf & Hsn). destruct (save_orders g2) as [r' g3] eqn:Es. cbn [fst snd] in Hf, Hsn. subst r' g3.
    assert (Hp2 : at_pos rtarget (Rr ++ Mr) roff o2).
    { destruct P1 as [H|(A & B & H1 & H2 & H3)]; [left; exact H|right]. exists A, B. split; [exact H1|]. split; [exact H2|].
      eapply Forall_impl; [|exact H3]. intro l. apply stranger_keys. congruence. }
    assert (HSx : exists Rr0 Ru0 Mr0 Mu0, Rr ++ Mr = Rr0 ++ Mr0 /\ Ru ++ Mu = Ru0 ++ Mu0 /\
       (exists Sr Su, (exists M, Rr0 = Sr ++ M) /\ (exists M, Ru0 = Su ++ M) /\
        (forall id i, dget id (data_of d (gs_data g)) = Some i -> exists i0, dget id p = Some i0 /\ i = replay id Sr Su i0))).
    { exists Rr, Ru, Mr, Mu. auto. }
    destruct r as [[]|x]; cbn [fst snd].
    - unfold g2; cbn. rewrite Hday. repeat (split; auto).
    - unfold g2; cbn. repeat (split; auto). intros l Hl. discriminate.
  Qed.

  Lemma lines_in R t l : Forall whole R -> In l R -> In l (lines_of (concat R ++ t)).
  Proof. intros F H. rewrite lines_concat by exact F. apply in_or_app. left. exact H. Qed.

  Lemma inv_order d g p o : Inv d g p -> dget (o_id o) p = None ->
      (forall l, In l (lines_of (text_of d (gs_ufile g))) -> whole l -> ~ update_for (o_id o) l) ->
      (forall l, In l (lines_of (text_of d (gs_rfile g))) -> whole l -> ~ reject_for (o_id o) l) ->
      Inv d (snd (gate_order go o g))
        (match dget (o_id o) (gs_orders (snd (gate_order go o g))) with Some i => dset (o_id o) i p | None => p end).
  Proof.
    intros (Hday & Hdate & Rr & Ru & (tr0 & Er0) & (tu0 & Eu0) & FRr & FRu & XR & HO & HPr & HPu & HS) Hn NU NR.
    assert (Hno : dget (o_id o) (gs_orders g) = None) by (rewrite HO, Hn; reflexivity).
    assert (Same : forall g', gs_day g' = d -> ge_date (gs_env g') = d -> gs_rfile g' = gs_rfile g -> gs_ufile g' = gs_ufile g ->
              gs_orders g' = gs_orders g -> gs_roff g' = gs_roff g -> gs_uoff g' = gs_uoff g -> gs_data g' = gs_data g ->
              Inv d g' (match dget (o_id o) (gs_orders g') with Some i => dset (o_id o) i p | None => p end)).
    { intros g' K1 K2 K3 K4 K5 K6 K7 K8. rewrite K5, Hno. unfold Inv. rewrite K3, K4, K5, K6, K7, K8.
      repeat (split; auto). exists Rr, Ru. repeat (split; eauto). }
    unfold gate_order. destruct (go_acct go); [apply Same; auto|].
    destruct (negb (go_stock go)); [apply Same; auto|]. destruct (o_side o); [|apply Same; auto].
    destruct (encode (o_code o)) as [sym|]; [|apply Same; auto].
    destruct (write_line go order_header _ _ _) as [[[]|x] txt]; [|apply Same; auto].
    set (g1 := set_gorders _ _). destruct (save_orders_spec g1) as (r & Hf & Hsn). destruct (save_orders g1) as [r' g3]. cbn [fst snd] in *. subst r' g3.
    assert (TU : forall l e, In l Ru -> UT l <> Some (o_id o, e)).
    { intros l e Hl E. apply (NU l).
      - rewrite Eu0. apply lines_in; [eapply readable_whole; eassumption|exact Hl].
      - rewrite Forall_forall in FRu. apply (FRu _ Hl).
      - apply (utarget_iff ptime f3 f4). eauto. }
    assert (TR : forall l e, In l Rr -> rtarget l <> Some (o_id o, e)).
    { intros l e Hl E. apply (NR l).
      - rewrite Er0. apply lines_in; [eapply readable_whole; eassumption|exact Hl].
      - rewrite Forall_forall in FRr. apply (FRr _ Hl).
      - apply rtarget_iff. eauto. }
    assert (Go : gs_orders (match r with Ok _ => set_data (dset (gs_day g1) (gs_orders g1) (gs_data g1)) g1 | Err _ => g1 end)
                 = dset (o_id o) (json o) (gs_orders g)) by (destruct r; reflexivity).
    rewrite Go, dget_dset_same.
    assert (HO' : forall id, dget id (dset (o_id o) (json o) (gs_orders g)) = option_map (replay id Rr Ru) (dget id (dset (o_id o) (json o) p))).
    { intro id. rewrite !dget_dset. destruct (eqb_spec id (o_id o)) as [->|Hne]; [|apply HO]. cbn. f_equal.
      unfold replay. rewrite (all_on_none rtarget), (all_on_none UT) by auto. reflexivity. }
    assert (Pos : forall T R off, (forall l e, In l R -> T l <> Some (o_id o, e)) ->
              at_pos T R off (gs_orders g) -> at_pos T R off (dset (o_id o) (json o) (gs_orders g))).
    { intros T R off NT [H|(A & B & -> & H2 & H3)]; [left; exact H|right]. exists A, B. split; [reflexivity|]. split; [exact H2|].
      rewrite Forall_forall in *. intros l Hl. destruct (H3 l Hl) as (k & e & Tk & Dk). exists k, e. split; [exact Tk|].
      rewrite dget_dset_other; [exact Dk|]. intros ->. apply (NT l e); [apply in_or_app; right; exact Hl|exact Tk]. }
    unfold Inv. rewrite Go. destruct r as [[]|x]; cbn.
    - split; [exact Hday|]. split; [exact Hdate|]. exists Rr, Ru. repeat (split; eauto).
      exists Rr, Ru. split; [exists []; symmetry; apply app_nil_r|]. split; [exists []; symmetry; apply app_nil_r|].
      intros id i. rewrite Hday. unfold data_of. rewrite dget_dset_same, HO'.
      intro E. destruct (dget id (dset (o_id o) (json o) p)) as [i0|]; [|discriminate]. cbn in E. injection E as E. eauto.
    - split; [exact Hday|]. split; [exact Hdate|]. exists Rr, Ru. repeat (split; eauto).
      destruct HS as (Sr & Su & H1 & H2 & H3). exists Sr, Su. split; [exact H1|]. split; [exact H2|].
      intros id i E. destruct (H3 id i E) as (i0 & K & K'). exists i0. split; [|exact K'].
      rewrite dget_dset_other; [exact K|]. intros ->. congruence.
  Qed.

  Theorem hist_inv d g p : go_ignore go = true -> hist d g p -> Inv d g p.
  Proof.
    intros Hi. induction 1 as [g H1 H2 H3 H4 H5 H6|g p o H IH|g p id H IH|g p e H IH|g p r u dr du H IH Eu Er|g p H IH HC|g p H IH].
    - split; [exact H1|]. split; [exact H2|]. exists [], []. split; [eexists; reflexivity|]. split; [eexists; reflexivity|].
      split; [constructor|]. split; [constructor|]. split; [intros ? ? ? []|]. split; [rewrite H3; reflexivity|].
      split; [left; exact H5|]. split; [left; exact H4|]. exists [], []. split; [exists []; reflexivity|]. split; [exists []; reflexivity|].
      unfold data_of. rewrite H6. discriminate.
    - apply inv_order; assumption.
    - unfold gate_cancel. destruct (write_line _ _ _ _ _) as [rr txt]. exact IH.
    - destruct IH as (K1 & K2 & K3). split; [exact K1|]. split; [exact H0|exact K3].
    - destruct IH as (K1 & K2 & Rr & Ru & (tr & Hr) & (tu & Hu) & K3). split; [exact K1|]. split; [exact K2|]. exists Rr, Ru.
      split; [exists (tr ++ dr); cbn; rewrite Er, Hr, app_assoc; reflexivity|].
      split; [exists (tu ++ du); cbn; rewrite Eu, Hu, app_assoc; reflexivity|]. exact K3.
    - destruct (dget d (gs_rfile g)) as [rt|] eqn:Er, (dget d (gs_ufile g)) as [ut|] eqn:Eu.
      2,3,4: assert (Hs : snd (sync g) = g) by (unfold gate_sync_orders; destruct IH as (_ & -> & _); rewrite Er, Eu; reflexivity); rewrite Hs; exact IH.
      destruct (HC rt ut eq_refl eq_refl) as (rs & us & Cr & Cu & X).
      destruct (sync_reads d g p rt ut rs us Hi IH Er Eu Cr Cu X) as (K1 & K2 & K3 & K4 & K5 & K6 & K7 & K8 & K9 & _ & K10).
      destruct Cr as (tr & Ecr & Fr & Pr). destruct Cu as (tu & Ecu & Fu & Pu).
      split; [exact K1|]. split; [rewrite K2; apply IH|]. exists rs, us.
      rewrite K3, K4. unfold text_of at 1 2. rewrite Er, Eu.
      split; [eauto|]. split; [eauto|]. split; [exact Fr|]. split; [exact Fu|]. split; [exact X|]. split; [exact K6|].
      split; [exact K7|]. split; [exact K8|]. destruct K9 as [K9|K9]; rewrite K9.
      + destruct K10 as (Rr & Ru & Mr & Mu & -> & -> & Sr & Su & (M1 & ->) & (M2 & ->) & K10).
        exists Sr, Su. rewrite <- !app_assoc. split; [eauto|]. split; [eauto|]. exact K10.
      + exists rs, us. split; [exists []; symmetry; apply app_nil_r|]. split; [exists []; symmetry; apply app_nil_r|].
        intros id i. unfold data_of. rewrite dget_dset_same, K6. intro E. destruct (dget id p) as [i0|]; [|discriminate].
        cbn in E. injection E as E. eauto.
    - cbn zeta. destruct IH as (K1 & K2 & Rr & Ru & (tr & Er) & (tu & Eu) & Fr & Fu & X & _ & _ & _ & Sr & Su & (M1 & ->) & (M2 & ->) & HS).
      assert (Og : gs_orders g' = data_of d (gs_data g)) by (cbn; rewrite K2; reflexivity).
      rewrite concat_app, <- app_assoc in Er, Eu. apply Forall_app in Fr, Fu.
      split; [exact K2|]. split; [exact K2|]. exists Sr, Su.
      split; [eauto|]. split; [eauto|]. split; [apply Fr|]. split; [apply Fu|].
      split; [eapply exclusive_sub; [exact X| |]; intros l Hl; apply in_or_app; left; exact Hl|].
      split; [|split; [left; reflexivity|]; split; [left; reflexivity|]].
      + intro id. rewrite (dget_filter (fun k => dmem k (gs_orders g'))), Og. unfold dmem. destruct (dget id (data_of d (gs_data g))) as [i|] eqn:E; [|reflexivity].
        destruct (HS _ _ E) as (i0 & -> & ->). reflexivity.
      + exists Sr, Su. split; [exists []; symmetry; apply app_nil_r|]. split; [exists []; symmetry; apply app_nil_r|].
        intros id i E. destruct (HS _ _ E) as (i0 & E0 & ->). exists i0. split; [|reflexivity].
        rewrite (dget_filter (fun k => dmem k (gs_orders g'))), Og. unfold dmem. cbn in E. rewrite E. exact E0.
  Qed.
End History.
