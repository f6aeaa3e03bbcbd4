(** C138: how fresh the orders are that a task's function sees. *)
From Coq Require Import Permutation Sorted String.
From Verif Require Import PyBase PyStr LStr SDate MTime MTimeExpr MDate MEventSource MQueue MLoop MSched MBus MOrder MAccount MApi SAccount LAccount LAccount2 LAccount3
  MGate SGate LGate LGate2 LGate3 LGate4 TGate SSync LSync TSync SLife LSync2 LLife TLife
  MStrategy SEvent SExpr SStrategy LEventSource2 LStrategy2 MProcess SProcess LProcess LProcess2 TProcess TProcess2 TRest SFresh.
Open Scope list_scope.
Open Scope Z_scope.

Section Fresh.
  Context (ptime f3 f4 : str -> option Z) (go : gopts) (bal : gst -> res binfo * gst) (d : Z).
  Context (Hi : go_ignore go = true) (Hpt : forall s t, ptime s = Some t -> year4 t).
  Notation gt := (anxin ptime f3 f4 go bal).
  Notation traded := (traded ptime f3 f4 go bal d).
  Notation shows := (shows ptime f3 f4 d).

  Lemma shows_kept a b m : shows a m -> (forall id i o, dget id (mo_put m) = Some i -> recorded a id o -> recorded b id o) -> shows b m.
  Proof.
    intros H K r u rs us H1 H2 H3 H4 H5 id i Hp. destruct (H r u rs us H1 H2 H3 H4 H5 id i Hp) as (o & R & T). exists o. split; [|exact T].
    exact (K id i o Hp R).
  Qed.
  Lemma failed_same a g : ~ succeeds ptime f3 f4 go g -> fst (acc_sync_orders gt a g) = a.
  Proof.
    intro H. unfold acc_sync_orders. cbn [anxin g_sync_orders]. unfold succeeds in H.
    destruct (gate_sync_orders ptime f3 f4 go g) as [[l|e] g']; [|reflexivity]. exfalso. apply H. exists l. reflexivity.
  Qed.
  Lemma legible_calm g : (legible d g \/ dget d (gs_rfile g) = None \/ dget d (gs_ufile g) = None) ->
    forall r u, dget d (gs_rfile g) = Some r -> dget d (gs_ufile g) = Some u -> exists rs us, calm 5 r rs /\ calm 19 u us /\ exclusive rs us.
  Proof.
    intros [(r0 & u0 & rs & us & H1 & H2 & H)|[H|H]] r u Hr Hu; try congruence.
    rewrite Hr in H1. rewrite Hu in H2. injection H1 as <-. injection H2 as <-. eauto.
  Qed.
  Lemma sync_shown a g p inv : life ptime f3 f4 go bal d a g p -> succeeds ptime f3 f4 go g ->
    shows (fst (acc_sync_orders gt a g)) (Moment inv g p).
  Proof.
    intros HL (l & Hl) r u rs us Hr Hu Cr Cu X id i Hp. cbn [mo_gate mo_put] in *.
    exact (C68_shown_partial ptime f3 f4 go bal d a g p r u rs us l Hi Hpt HL Hr Hu Cr Cu X Hl id i Hp).
  Qed.

  Definition known_by (m : option moment) (p : dict str oinfo) : Prop :=
    forall mo id i, m = Some mo -> dget id (mo_put mo) = Some i -> dget id p <> None.
  (** the order syncs of [inv] either failed or were made by the moment [m] *)
  Definition counted (inv : list (Z * cb)) (m : option moment) (fl : list Z) : Prop :=
    forall t c, In (t, c) inv -> is_ord c = true -> In t fl \/ exists mo, m = Some mo /\ In (t, c) (mo_inv mo).

  Lemma traded_inv inv a g p m fl : traded inv a g p m fl ->
    life ptime f3 f4 go bal d a g p /\ known_by m p /\ counted inv m fl /\
    (forall mo, m = Some mo -> shows a mo /\ legible d (mo_gate mo) /\ exists post, inv = mo_inv mo ++ post).
  Proof.
    induction 1 as [g H1 H2 H3 H4 H5 H6|inv a g p m fl t i _ (IL & IK & IC & IS) HG HS|inv a g p m fl t i _ (IL & IK & IC & IS) HG HS
      |inv a g p m fl t c _ (IL & IK & IC & IS) Hc|inv a g p m fl _ (IL & IK & IC & IS) HG HS|inv a g p m fl _ (IL & IK & IC & IS) HG HS
      |inv a g p m fl id now code n st sd r a' g' _ (IL & IK & IC & IS) Hn Hy NU NR E|inv a g p m fl id _ (IL & IK & IC & IS)
      |inv a g p m fl e _ (IL & IK & IC & IS) He|inv a g p m fl r u dr du _ (IL & IK & IC & IS) Eu Er|inv a g p m fl _ (IL & IK & IC & IS) Hb].
    - split; [apply l_start; assumption|]. split; [intros mo id i Q; discriminate Q|]. split; [intros t c []|]. intros mo Q. discriminate Q.
    - split; [apply l_sync; [exact IL|apply legible_calm; left; exact HG]|]. split; [intros mo id j Q Hp; injection Q as <-; cbn [mo_put] in Hp; congruence|].
      split; [intros t' c Hin _; right; eexists; split; [reflexivity|exact Hin]|].
      intros mo Q. injection Q as <-. split; [apply sync_shown; assumption|]. split; [exact HG|]. exists []. rewrite app_nil_r. reflexivity.
    - split; [apply l_sync; [exact IL|apply legible_calm; exact HG]|]. split; [exact IK|]. split.
      + intros t' c Hin Hc. apply in_app_or in Hin as [Hin|[Hin|[]]].
        * destruct (IC t' c Hin Hc) as [F|F]; [left; apply in_or_app; auto|right; exact F].
        * injection Hin as <- _. left. apply in_or_app. right. left. reflexivity.
      + intros mo Q. destruct (IS mo Q) as (S & L & post & ->). rewrite (failed_same a g HS). split; [exact S|]. split; [exact L|].
        eexists. rewrite <- app_assoc. reflexivity.
    - split; [exact IL|]. split; [exact IK|]. split.
      + intros t' c' Hin Hc'. apply in_app_or in Hin as [Hin|[Hin|[]]]; [apply (IC t' c' Hin Hc')|]. injection Hin as _ <-. congruence.
      + intros mo Q. destruct (IS mo Q) as (S & L & post & ->). split; [exact S|]. split; [exact L|]. eexists. rewrite <- app_assoc. reflexivity.
    - split; [apply l_sync; [exact IL|apply legible_calm; left; exact HG]|]. split; [intros mo id j Q Hp; injection Q as <-; cbn [mo_put] in Hp; congruence|].
      split; [intros t' c Hin _; right; eexists; split; [reflexivity|exact Hin]|].
      intros mo Q. injection Q as <-. split; [apply sync_shown; assumption|]. split; [exact HG|]. exists []. rewrite app_nil_r. reflexivity.
    - split; [apply l_sync; [exact IL|apply legible_calm; exact HG]|]. split; [exact IK|]. split; [exact IC|]. rewrite (failed_same a g HS). exact IS.
    - assert (HL' := l_order ptime f3 f4 go bal d a g p id now code n st sd r a' g' IL Hn Hy NU NR E). split; [exact HL'|].
      destruct (life_inv ptime f3 f4 go bal Hpt Hi d a g p IL) as (_ & HB & _).
      split; [|split; [exact IC|]].
      + intros mo k i Q Hp. pose proof (IK mo k i Q Hp) as K. destruct (dget id (gs_orders g')); [|exact K]. rewrite dget_dset. destruct (PyBase.eqb k id); [discriminate|exact K].
      + intros mo Q. destruct (IS mo Q) as (S & L & P). split; [|split; [exact L|exact P]]. apply (shows_kept a a' mo S). intros k i o Hp R.
        assert (Hk : k <> id) by (intros ->; apply (IK mo id i Q Hp), Hn).
        destruct (acc_order_book gt _ _ _ _ _ _ _ _ _ _ _ E) as (SB & _). apply local_recorded. rewrite (same_book_local _ _ _ SB).
        rewrite local_store_other by assumption. apply local_recorded, R.
    - split; [apply l_cancel, IL|]. split; [exact IK|]. split; [exact IC|]. intros mo Q. destruct (IS mo Q) as (S & L & P). split; [|split; [exact L|exact P]].
      apply (shows_kept a _ mo S). intros k i o _ R. rewrite acc_cancel_spec. cbv zeta. cbn [fst]. destruct (dmem id (a_orders a)); exact R.
    - split; [apply l_env; assumption|]. auto.
    - split; [eapply l_grow; eassumption|]. auto.
    - split; [apply l_balance; assumption|]. split; [exact IK|]. split; [exact IC|]. intros mo Q. destruct (IS mo Q) as (S & L & P). split; [|split; [exact L|exact P]].
      apply (shows_kept a _ mo S). intros k i o _ R. destruct (sync_balance_book gt a g) as [SB _]. apply local_recorded. rewrite (same_book_local _ _ _ SB). apply local_recorded, R.
  Qed.
End Fresh.

(** in every use: the order sync is registered (option sync_order) *)
Lemma made_in sc ko (em r : list Z) inv y i : syncs_of inv = flat_map (fun x => map (fun c => (x, c)) (sync_cbs sc ko 0)) (em ++ r) ->
  In (CbOrd i) (sync_cbs sc ko 0) -> In y em -> In (y, CbOrd i) inv.
Proof.
  intros E Hc Hy. assert (H : In (y, CbOrd i) (syncs_of inv)).
  { rewrite E. apply in_flat_map. exists y. split; [apply in_or_app; auto|]. apply in_map_iff. exists (CbOrd i). auto. }
  unfold syncs_of in H. apply filter_In in H. apply H.
Qed.

(** Once a task's function has been called for instant [x], the orders it sees are those of
    the broker's files at a moment when the order sync of every owed instant [y] up to [x] had
    been made (or that sync failed). *)
Theorem C138_function_sees :
  forall fuel cfg sc tz st now pre ko e0 post ns dates s4 s o step qs offs d S ps,
    synced fuel cfg sc tz st now pre ko e0 post ns dates s4 s o step qs offs d S ->
    tz mod US = 0 -> market_period sc s4 = raw_of ps -> Forall (fun p => tod_ok (fst p) /\ tod_ok (snd p)) ps ->
    Forall (fun p => fst p mod US = 0 /\ snd p mod US = 0) ps -> ps <> [] ->
    forall j nj idj tj oj x,
      w_hung (l_w s) = false -> nth_error (asked (pre ++ UOpt ko e0 :: post)) j = Some (nj, idj, tj) -> owes ps tj oj ->
      In x (map fst (calls_of j (invoked s4 (l_w s)))) -> In (CbOrd 0) (sync_cbs sc ko 0) ->
    forall ptime f3 f4 go bal day a g p m fl,
      go_ignore go = true -> (forall s t, ptime s = Some t -> year4 t) ->
      traded ptime f3 f4 go bal day (invoked s4 (l_w s)) a g p m fl ->
      forall y, In y S -> y <= x ->
        In y fl \/ exists mo, m = Some mo /\ In (y, CbOrd 0) (mo_inv mo) /\ legible day (mo_gate mo) /\ shows ptime f3 f4 day a mo.
Proof.
  intros fuel cfg sc tz st now pre ko e0 post ns dates s4 s o step qs offs d S ps Hsy Htz Hmp Hps Hw Hne j nj idj tj oj x Hh Hj Ho Hx Hc
    ptime f3 f4 go bal day a g p m fl Hi Hpt HT y Hy Hyx.
  destruct (C62_sync_before_tasks fuel cfg sc tz st now pre ko e0 post ns dates s4 s o step qs offs d S ps Hsy Htz Hmp Hps Hw Hne j nj idj tj oj x Hh Hj Ho Hx) as (r & E).
  assert (Hin : In (y, CbOrd 0) (invoked s4 (l_w s))).
  { apply (made_in sc ko _ _ _ y 0 E Hc). apply filter_In. split; [exact Hy|apply Z.leb_le, Hyx]. }
  destruct (traded_inv ptime f3 f4 go bal day Hi Hpt _ a g p m fl HT) as (_ & _ & HC & HS).
  destruct (HC y (CbOrd 0) Hin eq_refl) as [F|(mo & -> & Hmo)]; [left; exact F|right]. exists mo. destruct (HS mo eq_refl) as (S1 & L1 & _). auto.
Qed.
Print Assumptions C138_function_sees.

(** ... and whenever the loop goes to sleep, this holds for every instant up to the clock. *)
Theorem C138_asleep :
  forall fuel cfg sc tz st now pre ko e0 post ns dates s4 s o step qs offs d S,
    synced fuel cfg sc tz st now pre ko e0 post ns dates s4 s o step qs offs d S -> tz mod US = 0 ->
    forall clock ex s' w,
      w_hung (l_w s) = false -> l_step (sched_handler fuel (loop_cfg cfg sc s4) tz) s (LTurn clock ex) = Some s' -> l_mode s' = Arming w ->
      In (CbOrd 0) (sync_cbs sc ko 0) ->
    forall ptime f3 f4 go bal day a g p m fl,
      go_ignore go = true -> (forall s t, ptime s = Some t -> year4 t) ->
      traded ptime f3 f4 go bal day (invoked s4 (l_w s)) a g p m fl ->
      forall y, In y S -> y <= clock * 1000 + tz ->
        In y fl \/ exists mo, m = Some mo /\ In (y, CbOrd 0) (mo_inv mo) /\ legible day (mo_gate mo) /\ shows ptime f3 f4 day a mo.
Proof.
  intros fuel cfg sc tz st now pre ko e0 post ns dates s4 s o step qs offs d S Hsy Htz clock ex s' w Hh Hs Hm Hc
    ptime f3 f4 go bal day a g p m fl Hi Hpt HT y Hy Hyx.
  destruct (C62_no_due_sync_left fuel cfg sc tz st now pre ko e0 post ns dates s4 s o step qs offs d S Hsy Htz clock ex s' w Hh Hs Hm) as (r & E).
  assert (Hin : In (y, CbOrd 0) (invoked s4 (l_w s))).
  { apply (made_in sc ko _ _ _ y 0 E Hc). apply filter_In. split; [exact Hy|apply Z.leb_le; lia]. }
  destruct (traded_inv ptime f3 f4 go bal day Hi Hpt _ a g p m fl HT) as (_ & _ & HC & HS).
  destruct (HC y (CbOrd 0) Hin eq_refl) as [F|(mo & -> & Hmo)]; [left; exact F|right]. exists mo. destruct (HS mo eq_refl) as (S1 & L1 & _). auto.
Qed.
Print Assumptions C138_asleep.

(** ** the process of C62_demo: at 9:30 the broker's files do not exist yet and the sync fails; f
    orders; the broker writes that the order is open; at 9:31 the sync works; while the
    functions of 9:31 run the broker writes on *)
Definition fr_env : genv := GEnv 20000 (20000 * DAY + 34200 * US) WDone (Ok tt).
Definition fr_g0 : gst := GSt [] 0 0 20000 [] [] [] [] [] fr_env.
Definition fr_now : Z := 20000 * DAY + 34200 * US.
Definition fr_s1 := acc_sync_orders life_gate acct_new fr_g0.
Definition fr_s2 := acc_order life_gate (lit "77") fr_now (lit "600000.XSHG") (-300) (Limit (PNum (lit "10.5"))) Long (fst fr_s1) (snd fr_s1).
Definition fr_p : dict str oinfo := match dget (lit "77") (gs_orders (snd fr_s2)) with Some i => dset (lit "77") i [] | None => [] end.
Definition fr_g3 : gst := set_bfiles [(20000, [])] [(20000, u_open ++ u_else)] (snd fr_s2).
Definition fr_s4 := acc_sync_orders life_gate (snd (fst fr_s2)) fr_g3.
Definition fr_g5 : gst := set_bfiles [(20000, [])] [(20000, (u_open ++ u_else) ++ u_part)] (snd fr_s4).
Definition fr_a : Z := 20000 * DAY + 34200 * US.
Definition fr_b : Z := 20000 * DAY + 34260 * US.
Definition fr_inv1 : list (Z * cb) := (((([] ++ [(fr_a, CbBal 0)]) ++ [(fr_a, CbOrd 0)]) ++ [(fr_a, CbUser 0 (Some (OUser 1)))]) ++ [(fr_b, CbBal 0)]) ++ [(fr_b, CbOrd 0)].
Definition fr_inv : list (Z * cb) := (fr_inv1 ++ [(fr_b, CbUser 0 (Some (OUser 1)))]) ++ [(fr_b, CbUser 1 (Some (OUser 2)))].
Lemma fr_legible : legible 20000 fr_g3.
Proof.
  exists [], (u_open ++ u_else), [], [u_open; u_else]. split; [reflexivity|]. split; [reflexivity|]. split; [|split].
  - exists []. split; [reflexivity|]. split; [constructor|]. split; [intros []|]. split; [|vm_compute; lia]. intro H. apply header_iff in H. discriminate.
  - assert (R : forall l, In l [u_open; u_else] -> readable 19 l).
    { intros l Hl. cbn in Hl. repeat (destruct Hl as [<-|Hl]; [split; [apply demo_line_whole; vm_compute; congruence|right; vm_compute; lia]|]). contradiction. }
    exists []. split; [vm_compute; reflexivity|]. split; [apply Forall_forall, R|].
    split; [intros []|]. split; [|vm_compute; lia]. intro H. apply header_iff in H. discriminate.
  - intros id r u [].
Qed.
Example C138_demo :
  option_map (fun x => invoked (fst x) (l_w (snd x))) sd_state = Some fr_inv /\ In (CbOrd 0) (sync_cbs scfg_default sd_opts 0) /\
  traded life_ptime demo_f3 demo_f4 demo_go no_bal 20000 fr_inv (fst fr_s4) fr_g5 fr_p (Some (Moment fr_inv1 fr_g3 fr_p)) [fr_a] /\
  In fr_b (map fst (calls_of 1 fr_inv)) /\ dget (lit "77") fr_p <> None /\
  seen "77" (fst fr_s4) = Some (Sopen, 0) /\
  seen "77" (fst (acc_sync_orders life_gate (fst fr_s4) fr_g5)) = Some (Sfilling, 100).
Proof.
  split; [vm_compute; reflexivity|]. split; [vm_compute; auto|]. split; [|vm_compute; split; [auto|split; [discriminate|auto]]].
  apply tr_grow with (g := snd fr_s4) (dr := []) (du := u_part); [|vm_compute; reflexivity|vm_compute; reflexivity].
  unfold fr_inv. apply tr_call; [|reflexivity]. apply tr_call; [|reflexivity].
  unfold fr_s4, fr_inv1. eapply tr_timer; [|exact fr_legible|eexists; vm_compute; reflexivity].
  apply tr_call; [|reflexivity].
  apply tr_grow with (g := snd fr_s2) (dr := []) (du := u_open ++ u_else); [|vm_compute; reflexivity|vm_compute; reflexivity].
  unfold fr_p. apply tr_order with (a := fst fr_s1) (g := snd fr_s1) (p := []) (id := lit "77") (now := fr_now) (code := lit "600000.XSHG") (n := -300)
    (st := Limit (PNum (lit "10.5"))) (sd := Long) (r := fst (fst fr_s2)).
  - apply tr_call; [|reflexivity]. change [fr_a] with ([] ++ [fr_a]). unfold fr_s1. eapply tr_failed; [|right; left; reflexivity|].
    + apply tr_call; [|reflexivity]. apply tr_start; reflexivity.
    + intros (l & H). vm_compute in H. discriminate H.
  - reflexivity.
  - vm_compute. split; discriminate.
  - intros x [].
  - intros x [].
  - destruct fr_s2 as [[r a] g] eqn:E. exact E.
Qed.
