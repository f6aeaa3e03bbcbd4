(** Theorems for C41, C42 and C45. *)
From Verif Require Import PyBase PyStr MTime MOrder MAccount MGate MPersist SPersist LPersist.
Open Scope list_scope.
Open Scope Z_scope.

(** ** C41 *)

(** Proved where renaming replaces a file atomically (POSIX): no save file is ever torn,
    and from the start of a save on, up to a failure, a kill or its end, the save file is
    the one before or the complete new one. *)
Theorem C41_never_torn_partial :
  forall s d, p_reach true s -> intact (dget d (ps_data s)).
Proof. intros s d R. apply (pi_intact s (preach_inv s R)). Qed.
Print Assumptions C41_never_torn_partial.
Definition within_save (l : plab) : Prop := match l with LStep | LFail | LKill | LDay _ => True | _ => False end.
Theorem C41_before_or_after_partial :
  forall s w ls s' d, ps_pc s = PSave w -> Forall within_save ls -> p_run true ls s = Some s' ->
    dget d (ps_data s') = dget d (ps_data s) \/ d = ps_day s /\ dget d (ps_data s') = Some (FSnap (ps_mem s)).
Proof.
  intros s w ls s' d P F E.
  (* during the save *)
  assert (G : forall ls s1 s', Forall within_save ls -> p_run true ls s1 = Some s' -> ps_day s1 = ps_day s ->
    (match ps_pc s1 with
     | PSave _ | PTmp _ => ps_data s1 = ps_data s /\ ps_mem s1 = ps_mem s
     | PDumped _ => ps_data s1 = ps_data s /\ dget (ps_day s) (ps_tmp s1) = Some (FSnap (ps_mem s))
     | PMoved _ | PIdle | PDown => ps_data s1 = ps_data s \/ ps_data s1 = dset (ps_day s) (FSnap (ps_mem s)) (ps_data s)
     | _ => False end) ->
    ps_data s' = ps_data s \/ ps_data s' = dset (ps_day s) (FSnap (ps_mem s)) (ps_data s)).
  { clear. intro ls. induction ls as [|l ls IH]; intros s1 s' F E Hd Hp; cbn [p_run] in E.
    - injection E as <-. destruct (ps_pc s1); tauto.
    - inversion F as [|? ? F1 F2]; subst. destruct (p_step true l s1) as [s2|] eqn:E1; [|discriminate].
      apply (IH s2 s' F2 E); unfold p_step in E1.
      + destruct l; try contradiction; destruct (ps_pc s1); try discriminate; try contradiction.
        all: try (destruct (ps_date s1 <? d); [|discriminate]).
        all: try (destruct (dget (ps_day s1) (ps_tmp s1)); [|discriminate]). all: cbn [orb] in E1; injection E1 as <-; exact Hd.
      + destruct l; try contradiction; destruct (ps_pc s1); try discriminate; try contradiction.
        all: try (destruct (ps_date s1 <? d); [|discriminate]; injection E1 as <-; exact Hp).
        all: try (injection E1 as <-; cbn; tauto).
        * injection E1 as <-. cbn. rewrite Hd. destruct Hp as [H1 H2]. split; [exact H1|]. rewrite dget_dset_same, H2. reflexivity.
        * destruct Hp as [H1 H2]. rewrite Hd, H2 in E1. cbn [orb] in E1. injection E1 as <-. cbn. right. rewrite H1. reflexivity. }
  assert (H : ps_data s' = ps_data s \/ ps_data s' = dset (ps_day s) (FSnap (ps_mem s)) (ps_data s)).
  { apply (G ls s s' F E eq_refl). rewrite P. auto. }
  destruct H as [H|H]; rewrite H; [left; reflexivity|]. rewrite dget_dset. destruct (eqb_spec d (ps_day s)); auto.
Qed.
Print Assumptions C41_before_or_after_partial.
(** False where renaming does not replace a file (Windows): killed while copying, the old
    contents are gone and the new ones incomplete; the restart knows no orders. *)
Theorem C41_windows_refuted :
  forall s w c, ps_pc s = PDumped w -> dget (ps_day s) (ps_tmp s) = Some c -> dmem (ps_day s) (ps_data s) = true ->
    exists s', p_run false [LStep; LKill] s = Some s' /\ dget (ps_day s) (ps_data s') = Some FTorn /\
      (ps_date s = ps_day s -> exists s2, p_step false LStart s' = Some s2 /\ ps_mem s2 = []).
Proof.
  intros s w c P T D. cbn [p_run]. unfold p_step at 1. rewrite P, T, D. cbn. eexists. split; [reflexivity|]. cbn. split; [apply dget_dset_same|].
  intros ->. eexists. split; [reflexivity|]. cbn. unfold load_orders. rewrite dget_dset_same. reflexivity.
Qed.
Print Assumptions C41_windows_refuted.
Definition some_order (id : str) : oinfo :=
  OInfo (lit "000001.XSHE") (PNum (lit "9.5")) 100 (lit "open") id (lit "new") (lit "limit") (lit "2024-01-02 09:30:00.000000") None None None None None None None None None.
(** order() from beginning to end *)
Definition submit (id : str) (i : oinfo) : list plab := LOrder id i :: repeat LStep 6.
Example C41_demo :
  let a := some_order (lit "a") in let b := some_order (lit "b") in
  match p_run true (LStart :: submit (lit "a") a ++ [LOrder (lit "b") b; LStep; LStep; LStep; LStep]) (p_init 5) with
  | Some s => ps_pc s = PDumped (Some (lit "b")) /\ dget 5 (ps_data s) = Some (FSnap [(lit "a", a)]) /\
      match p_run true [LKill; LStart] s with Some s' => ps_mem s' = [(lit "a", a)] | None => False end /\
      match p_run true [LStep; LKill; LStart] s with Some s' => ps_mem s' = [(lit "a", a); (lit "b", b)] | None => False end
  | None => False end /\
  match p_run true (LStart :: LOrder (lit "b") b :: LStep :: LStep :: []) (p_init 5) with
  | Some s => ps_pc s = PSave (Some (lit "b")) | None => False end.
Proof. vm_compute. auto 10. Qed.

(** ** C42 *)

(** Proved on POSIX for processes set up on the day of the order: whatever was killed or
    failed at whatever point, before or after. *)
Theorem C42_acknowledged_partial :
  forall s s' dt id, p_reach true s -> p_step true LStart s = Some s' -> acked s (ps_date s) dt id -> known s' id.
Proof.
  intros s s' dt id R E A.
  assert (E' : ps_date s' = ps_date s /\ ps_day s' = ps_date s /\ ps_pc s' <> PDown /\ ps_acked s' = ps_acked s).
  { unfold p_step in E. destruct (ps_pc s); try discriminate. injection E as <-. cbn. repeat split; discriminate. }
  destruct E' as (E1 & E2 & E3 & E4). assert (I := preach_inv s' (pr_step _ _ _ _ R E)).
  apply (pi_acked s' I (ps_date s) dt id); [unfold acked; rewrite E4; exact A|exact E3|exact E2].
Qed.
Print Assumptions C42_acknowledged_partial.
(** the same while the process is running, and after setup() is called again *)
Theorem C42_acknowledged_running_partial :
  forall s dt id, p_reach true s -> ps_pc s <> PDown -> acked s (ps_day s) dt id -> known s id.
Proof. intros s dt id R N A. apply (pi_acked s (preach_inv s R) (ps_day s) dt id A); [exact N|reflexivity]. Qed.
Print Assumptions C42_acknowledged_running_partial.
(** Proved: every order known, at any time and so after any restart, has its line. *)
Theorem C42_recovered_submitted_partial :
  forall s id, p_reach true s -> known s id -> has_line s id.
Proof. intros s id R. apply (pi_line_mem s (preach_inv s R)). Qed.
Print Assumptions C42_recovered_submitted_partial.
(** Proved in place of the last clause: a line whose submission was neither acknowledged
    nor is in progress belongs to one that failed or was killed. *)
Theorem C42_lines_partial :
  forall s id, p_reach true s -> has_line s id -> In id (ps_broken s) \/ (exists d dt, acked s d dt id) \/ In id (in_hand (ps_pc s)).
Proof. intros s id R. apply (pi_lines s (preach_inv s R)). Qed.
Print Assumptions C42_lines_partial.
(** False: killed between the line and the save, or after a failed save, the restarted
    process does not know the order, for every order. *)
Theorem C42_orphan_refuted :
  forall d id i, 
    (exists s, p_run true [LStart; LOrder id i; LStep; LKill; LStart] (p_init d) = Some s /\ In (d, id) (ps_lines s) /\ ~ known s id) /\
    (exists s, p_run true [LStart; LOrder id i; LStep; LStep; LStep; LFail; LKill; LStart] (p_init d) = Some s /\ In (d, id) (ps_lines s) /\ ~ known s id).
Proof. intros d id i. split; (eexists; split; [vm_compute; reflexivity|]; split; [left; reflexivity|]; intros []). Qed.
Print Assumptions C42_orphan_refuted.
(** False on Windows: an acknowledged order is forgotten. *)
Theorem C42_windows_refuted :
  forall id1 i1 id2 i2, exists s,
    p_run false (LStart :: submit id1 i1 ++ [LOrder id2 i2; LStep; LStep; LStep; LStep; LStep; LKill; LStart]) (p_init 5) = Some s /\
    acked s 5 5 id1 /\ ps_day s = 5 /\ ~ known s id1.
Proof. intros. eexists. split; [vm_compute; reflexivity|]. split; [left; reflexivity|]. split; [reflexivity|]. intros []. Qed.
Print Assumptions C42_windows_refuted.
(** The steps here are those of MGate.v: a call of order() that succeeds there is, in single
    steps, the run [submit], with the same order book and save files at the end. *)
Definition snaps (f : dict Z (dict str oinfo)) : dict Z fcont := map (fun kv => (fst kv, FSnap (snd kv))) f.
Definition of_gate (g : gst) (tmp : dict Z fcont) (lines : list (Z * str)) (acks : list (Z * Z * str)) (br : list str) : pst :=
  PSt PIdle (gs_orders g) (gs_day g) (ge_date (gs_env g)) (snaps (gs_data g)) tmp lines acks br.
Theorem C42_steps :
  forall go o g g' tmp lines acks br, gate_order go o g = (Ok tt, g') -> exists tmp',
    p_run true (submit (o_id o) (json o)) (of_gate g tmp lines acks br) =
    Some (of_gate g' tmp' (lines ++ [(ge_date (gs_env g), o_id o)]) (acks ++ [(gs_day g, ge_date (gs_env g), o_id o)]) br).
Proof.
  intros go o g g' tmp lines acks br E. unfold gate_order in E. destruct (go_acct go); [discriminate|]. destruct (go_stock go); [|discriminate]. cbn [negb] in E.
  destruct (o_side o); [|discriminate]. destruct (encode (o_code o)) as [sym|]; [|discriminate].
  destruct (write_line _ _ _ _ _) as [[u|x] txt]; [|discriminate]. unfold save_orders in E. cbn [gs_orders set_gorders set_ofile gs_env] in E.
  destruct (forallb _ _); [|discriminate]. destruct (ge_save (gs_env g)) as [v|]; [|discriminate]. injection E as <-.
  unfold of_gate. cbn [gs_orders gs_day gs_env gs_data set_data set_gorders set_ofile].
  set (m := dset (o_id o) (json o) (gs_orders g)). set (d := ge_date (gs_env g)). set (day := gs_day g).
  assert (S : snaps (dset day m (gs_data g)) = dset day (FSnap m) (snaps (gs_data g))).
  { unfold snaps. induction (gs_data g) as [|[k v'] l IH]; [reflexivity|]. cbn [dset map fst snd]. destruct (eqb day k); cbn [map fst snd]; [reflexivity|]. rewrite IH. reflexivity. }
  exists (dpop day (dset day (FSnap m) (dset day FTorn tmp))). cbn [submit repeat p_run]. unfold p_step at 1. cbn [ps_pc p_set]. unfold p_step at 1. cbn [ps_pc p_set p_line ps_mem ps_date ps_day ps_data ps_tmp ps_lines ps_acked ps_broken].
  unfold p_step at 1. cbn [ps_pc p_set p_line p_mem ps_mem ps_date ps_day ps_data ps_tmp ps_lines ps_acked ps_broken].
  unfold p_step at 1. cbn [ps_pc p_set p_line p_mem p_files ps_mem ps_date ps_day ps_data ps_tmp ps_lines ps_acked ps_broken].
  unfold p_step at 1. cbn [ps_pc p_set p_line p_mem p_files ps_mem ps_date ps_day ps_data ps_tmp ps_lines ps_acked ps_broken].
  unfold p_step at 1. cbn [ps_pc p_set p_line p_mem p_files ps_mem ps_date ps_day ps_data ps_tmp ps_lines ps_acked ps_broken].
  fold m d day. rewrite dget_dset_same. cbn [orb].
  unfold p_step at 1. cbn [ps_pc p_set p_line p_mem p_files p_ack ps_mem ps_date ps_day ps_data ps_tmp ps_lines ps_acked ps_broken].
  rewrite S. reflexivity.
Qed.
Print Assumptions C42_steps.
Example C42_demo :
  let a := some_order (lit "a") in let b := some_order (lit "b") in let b' := some_order (lit "bb") in
  match p_run true (LStart :: submit (lit "a") a ++ submit (lit "b") b ++ [LSync [(lit "a", a); (lit "b", b')]; LStep; LStep; LKill; LStart;
     LOrder (lit "c") a; LStep; LFail; LSetup] ++ submit (lit "d") a ++ [LOrder (lit "e") a; LKill]) (p_init 5) with
  | Some s => ps_acked s = [(5, 5, lit "a"); (5, 5, lit "b"); (5, 5, lit "d")] /\ ps_broken s = [lit "c"; lit "e"] /\ map snd (ps_lines s) = [lit "a"; lit "b"; lit "c"; lit "d"] /\
      match p_step true LStart s with Some s' => dkeys (ps_mem s') = [lit "a"; lit "b"; lit "d"] | None => False end
  | None => False end.
Proof. vm_compute. auto. Qed.

(** ** C45 *)

(** Proved if the process was set up (started, or setup() called again) on the day of the order. *)
Theorem C45_same_day_partial :
  forall s s' id, p_reach true s -> acked s (ps_date s) (ps_date s) id -> p_run true [LKill; LStart] s = Some s' -> known s' id.
Proof.
  intros s s' id R A E. cbn [p_run] in E. destruct (p_step true LKill s) as [s1|] eqn:E1; [|discriminate]. destruct (p_step true LStart s1) as [s2|] eqn:E2; [|discriminate]. injection E as <-.
  assert (X : ps_date s1 = ps_date s /\ ps_acked s1 = ps_acked s) by (unfold p_step in E1; destruct (ps_pc s); try discriminate; injection E1 as <-; auto).
  destruct X as [X1 X2]. eapply C42_acknowledged_partial; [eapply pr_step; [exact R|exact E1]|exact E2|]. unfold acked in *. rewrite X1, X2. exact A.
Qed.
Print Assumptions C45_same_day_partial.
(** False if it was set up on an earlier day, for all days and orders: the order was saved
    under the day of the set-up. *)
Theorem C45_refuted :
  forall d1 d2 id i, d1 < d2 -> exists s,
    p_run true (LStart :: LDay d2 :: submit id i ++ [LKill; LStart]) (p_init d1) = Some s /\
    acked s d1 d2 id /\ ps_day s = d2 /\ dget d1 (ps_data s) = Some (FSnap [(id, i)]) /\ ~ known s id.
Proof.
  intros d1 d2 id i L. apply Z.ltb_lt in L as L'. assert (N : d2 <> d1) by lia.
  cbn [p_run submit repeat app]. unfold p_step at 1. cbn [ps_pc p_init ps_date ps_data ps_tmp ps_lines ps_acked ps_broken].
  unfold p_step at 1. cbn [ps_pc ps_date ps_data ps_tmp ps_lines ps_acked ps_broken ps_mem ps_day]. rewrite L'.
  do 2 (unfold p_step at 1; cbn [ps_pc p_set p_line p_mem p_files ps_mem ps_date ps_day ps_data ps_tmp ps_lines ps_acked ps_broken]).
  do 3 (unfold p_step at 1; cbn [ps_pc p_set p_line p_mem p_files ps_mem ps_date ps_day ps_data ps_tmp ps_lines ps_acked ps_broken]).
  unfold p_step at 1. cbn [ps_pc p_set p_line p_mem p_files ps_mem ps_date ps_day ps_data ps_tmp ps_lines ps_acked ps_broken]. rewrite dget_dset_same. cbn [orb].
  do 3 (unfold p_step at 1; cbn [ps_pc p_set p_line p_mem p_files p_ack p_break ps_mem ps_date ps_day ps_data ps_tmp ps_lines ps_acked ps_broken]).
  eexists. split; [reflexivity|]. cbn [ps_acked acked ps_day ps_data known ps_mem]. unfold acked, known. cbn [ps_acked ps_mem app]. split; [left; reflexivity|]. split; [reflexivity|].
  split; [apply dget_dset_same|]. unfold load_orders. rewrite dget_dset_other by exact N. intros [].
Qed.
Print Assumptions C45_refuted.
Example C45_demo :
  let a := some_order (lit "a") in
  match p_run true (LStart :: LDay 6 :: LSetup :: submit (lit "a") a) (p_init 5) with
  | Some s => ps_acked s = [(6, 6, lit "a")] /\ match p_run true [LKill; LStart] s with Some s' => ps_mem s' = [(lit "a", a)] | None => False end | None => False end.
Proof. vm_compute. auto. Qed.
