(** C55 for any number of set_options calls in process_initialize. *)
From Verif Require Import PyBase PyStr MTime MTimeExpr MEventSource LEventSource2 MBus SBus LBus MStrategy SStrategy LStrategy LStrategy2.
Open Scope list_scope.
Open Scope Z_scope.

(** ** Specification: what a call does, by its arguments and the world alone *)
Section Spec.
  Context (fuel : nat) (sc : scfg).
  (** it gets as far as making a new account object *)
  Definition makes (k : sopts) (e : senv) : bool :=
    match parse_opts k, e_dir e, e_load e with
    | Ok _, Ok _, Ok _ => use_in_force sc k && so_acct k
    | _, _, _ => false
    end.
  (** ... and as far as registering its syncs *)
  Definition times_syncs (k : sopts) (e : senv) : bool :=
    makes k e &&
    match parse_opts k, e_gate e with
    | Ok o, Ok _ => match sync_entries fuel sc (e_now e) o with GOk _ => true | _ => false end
    | _, _ => false
    end.
  (** the syncs registered by these calls, the next account object being the [n]-th *)
  Fixpoint syncs_of (n : nat) (cs : list ucall) : list cb :=
    match cs with
    | [] => []
    | UOpt k e :: cs' =>
        (if times_syncs k e then sync_cbs sc k n else []) ++ syncs_of (if makes k e then S n else n) cs'
    | _ :: cs' => syncs_of n cs'
    end.
  (** the account objects made *)
  Fixpoint made (cs : list ucall) : nat :=
    match cs with
    | [] => O
    | UOpt k e :: cs' => ((if makes k e then 1 else 0) + made cs')%nat
    | _ :: cs' => made cs'
    end.
  (** the timers they start *)
  Fixpoint timers (cs : list ucall) : nat :=
    match cs with
    | [] => O
    | UOpt k e :: cs' => ((if times_syncs k e && (need_bal sc k || need_ord sc k) then 1 else 0) + timers cs')%nat
    | _ :: cs' => timers cs'
    end.
End Spec.

Section Calls.
  Context (fuel : nat) (cfg : escfg) (sc : scfg) (st : Z) (en : option Z).
  Notation uexec := (uexec fuel sc st en).
  Notation setup := (setup fuel cfg sc st en).

  Lemma one_call k e s : st_allowed s = true ->
    let s' := snd (set_options fuel sc st en k e s) in
    st_allowed s' = true /\
    st_bus s' = fold_left b_step (map (fun c => Reg sync_cls c 0) (if times_syncs fuel sc k e then sync_cbs sc k (st_nacc s) else [])) (st_bus s) /\
    st_nacc s' = (if makes sc k e then S (st_nacc s) else st_nacc s) /\
    st_acc s' = (if makes sc k e then Some (st_nacc s) else st_acc s) /\
    length (st_srcs s') = ((if times_syncs fuel sc k e && (need_bal sc k || need_ord sc k) then 1 else 0) + length (st_srcs s))%nat.
  Proof.
    intro A. cbv zeta. unfold set_options, times_syncs, makes, use_in_force. rewrite A. cbn [negb].
    destruct (parse_opts k) as [o|x] eqn:Ep; [|cbn; auto]. destruct (parse_opts_keep _ _ Ep) as (K1 & K2 & K3 & K4).
    destruct (e_dir e); [|cbn; auto]. rewrite K1. set (use := match so_use k with Some b => b | None => sc_setup sc end).
    destruct use; [|destruct (e_load e); cbn; auto]. unfold setup_account. rewrite K2.
    destruct (so_acct k); cbn [negb andb]; [|destruct (e_load e); cbn; auto].
    destruct (e_load e); [|cbn; auto]. destruct (e_gate e); [|cbn; auto].
    assert (B1 : need_bal sc o = need_bal sc k) by (unfold need_bal; rewrite K3; reflexivity).
    assert (B2 : need_ord sc o = need_ord sc k) by (unfold need_ord; rewrite K4; reflexivity).
    unfold setup_timer, sync_cbs. rewrite B1, B2.
    destruct (sync_entries fuel sc (e_now e) o) as [l|x|]; destruct (need_bal sc k), (need_ord sc k); cbn [orb andb snd app map fold_left b_step];
      cbn; rewrite ?app_length; cbn; repeat split; first [reflexivity|exact A|lia].
  Qed.

  Lemma many_calls cs : forall s, st_allowed s = true ->
    let s' := uexec cs s in
    st_bus s' = fold_left b_step (map (fun c => Reg sync_cls c 0) (syncs_of fuel sc (st_nacc s) cs)) (st_bus s) /\
    st_nacc s' = (made sc cs + st_nacc s)%nat /\
    st_acc s' = match made sc cs with O => st_acc s | S n => Some (n + st_nacc s)%nat end /\
    length (st_srcs s') = (timers fuel sc cs + length (st_srcs s))%nat.
  Proof.
    induction cs as [|c cs IH]; intros s A; cbv zeta; [cbn; auto|]. cbn [MStrategy.uexec].
    destruct c as [f t|k e|n o].
    - assert (A' : st_allowed (snd (ustep fuel sc st en (URun f t) s)) = true).
      { cbn [ustep]. unfold run_daily. destruct (f_name f); [|exact A]. rewrite A. cbn. destruct (f_callable f); exact A. }
      destruct (ustep_not_opt fuel sc st en (URun f t) s I) as (N1 & N2 & N3 & _ & N5).
      specialize (IH _ A'). cbv zeta in IH. rewrite N1, N2, N3, N5 in IH. exact IH.
    - destruct (one_call k e s A) as (A' & O1 & O2 & O3 & O4). cbn [ustep syncs_of made timers].
      destruct (IH _ A') as (I1 & I2 & I3 & I4). cbv zeta in *. rewrite map_app, fold_left_app. rewrite I1, I2, I3, I4, O1, O2, O3, O4.
      destruct (makes sc k e); (split; [reflexivity|]).
      + split; [lia|]. split; [|lia]. destruct (made sc cs) as [|m]; [reflexivity|]. cbn [Nat.add]. f_equal. lia.
      + split; [lia|]. split; [|lia]. reflexivity.
    - destruct (ustep_not_opt fuel sc st en (UBind n o) s I) as (N1 & N2 & N3 & _ & N5).
      assert (A' : st_allowed (snd (ustep fuel sc st en (UBind n o) s)) = true) by exact A.
      specialize (IH _ A'). cbv zeta in IH. rewrite N1, N2, N3, N5 in IH. exact IH.
  Qed.

  (** Whatever process_initialize does: a sync event makes every account object that a
      set_options call ever set up sync its balance and then its orders, as that call's
      options ask, in the order of the calls; the strategy's account is the last one made; and
      each of these calls started a timer of its own. *)
  Theorem C55_any_calls :
    forall now cs ns s4, setup now true cs None (strat_new ns) = (GOk tt, s4) ->
      MBus.calls inst sync_cls (st_bus s4) = syncs_of fuel sc 0 cs /\
      st_acc s4 = match made sc cs with O => None | S n => Some n end /\
      length (st_srcs s4) = (timers fuel sc cs + length (asked cs))%nat.
  Proof.
    intros now cs ns s4 Hs. assert (Sl : length (st_sched s4) = length (asked cs)).
    { pose proof (setup_sched fuel cfg sc st en now cs None ns) as Q. rewrite Hs in Q. cbn [snd] in Q. rewrite Q. apply map_length. }
    unfold MStrategy.setup, schedule_all_tasks in Hs.
    set (s1 := set_allowed true (make_apis sc (strat_new ns))) in *.
    set (s3 := set_allowed false (uexec cs s1)) in *.
    destruct (schedule_descs fuel cfg sc st en now (st_sched s3) s3) as [s5|x|] eqn:E; try discriminate.
    assert (Ep : forall a b : gres unit * strat, a = b -> snd a = snd b) by (intros a b ->; reflexivity).
    apply Ep in Hs. cbn [snd] in Hs. subst s5. clear Ep.
    destruct (schedule_descs_acc _ _ _ _ _ _ _ _ _ E) as (A1 & _ & _).
    destruct (schedule_descs_srcs _ _ _ _ _ _ _ _ _ E) as (ts & G1 & G2 & _).
    destruct (schedule_descs_frame _ _ _ _ _ _ _ _ _ E) as (_ & F2 & _).
    destruct (many_calls cs s1 eq_refl) as (M1 & M2 & M3 & M4). cbv zeta in *.
    assert (Eb : st_bus s3 = fold_left b_step (map (fun c => Reg sync_cls c 0) (syncs_of fuel sc 0 cs)) bus_new) by exact M1.
    split; [|split].
    2:{ rewrite A1. unfold s3. cbn [set_allowed st_acc]. rewrite M3. destruct (made sc cs) as [|n]; [reflexivity|]. cbn. f_equal. lia. }
    2:{ rewrite G1, app_length, G2, <- F2, Sl. unfold s3 at 1. cbn [set_allowed st_srcs]. rewrite M4. cbn [s1 set_allowed make_apis set_ns strat_new st_srcs length]. lia. }
    pose proof (schedule_descs_bus _ _ _ _ _ _ _ _ _ E) as E2.
    set (regs := task_regs (st_ns s3) (st_count s3) (st_sched s3)) in *.
    set (cbs := syncs_of fuel sc 0 cs) in *.
    set (ops := map (fun c => Reg sync_cls c 0) cbs ++ regs).
    assert (Hb : st_bus s4 = b_run ops) by (unfold b_run, ops; rewrite fold_left_app, E2, Eb; reflexivity).
    rewrite Hb.
    assert (Hregs : forall ds j o, In o (task_regs (st_ns s3) j ds) -> exists k' c p, o = Reg k' c p /\ k' <> sync_cls).
    { induction ds as [|d ds IH]; intros j o; cbn [task_regs]; [intros []|]. intros [<-|Hin].
      - exists (cls_of j d), (CbUser j (dget (d_name d) (st_ns s3))), 0. split; [reflexivity|apply cls_of_sync].
      - exact (IH _ _ Hin). }
    assert (HD : delivers (of_class sync_cls (live ops)) (MBus.calls inst sync_cls (b_run ops))).
    { apply delivery_one; [reflexivity|]. intros k' c p _ Hi. unfold inst in Hi. destruct (eqb_spec sync_cls k'); [auto|discriminate]. }
    assert (HL : of_class sync_cls (live ops) = map (fun c => En sync_cls 0 c) cbs).
    { unfold live. rewrite live_no_unreg; cbn [app].
      - unfold ops. rewrite flat_map_app. unfold of_class. rewrite filter_app.
        change (filter (fun x => eqb sync_cls (en_cls x))) with (@of_class ecls cb _ sync_cls).
        rewrite (of_class_none sync_cls regs) by (intros o Ho; exact (Hregs _ _ _ Ho)). rewrite app_nil_r.
        generalize cbs. clear. induction cbs as [|c l IH]; [reflexivity|]. cbn [map flat_map app]. cbn. f_equal. exact IH.
      - unfold ops. intros o Ho. apply in_app_or in Ho as [Ho|Ho].
        + apply in_map_iff in Ho as (c & <- & _). eauto.
        + destruct (Hregs _ _ _ Ho) as (k' & c & p & -> & _). eauto. }
    rewrite HL in HD. exact (delivers_same _ _ _ HD).
  Qed.

  (** So C55 holds exactly if only one of the calls gets as far as registering syncs; with
      [n] calls that do, every event makes [n] accounts sync, and [n] timers send events. *)
  Lemma syncs_repeat k e : times_syncs fuel sc k e = true -> forall n i,
    syncs_of fuel sc i (repeat (UOpt k e) n) = flat_map (sync_cbs sc k) (seq i n) /\ made sc (repeat (UOpt k e) n) = n /\
    (need_bal sc k || need_ord sc k = true -> timers fuel sc (repeat (UOpt k e) n) = n).
  Proof.
    intro T. assert (Mk : makes sc k e = true) by (unfold times_syncs in T; apply andb_prop in T; apply T).
    induction n as [|n IH]; intro i; [auto|]. cbn [repeat syncs_of made timers seq flat_map]. rewrite T, Mk. destruct (IH (S i)) as (-> & -> & I3).
    repeat split. intro N. rewrite N, I3 by exact N. reflexivity.
  Qed.
  Theorem C55_many_calls_refuted :
    forall now k e n ns s4, setup now true (repeat (UOpt k e) n) None (strat_new ns) = (GOk tt, s4) ->
      times_syncs fuel sc k e = true -> need_bal sc k = true -> need_ord sc k = true ->
      MBus.calls inst sync_cls (st_bus s4) = flat_map (fun i => [CbBal i; CbOrd i]) (seq 0 n) /\ length (st_srcs s4) = n.
  Proof.
    intros now k e n ns s4 Hs T NB NO. destruct (C55_any_calls _ _ _ _ Hs) as (-> & _ & ->).
    destruct (syncs_repeat k e T n 0) as (-> & _ & ->); [|rewrite NB; reflexivity].
    assert (E : sync_cbs sc k = fun i => [CbBal i; CbOrd i]) by (unfold sync_cbs; rewrite NB, NO; reflexivity). split; [rewrite E; reflexivity|].
    assert (L : length (asked (repeat (UOpt k e) n)) = 0%nat) by (clear; induction n as [|n IH]; [reflexivity|exact IH]). lia.
  Qed.
  (** One call that registers syncs among any others that raise before, also after making an
      account: its account alone is synced; if the strategy goes on after a later call that
      made an account and then raised, that account is the strategy's and nothing syncs it. *)
  Theorem C55_raised_refuted :
    forall now k e k2 e2 ns s4, setup now true [UOpt k e; UOpt k2 e2] None (strat_new ns) = (GOk tt, s4) ->
      times_syncs fuel sc k e = true -> makes sc k2 e2 = true -> times_syncs fuel sc k2 e2 = false ->
      MBus.calls inst sync_cls (st_bus s4) = sync_cbs sc k 0 /\ st_acc s4 = Some 1%nat.
  Proof.
    intros now k e k2 e2 ns s4 Hs T M2 T2. destruct (C55_any_calls _ _ _ _ Hs) as (-> & -> & _).
    assert (Mk : makes sc k e = true) by (unfold times_syncs in T; apply andb_prop in T; apply T).
    cbn [syncs_of made]. rewrite T, T2, Mk, M2. rewrite !app_nil_r. split; reflexivity.
  Qed.
End Calls.
Print Assumptions C55_any_calls.
Print Assumptions C55_many_calls_refuted.
Print Assumptions C55_raised_refuted.

Definition ca_k : sopts := SOpts None None true None None None None.
Definition ca_e (gate : res unit) : senv := SEnv (Ok tt) (Ok tt) gate (86390 * US).
Example C55_calls_demo :
  let run cs := let r := setup 100 cfg_default scfg_default 0 None (fun _ => 0) true cs None (strat_new []) in
                (fst r, MBus.calls inst sync_cls (st_bus (snd r)), st_acc (snd r), length (st_srcs (snd r))) in
  run (repeat (UOpt ca_k (ca_e (Ok tt))) 3) = (GOk tt, [CbBal 0; CbOrd 0; CbBal 1; CbOrd 1; CbBal 2; CbOrd 2], Some 2%nat, 3%nat) /\
  run [UOpt ca_k (ca_e (Ok tt)); UOpt ca_k (ca_e (Err FileNotFoundError))] = (GOk tt, [CbBal 0; CbOrd 0], Some 1%nat, 1%nat) /\
  times_syncs 100 scfg_default ca_k (ca_e (Ok tt)) = true /\ makes scfg_default ca_k (ca_e (Err OSError)) = true /\
  times_syncs 100 scfg_default ca_k (ca_e (Err OSError)) = false.
Proof. vm_compute. repeat split; reflexivity. Qed.
