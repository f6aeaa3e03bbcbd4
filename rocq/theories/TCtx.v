(** C148: the object [context] that user functions get. *)
From Coq Require Import String.
From Verif Require Import PyBase PyStr MTime MTimeExpr MEventSource MQueue MLoop MSched MBus MStrategy SStrategy
  LLoop LSched LApi LEventSource2 MProcess MAccount MApi MCtx.
From Verif Require Import TSched TProcess.
Open Scope list_scope.
Open Scope Z_scope.

Definition named {V} (a : uattr V) : str := match a with USet n _ => n | UDel n => n end.
(** the attributes the README documents *)
Definition documented : list str := [lit "current_dt"; lit "strategy_dt"; lit "portfolio"].
(** the strategy leaves the private attribute alone *)
Definition decent {V} (l : list (uattr V)) : Prop := Forall (fun a => named a <> lit "_UserContext__ctx") l.

(** what was last done to an attribute of the strategy's own: assigned a value, or not
    there *)
Fixpoint lastly {V} (n : str) (l : list (uattr V)) (before : option V) : option V :=
  match l with
  | [] => before
  | USet m v :: l' => lastly n l' (if str_eqb m n then Some v else before)
  | UDel m :: l' => lastly n l' (if str_eqb m n then None else before)
  end.

Lemma property_in n : uc_property n = true <-> In n documented.
Proof.
  unfold uc_property, documented. rewrite !orb_true_iff. cbn [In].
  assert (E : forall a, str_eqb n a = true <-> a = n).
  { intro a. split; [intro H; destruct (str_eqb_spec n a); congruence|intros ->; destruct (str_eqb_spec n n); congruence]. }
  rewrite !E. tauto.
Qed.
Lemma property_out n : ~ In n documented -> uc_property n = false.
Proof. intro H. destruct (uc_property n) eqn:E; [|reflexivity]. destruct H. apply property_in, E. Qed.

Section Own.
  Context {V : Type}.
  Implicit Types u : dict str (cval V).

  Lemma nodup_step a u : NoDup (dkeys u) -> NoDup (dkeys (snd (uc_step a u))).
  Proof.
    intro H. destruct a as [n v|n]; cbn [uc_step].
    - destruct (uc_property n); [exact H|]. cbn [snd]. apply NoDup_dset, H.
    - destruct (uc_property n || negb (dmem n u)); [exact H|]. cbn [snd].
      clear -H. induction u as [|[k w] u IH]; cbn [dpop dkeys map fst]; [constructor|].
      cbn [dkeys map fst] in H. inversion H as [|? ? H1 H2]; subst.
      destruct (PyBase.eqb n k); [exact H2|]. cbn [dkeys map fst]. constructor; [|apply IH, H2].
      intro Hin. apply H1. clear -Hin. unfold dkeys in *. induction u as [|[k' w'] u IH]; [exact Hin|].
      cbn [dpop] in Hin. destruct (PyBase.eqb n k'); [right; exact Hin|]. cbn [map fst] in *.
      destruct Hin as [E|Hin]; [left; exact E|right; apply IH, Hin].
  Qed.
  Lemma get_step n a u : NoDup (dkeys u) -> uc_property n = false ->
    dget n (snd (uc_step a u)) =
      match a with
      | USet m v => if str_eqb m n then Some (VUser v) else dget n u
      | UDel m => if str_eqb m n then None else dget n u
      end.
  Proof.
    intros Hu Hp. destruct a as [m v|m]; cbn [uc_step].
    - destruct (str_eqb_spec m n) as [->|Hne].
      + rewrite Hp. cbn [snd]. apply dget_dset_same.
      + destruct (uc_property m); [reflexivity|]. cbn [snd]. apply dget_dset_other. congruence.
    - destruct (str_eqb_spec m n) as [->|Hne].
      + rewrite Hp. unfold dmem. destruct (dget n u) eqn:E; cbn [orb negb snd]; [|exact E].
        rewrite dget_dpop by exact Hu. rewrite PyBase.eqb_refl. reflexivity.
      + destruct (uc_property m || negb (dmem m u)); [reflexivity|]. cbn [snd]. rewrite dget_dpop by exact Hu.
        destruct (PyBase.eqb_spec n m); [congruence|reflexivity].
  Qed.
  Lemma run_from l : forall u, NoDup (dkeys u) -> decent l ->
    dget private (fold_left (fun u a => snd (uc_step a u)) l u) = dget private u /\
    forall n b, uc_property n = false -> n <> private -> dget n u = option_map VUser b ->
      dget n (fold_left (fun u a => snd (uc_step a u)) l u) = option_map VUser (lastly n l b).
  Proof.
    induction l as [|a l IH]; intros u Hu Hd; [split; [reflexivity|intros; assumption]|].
    inversion Hd as [|? ? Ha Hl]; subst. cbn [fold_left].
    destruct (IH (snd (uc_step a u)) (nodup_step a u Hu) Hl) as [I1 I2]. split.
    - rewrite I1. rewrite get_step by (try exact Hu; vm_compute; reflexivity).
      change (lit "_UserContext__ctx") with private in Ha. destruct a as [m v|m]; cbn [named] in Ha; destruct (str_eqb_spec m private); congruence.
    - intros n b Hp Hn Hb. destruct a as [m v|m]; cbn [lastly]; apply I2; try assumption;
        rewrite get_step by assumption; destruct (str_eqb m n); [reflexivity|exact Hb|reflexivity|exact Hb].
  Qed.
  Lemma run_private l : decent l -> dget private (uc_run (V:=V) l) = Some VSelf.
  Proof.
    intro H. unfold uc_run. destruct (run_from l uc_new) as [-> _]; [|exact H|].
    - cbn. constructor; [intros []|constructor].
    - vm_compute. reflexivity.
  Qed.
End Own.

(** Whatever user functions have stored on the object: the three documented attributes are
    the scheduled time of the loop, the clock, and the portfolio if the account is enabled. *)
Theorem C148_attributes :
  forall V (l : list (uattr V)) tz x, decent l ->
    uc_get tz x (lit "strategy_dt") (uc_run l) =
      Ok (VDt (match se_st x with Some t => if t =? 0 then None else Some (t * 1000 + tz) | None => None end)) /\
    uc_get tz x (lit "current_dt") (uc_run l) = Ok (VDt (Some (se_clock x * 1000 + tz))) /\
    uc_get tz x (lit "portfolio") (uc_run l) =
      match se_use x with Some true => Ok (VFolio (se_acc x)) | _ => Err InvalidCall end.
Proof.
  intros V l tz x H. pose proof (run_private l H) as P. unfold uc_get.
  replace (uc_property (lit "strategy_dt")) with true by reflexivity.
  replace (uc_property (lit "current_dt")) with true by reflexivity.
  replace (uc_property (lit "portfolio")) with true by reflexivity.
  rewrite P. split; [reflexivity|]. split; [reflexivity|].
  change (str_eqb (lit "portfolio") (lit "strategy_dt")) with false.
  change (str_eqb (lit "portfolio") (lit "current_dt")) with false. cbv iota.
  unfold ctx_portfolio. destruct (se_use x) as [[|]|]; reflexivity.
Qed.
Print Assumptions C148_attributes.

(** They can be neither assigned nor deleted. *)
Theorem C148_read_only :
  forall V n (v : V) u, In n documented ->
    uc_step (USet n v) u = (Err AttributeError, u) /\ uc_step (UDel n) u = (Err AttributeError, u).
Proof. intros V n v u H. apply property_in in H. cbn [uc_step]. rewrite H. split; reflexivity. Qed.
Print Assumptions C148_read_only.

(** Any other attribute is what user functions, process_initialize or tasks, last made it. *)
Theorem C148_own :
  forall V (l : list (uattr V)) tz x n, decent l -> ~ In n documented -> n <> lit "_UserContext__ctx" ->
    uc_get tz x n (uc_run l) =
      match lastly n l None with Some v => Ok (VUser v) | None => Err AttributeError end.
Proof.
  intros V l tz x n H Hn Hp. unfold uc_get. rewrite (property_out n Hn).
  unfold uc_run. destruct (run_from l uc_new) as [_ E]; [cbn; constructor; [intros []|constructor]|exact H|].
  rewrite (E n None (property_out n Hn) Hp).
  - destruct (lastly n l None); reflexivity.
  - cbn [dget uc_new option_map]. change (PyBase.eqb n private) with (str_eqb n private).
    change (lit "_UserContext__ctx") with private in Hp. destruct (str_eqb_spec n private); [congruence|reflexivity].
Qed.
Print Assumptions C148_own.

(** ** during process_initialize *)

Definition sets (c : ucall) : bool := match c with UOpt _ _ => true | _ => false end.

Lemma unset_keeps fuel sc st en cs : forall s, forallb (fun c => negb (sets c)) cs = true ->
  st_use (uexec fuel sc st en cs s) = st_use s /\ st_acc (uexec fuel sc st en cs s) = st_acc s /\
  st_nacc (uexec fuel sc st en cs s) = st_nacc s.
Proof.
  induction cs as [|c cs IH]; intros s H; [repeat split|]. cbn [forallb] in H. apply andb_prop in H as [H1 H2].
  cbn [uexec]. destruct (IH (snd (ustep fuel sc st en c s)) H2) as (-> & -> & ->).
  destruct c as [f t|k e|n o]; [|discriminate H1|repeat split].
  unfold ustep. unfold run_daily. destruct (f_name f); [|repeat split].
  destruct (negb (st_allowed s)); [repeat split|]. destruct (negb (f_callable f)); repeat split.
Qed.
Lemma set_acc fuel sc st en k e s s' :
  set_options fuel sc st en k e s = (GOk tt, s') ->
  st_use s' = Some (match so_use k with Some b => b | None => sc_setup sc end) /\
  (match so_use k with Some b => b | None => sc_setup sc end = true ->
   st_acc s' = Some (st_nacc s) /\ st_nacc s' = S (st_nacc s)).
Proof.
  intro H. destruct (set_options_ok _ _ _ _ _ _ _ _ H) as (b & U & _ & ->). split; [exact U|].
  revert H. unfold set_options. destruct (negb (st_allowed s)); [discriminate|].
  destruct (parse_opts k) as [o|] eqn:Ep; [|discriminate].
  assert (E : so_use o = so_use k).
  { unfold parse_opts, rbind in Ep. destruct (parse_opt (so_mp k)); [|discriminate].
    destruct (match so_interval k with Some (Err e0) => _ | _ => _ end); [|discriminate].
    destruct (parse_opt (so_period k)); [|discriminate]. apply Ok_inj in Ep. subst o. reflexivity. }
  destruct (e_dir e); [|discriminate]. rewrite E. intros H Hb. rewrite Hb in H.
  unfold setup_account in H. destruct (negb (so_acct o)); [discriminate|].
  destruct (e_load e); [|discriminate]. destruct (e_gate e); [|discriminate].
  destruct (need_bal sc o || need_ord sc o); [|injection H as <-; split; reflexivity].
  unfold setup_timer in H. destruct (sync_entries _ _ _ _); try discriminate. injection H as <-. split; reflexivity.
Qed.

(** While process_initialize runs and has not called set_options there is no portfolio; after
    a set_options that returned, and until the next one, there is that of the account made
    last if the account is enabled, else none. *)
Theorem C148_initialize :
  forall V (l : list (uattr V)) fuel sc st en tz clock ns pre k e post s2, decent l ->
    let s1 := set_allowed true (make_apis sc (strat_new ns)) in
    let shows s := uc_get tz (Seen None clock (st_use s) (st_acc s)) (lit "portfolio") (uc_run l) in
    (forall cs, forallb (fun c => negb (sets c)) cs = true -> shows (uexec fuel sc st en cs s1) = Err InvalidCall) /\
    (forallb (fun c => negb (sets c)) post = true ->
     set_options fuel sc st en k e (uexec fuel sc st en pre s1) = (GOk tt, s2) ->
     shows (uexec fuel sc st en (pre ++ UOpt k e :: post) s1) =
       if (match so_use k with Some b => b | None => sc_setup sc end)
       then Ok (VFolio (Some (st_nacc (uexec fuel sc st en pre s1)))) else Err InvalidCall).
Proof.
  intros V l fuel sc st en tz clock ns pre k e post s2 H s1 shows.
  assert (A : forall s, shows s = match st_use s with Some true => Ok (VFolio (st_acc s)) | _ => Err InvalidCall end).
  { intro s. unfold shows. destruct (C148_attributes V l tz (Seen None clock (st_use s) (st_acc s)) H) as (_ & _ & ->). reflexivity. }
  split.
  - intros cs Hcs. rewrite A. destruct (unset_keeps fuel sc st en cs s1 Hcs) as (-> & _ & _). reflexivity.
  - intros Hpost Hs.
    assert (E : uexec fuel sc st en (pre ++ UOpt k e :: post) s1 = uexec fuel sc st en post s2).
    { clear -Hs. clearbody s1. revert s1 Hs. induction pre as [|c pre IH]; intros s1 Hs; cbn [app uexec].
      - cbn [uexec] in Hs. cbn [ustep]. rewrite Hs. reflexivity.
      - apply IH. exact Hs. }
    rewrite E, A. destruct (unset_keeps fuel sc st en post s2 Hpost) as (-> & -> & _).
    destruct (set_acc _ _ _ _ _ _ _ _ Hs) as [-> Hacc].
    destruct (match so_use k with Some b => b | None => sc_setup sc end); [|reflexivity].
    destruct (Hacc eq_refl) as [-> _]. reflexivity.
Qed.
Print Assumptions C148_initialize.

(** "No portfolio means InvalidCall" is false: after a set_options(use_account=True) that
    raised for lack of account_no, and was caught, [context.portfolio] is None. *)
Theorem C148_none_refuted :
  forall V (l : list (uattr V)) fuel sc st en tz clock ns k e o, decent l ->
    let s1 := set_allowed true (make_apis sc (strat_new ns)) in
    parse_opts k = Ok o -> so_use k = Some true -> so_acct k = false -> e_dir e = Ok tt ->
    fst (set_options fuel sc st en k e s1) = GErr InvalidParam /\
    let s := snd (set_options fuel sc st en k e s1) in
    uc_get tz (Seen None clock (st_use s) (st_acc s)) (lit "portfolio") (uc_run l) = Ok (VFolio None).
Proof.
  intros V l fuel sc st en tz clock ns k e o Hl s1 Hp Hu Ha Hd.
  assert (U : so_use o = Some true /\ so_acct o = false).
  { unfold parse_opts, rbind in Hp. destruct (parse_opt (so_mp k)); [|discriminate].
    destruct (match so_interval k with Some (Err e0) => _ | _ => _ end); [|discriminate].
    destruct (parse_opt (so_period k)); [|discriminate]. apply Ok_inj in Hp. subst o. auto. }
  destruct U as [U1 U2].
  assert (E : set_options fuel sc st en k e s1 = (GErr InvalidParam, set_use (Some true) (set_opts o s1))).
  { unfold set_options. cbn [st_allowed s1 set_allowed negb]. rewrite Hp, Hd, U1.
    unfold setup_account. rewrite U2. reflexivity. }
  rewrite E. split; [reflexivity|]. cbn [snd].
  destruct (C148_attributes V l tz (Seen None clock (st_use (set_use (Some true) (set_opts o s1))) (st_acc (set_use (Some true) (set_opts o s1)))) Hl) as (_ & _ & ->).
  reflexivity.
Qed.
Print Assumptions C148_none_refuted.

(** The README's default for use_account, False, is not that of the shipped configuration:
    a set_options without use_account enables the account, or raises for lack of
    account_no. *)
Theorem C148_default_refuted :
  forall fuel st en k e s s', so_use k = None ->
    set_options fuel scfg_default st en k e s = (GOk tt, s') -> st_use s' = Some true /\ so_acct k = true.
Proof.
  intros fuel st en k e s s' Hk H. destruct (set_acc _ _ _ _ _ _ _ _ H) as [U _]. rewrite Hk in U. split; [exact U|].
  revert H. unfold set_options. destruct (negb (st_allowed s)); [discriminate|].
  destruct (parse_opts k) as [o|] eqn:Ep; [|discriminate].
  assert (E : so_use o = so_use k /\ so_acct o = so_acct k).
  { unfold parse_opts, rbind in Ep. destruct (parse_opt (so_mp k)); [|discriminate].
    destruct (match so_interval k with Some (Err e0) => _ | _ => _ end); [|discriminate].
    destruct (parse_opt (so_period k)); [|discriminate]. apply Ok_inj in Ep. subst o. auto. }
  destruct E as [E1 E2]. destruct (e_dir e); [|discriminate]. rewrite E1, Hk. cbn [sc_setup scfg_default].
  unfold setup_account. rewrite E2. destruct (so_acct k); [reflexivity|discriminate].
Qed.
Print Assumptions C148_default_refuted.

(** ** in a task *)

Section Run.
  Context (fuel : nat) (cfg : escfg) (tz : Z).

  Definition calm (s : lstate scb sworld) : Prop := l_mode s = Idle /\ l_log s = [] /\ l_st s = None.
  Definition late (s : lstate scb sworld) : Prop := forall m n, In (m, n) (l_log s) -> m_time m <= n.
  Definition told (s : lstate scb sworld) : Prop :=
    forall m, l_mode s = Running m -> l_st s = Some (m_time m) /\ exists l n, l_log s = l ++ [(m, n)].

  Lemma act_keeps a (s : lstate scb sworld) : l_mode (do_act a s) = l_mode s /\ l_log (do_act a s) = l_log s /\ l_st (do_act a s) = l_st s.
  Proof. destruct a as [t p c|]; cbn; [repeat split|]. unfold do_stop. destruct (l_stop s); repeat split. Qed.
  Lemma acts_keep acts : forall s : lstate scb sworld, let s' := fold_left (fun st a => do_act a st) acts s in
    l_mode s' = l_mode s /\ l_log s' = l_log s /\ l_st s' = l_st s.
  Proof.
    induction acts as [|a acts IH]; intro s; [repeat split|]. cbn [fold_left]. destruct (IH (do_act a s)) as (-> & -> & ->).
    apply act_keeps.
  Qed.
  Lemma schedule_calm k d s s' : calm s -> schedule fuel cfg tz k d s = Some s' -> calm s'.
  Proof.
    intros Hc. unfold schedule. destruct (nth_error _ k); [|discriminate]. destruct (push_next _ _ _ _ _ _ _ _) as [[w2 acts] [x|]]; [discriminate|].
    destruct (w_hung w2); [discriminate|]. intro E. injection E as <-.
    destruct (acts_keep acts (set_w w2 s)) as (E1 & E2 & E3). unfold calm. rewrite E1, E2, E3. exact Hc.
  Qed.
  Lemma boot_calm srcs dates s : boot fuel cfg tz srcs dates = Some s -> calm s.
  Proof.
    unfold boot. assert (G : forall ds k s0, calm s0 -> schedule_all fuel cfg tz k ds s0 = Some s -> calm s).
    { induction ds as [|d ds IH]; intros k s0 Hc E; cbn [schedule_all] in E; [injection E as <-; exact Hc|].
      destruct (schedule fuel cfg tz k d s0) as [s1|] eqn:E1; [|discriminate]. eapply IH; [|exact E]. eapply schedule_calm; eassumption. }
    apply G. repeat split.
  Qed.

  Lemma late_told_step s s' lb : late s /\ told s -> l_step (sched_handler fuel cfg tz) s lb = Some s' -> late s' /\ told s'.
  Proof.
    intros [HL HT] E.
    assert (K : forall s'', l_log s'' = l_log s -> l_st s'' = l_st s -> l_mode s'' = l_mode s -> late s'' /\ told s'').
    { intros s'' E1 E2 E3. split; [intros m n; rewrite E1; apply HL|intros m; rewrite E1, E2, E3; apply HT]. }
    assert (N : forall s'', l_log s'' = l_log s -> (forall m, l_mode s'' <> Running m) -> late s'' /\ told s'').
    { intros s'' E1 E2. split; [intros m n; rewrite E1; apply HL|intros m Hm; destruct (E2 m Hm)]. }
    destruct lb as [| | | |now ex| |o|a|]; unfold l_step in E.
    - destruct (l_mode s); try discriminate. destruct (l_async s); [|discriminate]. injection E as <-. apply N; [reflexivity|discriminate].
    - destruct (l_mode s); try discriminate. destruct (l_timer s); [|discriminate]. injection E as <-. apply N; [reflexivity|discriminate].
    - destruct (l_mode s) eqn:M; try discriminate. destruct (l_sig s); [|discriminate]. injection E as <-.
      unfold do_stop. destruct (l_stop (set_sig false s)); apply K; try reflexivity; exact M.
    - destruct (l_mode s) eqn:M; try discriminate; injection E as <-; apply K; try reflexivity; exact M.
    - destruct (l_mode s) eqn:M; try discriminate. injection E as <-.
      unfold check_turn. destruct (l_stop s).
      { unfold leave. destruct (l_stop s); apply N; try reflexivity; discriminate. }
      destruct (q_pop (l_q s)) as [[m|x] q'].
      + destruct (now <? m_time m) eqn:Lt.
        * destruct ex.
          -- unfold leave. destruct (l_stop (do_stop (set_q q' s))); apply N; unfold do_stop; destruct (l_stop (set_q q' s)); try reflexivity; discriminate.
          -- apply N; [reflexivity|discriminate].
        * split.
          -- intros m' n' Hin. cbn in Hin. apply in_app_or in Hin as [Hin|[Hin|[]]]; [apply HL; exact Hin|].
             injection Hin as <- <-. apply Z.ltb_ge in Lt. exact Lt.
          -- intros m' Hm. cbn in Hm. injection Hm as <-. split; [reflexivity|]. exists (l_log s), now. reflexivity.
      + unfold leave. destruct (l_stop (set_stop true s)); apply N; try reflexivity; discriminate.
    - destruct (l_mode s) eqn:M; try discriminate. injection E as <-. unfold arm, leave.
      destruct (l_stop _); apply N; try reflexivity; discriminate.
    - destruct (l_mode s) eqn:M; try discriminate. injection E as <-. unfold finish.
      destruct (sched_handler fuel cfg tz (m_cb m) o (l_w s)) as [[w' acts] x].
      destruct (acts_keep acts (set_w w' s)) as (E1 & E2 & E3). set (s1 := fold_left _ acts _) in *.
      apply N; [|intros m'; discriminate]. destruct x as [x|]; cbn; [|exact E2].
      unfold do_stop. destruct (l_stop _); cbn; exact E2.
    - assert (R : l_log (do_act a s) = l_log s /\ l_st (do_act a s) = l_st s /\ l_mode (do_act a s) = l_mode s) by (pose proof (act_keeps a s); tauto).
      destruct R as (R1 & R2 & R3). destruct (l_mode s) eqn:M; try discriminate; injection E as <-; apply K; try assumption; congruence.
    - destruct (l_mode s); try discriminate. destruct (l_uvstop s); [|discriminate]. injection E as <-. apply N; [reflexivity|discriminate].
  Qed.
  Lemma late_told_exec ls : forall s s', late s /\ told s -> l_exec (sched_handler fuel cfg tz) s ls = Some s' -> late s' /\ told s'.
  Proof.
    induction ls as [|lb ls IH]; intros s s' H E; cbn [l_exec] in E; [injection E as <-; exact H|].
    destruct (l_step (sched_handler fuel cfg tz) s lb) as [s1|] eqn:E1; [|discriminate].
    eapply IH; [|exact E]. eapply late_told_step; eassumption.
  Qed.
End Run.

(** In a task, in every state of every process: strategy_dt is the instant the task was due
    (for whole seconds), current_dt is the clock, never before strategy_dt unless the clock
    was set back since the task started, and the portfolio is the one set_options left. *)
Theorem C148_task :
  forall V (l : list (uattr V)) fuel cfg sc tz st en now calls ns dates s4 s m sid k,
    decent l -> (0 < fuel)%nat -> tz mod US = 0 ->
    runs fuel cfg sc tz st en now calls ns dates s4 s ->
    l_mode s = Running m -> m_cb m = CSched sid k ->
    exists dt c shown began,
      (forall o s', l_step (sched_handler fuel (loop_cfg cfg sc s4) tz) s (LDone o) = Some s' ->
         w_emits (l_w s') = w_emits (l_w s) ++ [(k, (dt, c))]) /\
      (exists log, l_log s = log ++ [(m, began)]) /\
      (forall clock, uc_get tz (seen_of s4 s clock) (lit "strategy_dt") (uc_run l) = Ok (VDt shown)) /\
      (dt mod US = 0 -> dt <> tz -> shown = Some dt) /\
      (forall clock, uc_get tz (seen_of s4 s clock) (lit "current_dt") (uc_run l) = Ok (VDt (Some (clock * 1000 + tz))) /\
         (began <= clock -> forall d, shown = Some d -> d <= clock * 1000 + tz)) /\
      (forall clock, uc_get tz (seen_of s4 s clock) (lit "portfolio") (uc_run l) =
         match st_use s4 with Some true => Ok (VFolio (st_acc s4)) | _ => Err InvalidCall end).
Proof.
  intros V l fuel cfg sc tz st en now calls ns dates s4 s m sid k Hl Hf Htz (s0 & ls & Hs & Hlen & Hok & Hex) Hm Hcb.
  unfold start in Hs. destruct (setup _ _ _ _ _ _ _ _ _ _) as [[u|x|] s4'] eqn:Es; try discriminate.
  destruct (boot fuel (loop_cfg cfg sc s4') tz (st_srcs s4') dates) as [s0'|] eqn:Eb; [|discriminate].
  injection Hs as -> ->.
  assert (R : sreach fuel (loop_cfg cfg sc s4) tz (st_srcs s4) s) by (exists dates, s0, ls; auto).
  destruct (C08_strategy_dt_partial fuel (loop_cfg cfg sc s4) tz (st_srcs s4) s m sid k Hf R Hm Hcb) as (dt & c & He & Hdt).
  destruct (boot_calm _ _ _ _ _ _ Eb) as (B1 & B2 & B3).
  destruct (late_told_exec fuel (loop_cfg cfg sc s4) tz ls s0 s) as [HL HT]; [|exact Hex|].
  { split; [intros m' n Hin; rewrite B2 in Hin; destruct Hin|intros m' Hm'; congruence]. }
  destruct (HT m Hm) as [Hst (log & began & Hlog)].
  exists dt, c, (strategy_dt tz s), began. split; [exact He|]. split; [exists log; exact Hlog|].
  split; [intro clock; destruct (C148_attributes V l tz (seen_of s4 s clock) Hl) as (-> & _ & _); reflexivity|].
  split; [exact (Hdt Htz)|]. split.
  - intro clock. split; [destruct (C148_attributes V l tz (seen_of s4 s clock) Hl) as (_ & -> & _); reflexivity|].
    intros Hc d Hd. unfold strategy_dt in Hd. rewrite Hst in Hd. destruct (m_time m =? 0); [discriminate|].
    injection Hd as <-. unfold milliseconds_to_dt.
    assert (m_time m <= began). { apply (HL m began). rewrite Hlog. apply in_or_app. right. left. reflexivity. }
    lia.
  - intro clock. destruct (C148_attributes V l tz (seen_of s4 s clock) Hl) as (_ & _ & ->). reflexivity.
Qed.
Print Assumptions C148_task.

(** ... and before the loop runs the first message strategy_dt is None *)
Theorem C148_before :
  forall V (l : list (uattr V)) fuel cfg sc tz st en now calls ns dates s4 s0 clock, decent l ->
    start fuel cfg sc tz st en now calls ns dates = Some (s4, s0) ->
    uc_get tz (seen_of s4 s0 clock) (lit "strategy_dt") (uc_run l) = Ok (VDt None).
Proof.
  intros V l fuel cfg sc tz st en now calls ns dates s4 s0 clock Hl Hs.
  unfold start in Hs. destruct (setup _ _ _ _ _ _ _ _ _ _) as [[u|x|] s4'] eqn:Es; try discriminate.
  destruct (boot fuel (loop_cfg cfg sc s4') tz (st_srcs s4') dates) as [s0'|] eqn:Eb; [|discriminate].
  injection Hs as -> ->. destruct (boot_calm _ _ _ _ _ _ Eb) as (_ & _ & B3).
  destruct (C148_attributes V l tz (seen_of s4 s0 clock) Hl) as (-> & _ & _). unfold seen_of. cbn [se_st]. rewrite B3. reflexivity.
Qed.
Print Assumptions C148_before.

(** The Context the trading functions use is the one made last: in a task process, which
    makes one, that is the Context behind the object the functions get; before it is made
    get_instance raises InternalError. *)
Theorem C148_instance :
  instance [] = None /\ (forall c, instance [c] = Some c) /\
  (forall made c, instance (made ++ [c]) = Some c) /\
  forall made, made <> [] -> instance made <> None.
Proof.
  assert (G : forall made c, instance (made ++ [c]) = Some c) by (intros; unfold instance; rewrite fold_left_app; reflexivity).
  split; [reflexivity|]. split; [reflexivity|]. split; [exact G|].
  intros made H. destruct made as [|c0 made'] using rev_ind; [congruence|]. rewrite G. discriminate.
Qed.
Print Assumptions C148_instance.

(** ** a process: process_initialize stores a counter; the first task, run 4 seconds late,
    sees its scheduled time, the clock and the counter *)
Definition demo_attrs : list (uattr Z) :=
  [USet (lit "count") 0; USet (lit "portfolio") 5; USet (lit "count") 1; USet (lit "x") 7; UDel (lit "x")].
Example C148_demo_decent : decent demo_attrs.
Proof. repeat constructor; vm_compute; congruence. Qed.
Example C148_demo :
  match TProcess.demo_start with
  | Some (s4, s0) =>
      match l_exec (sched_handler 1500 (loop_cfg cfg_default scfg_default s4) TProcess.demo_tz) s0
              [LAsync; LTurn (TProcess.demo_ms 34204) false] with
      | Some s =>
          match l_mode s with Running m => m_cb m = CSched 1 0 | _ => False end /\
          map (fun n => uc_get TProcess.demo_tz (seen_of s4 s (TProcess.demo_ms 34205)) n (uc_run demo_attrs))
            [lit "strategy_dt"; lit "current_dt"; lit "portfolio"; lit "count"; lit "x"] =
          [Ok (VDt (Some (20000 * DAY + 34200 * US))); Ok (VDt (Some (20000 * DAY + 34205 * US)));
           Err InvalidCall; Ok (VUser 1); Err AttributeError]
      | None => False
      end
  | None => False
  end.
Proof. vm_compute. split; reflexivity. Qed.
Example C148_demo_set :
  let s1 := set_allowed true (make_apis scfg_default (strat_new [])) in
  let k := SOpts None None true (Some false) (Some false) None None in
  let e := SEnv (Ok tt) (Ok tt) (Ok tt) 63_000_000_000_000_000 in
  let s2 := snd (set_options 1500 scfg_default 0 None k e s1) in
  fst (set_options 1500 scfg_default 0 None k e s1) = GOk tt /\
  uc_get 0 (Seen None 5 (st_use s2) (st_acc s2)) (lit "portfolio") (uc_run demo_attrs) = Ok (VFolio (Some 0%nat)) /\
  uc_get 0 (Seen None 5 (st_use s1) (st_acc s1)) (lit "portfolio") (uc_run demo_attrs) = Err InvalidCall.
Proof. vm_compute. repeat split; reflexivity. Qed.
