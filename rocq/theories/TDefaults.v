(** C156: options left out have the documented defaults. *)
From Coq Require Import String.
From Verif Require Import PyBase PyStr MTime MTimeExpr MEventSource MQueue MLoop MSched MBus MStrategy MProcess.
Open Scope list_scope.
Open Scope Z_scope.

(** ** what is meant: the README's defaults (README.md:297-317, 358-372), except that of
    use_account *)
Definition or_else {A} (x : option A) (d : A) : option A := match x with Some a => Some a | None => Some d end.
Definition readme_period : rawmp := [[TStr (lit "09:30:00"); TStr (lit "11:30:00")]; [TStr (lit "13:00:00"); TStr (lit "15:00:00")]].
Definition filled (use : bool) (k : sopts) : sopts :=
  SOpts (or_else (so_mp k) readme_period) (or_else (so_use k) use) (so_acct k) (or_else (so_bal k) true) (or_else (so_ord k) true)
    (or_else (so_interval k) (Ok (5 * 1000000))) (or_else (so_period k) []).
(** a process_initialize with every set_options call written out in full *)
Definition in_full (use : bool) (c : ucall) : ucall := match c with UOpt k e => UOpt (filled use k) e | _ => c end.

(** ** lemmas *)
(** two strategies that differ in their options only, with the same market periods *)
Definition alike (s s' : strat) : Prop := s' = set_opts (st_opts s') s /\ market_period scfg_default s' = market_period scfg_default s.
Lemma alike_refl s : alike s s.
Proof. split; [destruct s; reflexivity|reflexivity]. Qed.
Lemma period_filled p : parse_opt (or_else p ([] : rawmp)) = match p with Some _ => parse_opt p | None => Ok (Some []) end.
Proof. destruct p; reflexivity. Qed.
Lemma mp_filled p : parse_opt (or_else p readme_period) = match p with Some _ => parse_opt p | None => Ok (Some (sc_mp scfg_default)) end.
Proof. destruct p; reflexivity. Qed.
Lemma parse_filled k :
  match parse_opts k with
  | Err x => parse_opts (filled true k) = Err x
  | Ok o => exists mp iv sp, parse_opts (filled true k) = Ok (SOpts (Some mp) (or_else (so_use o) true) (so_acct o) (or_else (so_bal o) true) (or_else (so_ord o) true) (Some iv) (Some sp)) /\
      mp = (match so_mp o with Some p => p | None => sc_mp scfg_default end) /\ iv = (match so_interval o with Some r => r | None => Ok (sc_interval scfg_default) end) /\
      sp = (match so_period o with Some p => p | None => sc_period scfg_default end)
  end.
Proof.
  assert (S : forall p r, parse_opt (Some p) = Ok r -> exists q, r = Some q).
  { intros p r H. destruct p as [|x p]; [injection H as <-; eauto|]. cbn [parse_opt] in H. destruct (parse_periods (x :: p)); [injection H as <-; eauto|discriminate H]. }
  unfold parse_opts. cbn [filled so_mp so_use so_acct so_bal so_ord so_interval so_period]. rewrite mp_filled, period_filled.
  destruct (so_mp k) as [m|]; [destruct (parse_opt (Some m)) as [mp|] eqn:Em; cbn [rbind]; [apply S in Em as (mp' & ->)|reflexivity]|change (parse_opt None) with (Ok (@None rawmp)); cbn [rbind]];
  destruct (so_interval k) as [[i|i]|]; cbn [or_else rbind]; try reflexivity;
  (destruct (so_period k) as [p|]; [destruct (parse_opt (Some p)) as [sp|] eqn:Ep; cbn [rbind]; [apply S in Ep as (sp' & ->)|reflexivity]|change (parse_opt None) with (Ok (@None rawmp)); cbn [rbind]]);
  do 3 eexists; (split; [reflexivity|]); cbn; auto.
Qed.
Section Defaults.
  Context (fuel : nat) (cfg : escfg) (ctx_start : Z) (ctx_end : option Z).
  Let sc := scfg_default.
  Lemma set_allowed_alike b s s' : alike s s' -> alike (set_allowed b s) (set_allowed b s').
  Proof. intros [E M]. split; [|exact M]. rewrite E. destruct s; reflexivity. Qed.
  Lemma entries_filled now o mp use acct b d iv sp :
    iv = (match so_interval o with Some r => r | None => Ok (sc_interval sc) end) -> sp = (match so_period o with Some p => p | None => sc_period sc end) ->
    sync_entries fuel sc now (SOpts mp use acct b d (Some iv) (Some sp)) = sync_entries fuel sc now o.
  Proof. intros -> ->. reflexivity. Qed.
  Lemma step_alike c s s' : alike s s' -> fst (ustep fuel sc ctx_start ctx_end (in_full true c) s') = fst (ustep fuel sc ctx_start ctx_end c s) /\
    alike (snd (ustep fuel sc ctx_start ctx_end c s)) (snd (ustep fuel sc ctx_start ctx_end (in_full true c) s')).
  Proof.
    intros [E M]. destruct c as [f t|k e|n ob]; cbn [in_full ustep].
    - rewrite E. unfold run_daily. destruct (f_name f) as [n|]; [|split; [reflexivity|split; [destruct s; reflexivity|exact M]]].
      cbn [st_allowed set_opts]. destruct (negb (st_allowed s)); [split; [reflexivity|split; [destruct s; reflexivity|exact M]]|].
      destruct (negb (f_callable f)); [split; [reflexivity|split; [destruct s; reflexivity|exact M]]|].
      cbn [fst snd]. split; [reflexivity|]. split; [destruct s; reflexivity|exact M].
    - assert (A : st_allowed s' = st_allowed s) by (rewrite E; reflexivity).
      assert (O : forall o, set_opts o s' = set_opts o s) by (intro o; rewrite E; reflexivity).
      unfold set_options. rewrite A. destruct (negb (st_allowed s)); [split; [reflexivity|split; assumption]|].
      pose proof (parse_filled k) as P. destruct (parse_opts k) as [o|x]; [|rewrite P; split; [reflexivity|split; assumption]].
      destruct P as (mp & iv & sp & P & Hm & Hi & Hp). rewrite P. rewrite O. cbn [so_use].
      set (o2 := SOpts (Some mp) (or_else (so_use o) true) (so_acct o) (or_else (so_bal o) true) (or_else (so_ord o) true) (Some iv) (Some sp)).
      assert (K : forall g : strat -> strat, (forall o1 o2, g (set_opts o2 s) = set_opts o2 (g (set_opts o1 s)) /\ st_opts (g (set_opts o1 s)) = o1) -> alike (g (set_opts o s)) (g (set_opts o2 s))).
      { intros g H. destruct (H o o2) as [H1 H2]. destruct (H o2 o2) as [_ H3]. split; [rewrite H3; exact H1|]. unfold market_period. rewrite H2, H3. cbn [so_mp o2]. exact Hm. }
      destruct (e_dir e) as [u|x]; [|split; [reflexivity|]; apply (K (fun z => z)); intros; split; [destruct s; reflexivity|reflexivity]].
      assert (U : match or_else (so_use o) true with Some b => b | None => sc_setup sc end = match so_use o with Some b => b | None => sc_setup sc end) by (destruct (so_use o); reflexivity).
      rewrite U. set (use := match so_use o with Some b => b | None => sc_setup sc end).
      destruct use; [|split; [reflexivity|]; apply (K (set_use (Some false))); intros; split; [destruct s; reflexivity|reflexivity]].
      unfold setup_account. change (so_acct o2) with (so_acct o). destruct (negb (so_acct o)); [split; [reflexivity|]; apply (K (set_use (Some true))); intros; split; [destruct s; reflexivity|reflexivity]|].
      destruct (e_load e) as [u1|x]; [|split; [reflexivity|]; apply (K (set_use (Some true))); intros; split; [destruct s; reflexivity|reflexivity]].
      destruct (e_gate e) as [u2|x]; [|split; [reflexivity|]; apply (K (fun z => new_acc (set_use (Some true) z))); intros; split; [destruct s; reflexivity|reflexivity]].
      assert (B : need_bal sc o2 = need_bal sc o) by (unfold need_bal, o2; cbn [so_bal]; destruct (so_bal o); reflexivity).
      assert (D : need_ord sc o2 = need_ord sc o) by (unfold need_ord, o2; cbn [so_ord]; destruct (so_ord o); reflexivity).
      rewrite B, D. destruct (need_bal sc o || need_ord sc o); [|split; [reflexivity|]; apply (K (fun z => new_acc (set_use (Some true) z))); intros; split; [destruct s; reflexivity|reflexivity]].
      assert (T : sync_entries fuel sc (e_now e) o2 = sync_entries fuel sc (e_now e) o) by (apply entries_filled; assumption).
      unfold setup_timer. rewrite T, B, D. cbn [st_nacc set_use set_opts].
      destruct (sync_entries fuel sc (e_now e) o) as [l|x|].
      + split; [reflexivity|]. cbn [snd].
        apply (K (fun z => let s1 := new_acc (set_use (Some true) z) in let b1 := if need_bal sc o then register sync_cls (CbBal (st_nacc s)) 0 (st_bus s1) else st_bus s1 in
          let b2 := if need_ord sc o then register sync_cls (CbOrd (st_nacc s)) 0 b1 else b1 in add_src (add_entries sync_cls l (es_new (Some ctx_start) ctx_end)) (set_bus b2 s1))). intros; split; [destruct s; reflexivity|reflexivity].
      + split; [reflexivity|]; apply (K (fun z => new_acc (set_use (Some true) z))); intros; split; [destruct s; reflexivity|reflexivity].
      + split; [reflexivity|]; apply (K (fun z => new_acc (set_use (Some true) z))); intros; split; [destruct s; reflexivity|reflexivity].
    - rewrite E. cbn [fst snd]. split; [reflexivity|]. split; [destruct s; reflexivity|exact M].
  Qed.
  Lemma exec_alike : forall cs s s', alike s s' -> alike (uexec fuel sc ctx_start ctx_end cs s) (uexec fuel sc ctx_start ctx_end (map (in_full true) cs) s').
  Proof. induction cs as [|c cs IH]; intros s s' H; [exact H|]. cbn [map uexec]. apply IH, step_alike, H. Qed.
  Lemma sched_alike now : forall ds s s', alike s s' ->
    match schedule_descs fuel cfg sc ctx_start ctx_end now ds s with
    | GOk r => exists r', schedule_descs fuel cfg sc ctx_start ctx_end now ds s' = GOk r' /\ alike r r'
    | GErr x => schedule_descs fuel cfg sc ctx_start ctx_end now ds s' = GErr x
    | GFuel => schedule_descs fuel cfg sc ctx_start ctx_end now ds s' = GFuel
    end.
  Proof.
    induction ds as [|d ds IH]; intros s s' H; cbn [schedule_descs]; [exists s'; auto|].
    assert (C : st_count s' = st_count s) by (destruct H as [-> _]; reflexivity). rewrite C.
    assert (X : match schedule_one fuel cfg sc ctx_start ctx_end (now (st_count s)) d s with
      | GOk r => exists r', schedule_one fuel cfg sc ctx_start ctx_end (now (st_count s)) d s' = GOk r' /\ alike r r'
      | GErr x => schedule_one fuel cfg sc ctx_start ctx_end (now (st_count s)) d s' = GErr x
      | GFuel => schedule_one fuel cfg sc ctx_start ctx_end (now (st_count s)) d s' = GFuel end).
    { destruct H as [E M]. unfold schedule_one. unfold market_period in M. change (scfg_default) with sc in M. cbv zeta. rewrite M. rewrite C.
      assert (N : st_ns s' = st_ns s) by (rewrite E; reflexivity). assert (B : st_bus s' = st_bus s) by (rewrite E; reflexivity). rewrite N, B.
      destruct (es_setup cfg (now (st_count s)) (es_new (Some ctx_start) ctx_end)); [|reflexivity].
      destruct (if str_eqb (d_time d) (lit "every_minute") then periods_entries fuel MINUTE (dt_date (now (st_count s))) (match so_mp (st_opts s) with Some p => p | None => sc_mp sc end) else GOk [d_time d]); try reflexivity.
      eexists. split; [reflexivity|]. split; [|exact M]. rewrite E. destruct s; reflexivity. }
    destruct (schedule_one fuel cfg sc ctx_start ctx_end (now (st_count s)) d s) as [r|x|].
    - destruct X as (r' & -> & A). apply IH, A.
    - rewrite X. reflexivity.
    - rewrite X. reflexivity.
  Qed.
End Defaults.

(** ** C156 *)
(** A strategy that leaves options out runs exactly as one that gives all the documented
    values (with use_account=True): it starts or fails to start alike, the loop is the same in
    every execution, and so are the calls. *)
Theorem C156_defaults_partial : forall fuel cfg tz ctx_start ctx_end now cs ns dates,
  match start fuel cfg scfg_default tz ctx_start ctx_end now cs ns dates with
  | Some (s4, s0) => exists s4', start fuel cfg scfg_default tz ctx_start ctx_end now (map (in_full true) cs) ns dates = Some (s4', s0) /\
      st_bus s4' = st_bus s4 /\ st_srcs s4' = st_srcs s4 /\ st_use s4' = st_use s4 /\ st_acc s4' = st_acc s4 /\ st_nacc s4' = st_nacc s4 /\
      loop_cfg cfg scfg_default s4' = loop_cfg cfg scfg_default s4
  | None => start fuel cfg scfg_default tz ctx_start ctx_end now (map (in_full true) cs) ns dates = None
  end.
Proof.
  intros fuel cfg tz c0 c1 now cs ns dates. unfold start, setup.
  set (s1 := make_apis scfg_default (strat_new ns)).
  pose proof (exec_alike fuel c0 c1 cs (set_allowed true s1) (set_allowed true s1) (alike_refl _)) as A. apply (set_allowed_alike false) in A.
  set (a := set_allowed false (uexec fuel scfg_default c0 c1 cs (set_allowed true s1))) in *.
  set (b := set_allowed false (uexec fuel scfg_default c0 c1 (map (in_full true) cs) (set_allowed true s1))) in *. clearbody a b s1.
  unfold schedule_all_tasks. assert (S : st_sched b = st_sched a) by (destruct A as [-> _]; reflexivity). rewrite S.
  pose proof (sched_alike fuel cfg c0 c1 now (st_sched a) a b A) as X. destruct (schedule_descs fuel cfg scfg_default c0 c1 now (st_sched a) a) as [r|x|].
  - destruct X as (r' & -> & [E M]). assert (L : loop_cfg cfg scfg_default r' = loop_cfg cfg scfg_default r) by (unfold loop_cfg; rewrite M; reflexivity).
    assert (R : st_srcs r' = st_srcs r) by (rewrite E; reflexivity). rewrite L, R. destruct (boot fuel (loop_cfg cfg scfg_default r) tz (st_srcs r) dates) as [s0|]; [|reflexivity].
    exists r'. split; [reflexivity|]. split; [rewrite E; reflexivity|]. split; [exact R|]. split; [rewrite E; reflexivity|]. split; [rewrite E; reflexivity|]. split; [rewrite E; reflexivity|exact L].
  - rewrite X. reflexivity.
  - rewrite X. reflexivity.
Qed.
Print Assumptions C156_defaults_partial.
(** so the same states are reached and the same functions called at the same instants *)
Theorem C156_same_calls : forall fuel cfg tz ctx_start ctx_end now cs ns dates s4 s,
  runs fuel cfg scfg_default tz ctx_start ctx_end now cs ns dates s4 s ->
  exists s4', runs fuel cfg scfg_default tz ctx_start ctx_end now (map (in_full true) cs) ns dates s4' s /\ invoked s4' (l_w s) = invoked s4 (l_w s).
Proof.
  intros fuel cfg tz c0 c1 now cs ns dates s4 s (s0 & ls & H & Hl & F & X).
  pose proof (C156_defaults_partial fuel cfg tz c0 c1 now cs ns dates) as D. rewrite H in D. destruct D as (s4' & D & Eb & Es & _ & _ & _ & Ec).
  exists s4'. split; [|unfold invoked; rewrite Eb; reflexivity]. exists s0, ls. rewrite Es, Ec. auto.
Qed.
Print Assumptions C156_same_calls.

(** The README's default of use_account is not the one in force: the account is set up unless
    it is switched off. *)
Definition same_start (use : bool) : Prop := forall fuel cfg tz ctx_start ctx_end now cs ns dates s4 s0,
  start fuel cfg scfg_default tz ctx_start ctx_end now cs ns dates = Some (s4, s0) ->
  exists s4' s0', start fuel cfg scfg_default tz ctx_start ctx_end now (map (in_full use) cs) ns dates = Some (s4', s0') /\ st_use s4' = st_use s4.
Definition df_opts : sopts := SOpts None None true (Some false) (Some false) None None.
Definition df_env : senv := SEnv (Ok tt) (Ok tt) (Ok tt) (20000 * DAY).
Theorem C156_use_refuted : ~ same_start false.
Proof.
  intro H. specialize (H 1%nat (ESCfg false 365 []) 0 0 None (fun _ => 0) [UOpt df_opts df_env] [] []).
  destruct (start 1 (ESCfg false 365 []) scfg_default 0 0 None (fun _ => 0) [UOpt df_opts df_env] [] []) as [[s4 s0]|] eqn:E; [|vm_compute in E; discriminate E].
  destruct (H s4 s0 eq_refl) as (s4' & s0' & E' & U). vm_compute in E, E'. injection E as <- _. injection E' as <- _. discriminate U.
Qed.
Print Assumptions C156_use_refuted.

(** A strategy with account, one function and a short period for the timer, the other options
    left out. *)
Definition df_calls : list ucall :=
  [UOpt (SOpts None None true None None None (Some [[TStr (lit "09:30:00"); TStr (lit "09:30:10")]])) df_env; URun (Fn 1 (Some (lit "f")) true) (lit "09:31:00")].
Definition df_start (cs : list ucall) := start 10 (ESCfg false 365 []) scfg_default 0 (20000 * DAY) None (fun _ => 20000 * DAY) cs [(lit "f", OUser 1)] [].
Example C156_demo :
  match df_start df_calls, df_start (map (in_full true) df_calls) with
  | Some (a, _), Some (b, _) =>
      so_mp (st_opts a) = None /\ so_mp (st_opts b) = Some (sc_mp scfg_default) /\ so_interval (st_opts a) = None /\ so_interval (st_opts b) = Some (Ok 5000000) /\
      List.length (st_srcs a) = 2%nat /\ st_srcs b = st_srcs a
  | _, _ => False
  end.
Proof. vm_compute. repeat split. Qed.
