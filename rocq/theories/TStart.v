(** Theorems for C91. *)
From Verif Require Import PyBase PyStr LStr LGate MUtils MTasks MLog SUtils STasks LUtils LTasks TUtils MStart SStart LStart.
Open Scope list_scope.
Open Scope Z_scope.

Section Start.
  Context {V : Type} (m : machine V) (o : sopts) (b : bootst V).

  Lemma init_log_ok : fst (init_log m o b) = Ok tt <-> log_ok m o.
  Proof using.
    unfold init_log, log_ok. destruct (so_out o) as [[|c f]|].
    - split; [intros _ g E Hne; injection E as <-; congruence|reflexivity].
    - destruct (ma_append m (c :: f)) eqn:E; cbn [fst].
      + split; [intros _ g Eg _; injection Eg as <-; exact E|reflexivity].
      + split; [discriminate|]. intro H. specialize (H _ eq_refl ltac:(discriminate)). congruence.
    - split; [discriminate|reflexivity].
  Qed.
  (** the state after the log was set up *)
  Definition logged : bootst V :=
    Boot (bt_env b) (runner_log (so_out o) (so_debug o) (bt_log b))
      (bt_opened b ++ match so_out o with Some (c :: f) => [c :: f] | _ => [] end) (bt_cfg b).
  Lemma init_log_state : log_ok m o -> init_log m o b = (Ok tt, logged).
  Proof using.
    intro H. unfold init_log, logged. destruct (so_out o) as [[|c f]|] eqn:E; [rewrite app_nil_r; reflexivity| |rewrite app_nil_r; reflexivity].
    rewrite (H (c :: f) E) by discriminate. reflexivity.
  Qed.
  Lemma init_log_no : ~ log_ok m o -> init_log m o b = (Err OSError, b).
  Proof using.
    intro H. pose proof init_log_ok as I. unfold init_log in *. destruct (so_out o) as [[|c f]|]; try (exfalso; apply H, I; reflexivity).
    destruct (ma_append m (c :: f)); [exfalso; apply H, I; reflexivity|reflexivity].
  Qed.
End Start.

Lemma config_iff {V} (m : machine V) o kvs (e : penv) b : env_done kvs e (bt_env b) ->
  (fst (init_config m o b) = Ok tt <-> config_ok m o (pe_vars e) kvs).
Proof.
  intros [Hv _]. unfold init_config, config_ok. destruct (so_config o) as [[|c p]|].
  - split; [intros _ g E Hne; injection E as <-; congruence|reflexivity].
  - cbn [fst]. unfold config_path. pose proof (user_path_names (pe_vars (bt_env b)) (ma_home m) (c :: p)) as U. split.
    + intros H g E _. injection E as <-. destruct (ma_exists m _) eqn:X; [|discriminate].
      eexists _, _. split; [reflexivity|]. split; [|exact X]. rewrite <- Hv. apply U. reflexivity.
    + intro H. destruct (H _ eq_refl ltac:(discriminate)) as (h & x & Eh & Hn & X). rewrite <- Hv in Eh. subst h. apply U in Hn. rewrite Hn, X. reflexivity.
  - split; [discriminate|reflexivity].
Qed.

(** The exact conditions under which a task is started: the code file exists, every other
    task on the machine can be seen to have another name, the log file can be opened, the
    environment text is a list of entries, the configuration file exists (in the home
    directory the task is given). *)
Theorem C112_exact :
  forall V (m : machine V) o b, fst (runner_init m o b) = Ok tt <-> may_start m o (pe_vars (bt_env b)).
Proof.
  intros V m o b. unfold runner_init, may_start.
  destruct (ma_exists m (so_code o)) eqn:Ec; cbn [negb]; [|split; [discriminate|intros [H _]; congruence]].
  pose proof (repeated_iff (ma_pid m) (ma_ppid m) (so_name o) (ma_procs m)) as R.
  destruct (exist_repeated _ _ _ _) as [[|]|x] eqn:Er.
  - split; [discriminate|]. intros (_ & H1 & H2 & _). assert (X : Ok true = Ok false) by (apply R; auto). discriminate.
  - destruct (proj1 R eq_refl) as [R1 R2]. pose proof (init_log_ok m o b) as L.
    destruct (init_log m o b) as [[u|x] b1] eqn:El; cbn [fst] in L.
    + destruct u. assert (Hl : log_ok m o) by (apply L; reflexivity). pose proof (init_log_state m o b Hl) as S. rewrite El in S. injection S as ->.
      unfold init_env. cbn [logged bt_env bt_log bt_opened bt_cfg]. destruct (runner_env (so_env o) (bt_env b)) as [[u|x] e'] eqn:Ee.
      * destruct u. destruct (runner_env_ok _ _ _ Ee) as (kvs & Hw). destruct (runner_env_wrote _ kvs (bt_env b) Hw) as (p' & E2 & Hd). rewrite Ee in E2. injection E2 as <-.
        match goal with |- fst (init_config m o ?b2) = _ <-> _ => pose proof (config_iff m o kvs (bt_env b) b2 Hd) as C end. rewrite C. split.
        -- intro H. repeat split; auto. exists kvs. auto.
        -- intros (_ & _ & _ & _ & kvs' & Hw' & Hc).
           destruct (runner_env_wrote _ kvs' (bt_env b) Hw') as (p2 & E2 & Hd2). rewrite Ee in E2. injection E2 as <-.
           match type of C with fst (init_config m o ?b2) = _ <-> _ => pose proof (config_iff m o kvs' (bt_env b) b2 Hd2) as C2 end. apply C, C2, Hc.
      * split; [discriminate|]. intros (_ & _ & _ & _ & kvs & Hw & _). destruct (runner_env_wrote _ kvs (bt_env b) Hw) as (p' & E2 & _). congruence.
    + split; [discriminate|]. intros (_ & _ & _ & Hl & _). apply L in Hl. discriminate.
  - split; [discriminate|]. intros (_ & H1 & H2 & _). assert (X : Err x = Ok false) by (apply R; auto). discriminate.
Qed.
Print Assumptions C112_exact.

(** Once started: the log goes where it was asked to, the variables have the given values
    and all others keep theirs, the PYTHONPATH directories stand in front of sys.path in
    their order, nothing else has changed. *)
Theorem C112_started :
  forall V (m : machine V) o b b', runner_init m o b = (Ok tt, b') ->
    exists kvs, wrote (so_env o) kvs /\
      (forall k, dget k (pe_vars (bt_env b')) = var_after kvs (pe_vars (bt_env b)) k) /\
      pe_path (bt_env b') = match last_value kvs (lit "PYTHONPATH") with Some v => split_on 58%N v | None => [] end ++ pe_path (bt_env b) /\
      bt_log b' = runner_log (so_out o) (so_debug o) (bt_log b) /\
      bt_opened b' = bt_opened b ++ match so_out o with Some (c :: f) => [c :: f] | _ => [] end /\
      bt_cfg b' = bt_cfg b.
Proof.
  intros V m o b b' H. assert (M : may_start m o (pe_vars (bt_env b))) by (apply C112_exact; rewrite H; reflexivity).
  destruct M as (M1 & M2 & M3 & M4 & kvs & Hw & Hc). exists kvs. split; [exact Hw|].
  unfold runner_init in H. rewrite M1 in H. cbn [negb] in H.
  replace (exist_repeated _ _ _ _) with (Ok false) in H by (symmetry; apply repeated_iff; auto).
  rewrite (init_log_state m o b M4) in H. unfold init_env in H. cbn [logged bt_env bt_log bt_opened bt_cfg] in H.
  destruct (runner_env_wrote _ kvs (bt_env b) Hw) as (p' & E & Hv & Hp). rewrite E in H.
  assert (X : snd (init_config m o (Boot p' (bt_log (logged o b)) (bt_opened (logged o b)) (bt_cfg (logged o b)))) = b').
  { unfold logged. cbn [bt_log bt_opened bt_cfg]. rewrite H. reflexivity. }
  assert (Y : b' = Boot p' (bt_log (logged o b)) (bt_opened (logged o b)) (bt_cfg (logged o b))).
  { rewrite <- X. unfold init_config. destruct (so_config o) as [[|]|]; reflexivity. }
  clear X H. subst b'. cbn [bt_env bt_log bt_opened bt_cfg logged]. split; [exact Hv|]. split; [exact Hp|]. auto.
Qed.
Print Assumptions C112_started.

(** A start that is refused leaves the machine as it was, if it is refused because of the
    code file, another task, or the log file itself.  Missing for the full claim: the
    refusals because of the environment text and the configuration file, see below. *)
Theorem C91_clean_partial :
  forall V (m : machine V) o b,
    ma_exists m (so_code o) = false \/ ~ readable (ma_procs m) \/ ~ free_name (ma_pid m) (ma_ppid m) (so_name o) (ma_procs m) \/ ~ log_ok m o ->
    exists x, runner_init m o b = (Err x, b).
Proof.
  intros V m o b H. unfold runner_init. destruct (ma_exists m (so_code o)); cbn [negb]; [|eauto].
  pose proof (repeated_iff (ma_pid m) (ma_ppid m) (so_name o) (ma_procs m)) as R.
  destruct (exist_repeated _ _ _ _) as [[|]|x]; [eauto| |eauto]. destruct (proj1 R eq_refl) as [R1 R2].
  destruct H as [H|[H|[H|H]]]; [discriminate|contradiction|contradiction|]. rewrite (init_log_no m o b H). eauto.
Qed.
Print Assumptions C91_clean_partial.
(** Whatever happens, no other file than the log is opened, and that only to append; the
    settings are not touched before the task runs. *)
Theorem C112_files :
  forall V (m : machine V) o b r b', runner_init m o b = (r, b') ->
    bt_cfg b' = bt_cfg b /\ (bt_opened b' = bt_opened b \/ exists f, so_out o = Some f /\ f <> [] /\ bt_opened b' = bt_opened b ++ [f]).
Proof.
  intros V m o b r b' H. unfold runner_init in H.
  destruct (ma_exists m (so_code o)); cbn [negb] in H; [|injection H as _ <-; auto].
  destruct (exist_repeated _ _ _ _) as [[|]|x]; [injection H as _ <-; auto| |injection H as _ <-; auto].
  assert (L : bt_cfg (snd (init_log m o b)) = bt_cfg b /\ (bt_opened (snd (init_log m o b)) = bt_opened b \/ exists f, so_out o = Some f /\ f <> [] /\ bt_opened (snd (init_log m o b)) = bt_opened b ++ [f])).
  { unfold init_log. destruct (so_out o) as [[|c f]|]; [cbn; auto| |cbn; auto]. destruct (ma_append m (c :: f)); cbn [snd bt_cfg bt_opened]; [|auto].
    split; [reflexivity|]. right. exists (c :: f). split; [reflexivity|]. split; [discriminate|reflexivity]. }
  destruct (init_log m o b) as [[u|x] b1]; cbn [snd] in L; [|injection H as _ <-; exact L].
  unfold init_env in H. destruct (runner_env (so_env o) (bt_env b1)) as [[u'|x] e']; [|injection H as _ <-; exact L].
  unfold init_config in H. destruct (so_config o) as [[|c p]|]; injection H as _ <-; exact L.
Qed.
Print Assumptions C112_files.
(** False in general: the log file is opened, so created, before the environment text and
    the configuration file are looked at; and some of the variables may have been set. *)
Theorem C91_refuted :
  (forall V (m : machine V) o b c f, ma_exists m (so_code o) = true -> readable (ma_procs m) ->
     free_name (ma_pid m) (ma_ppid m) (so_name o) (ma_procs m) -> so_out o = Some (c :: f) -> ma_append m (c :: f) = true ->
     ~ may_start m o (pe_vars (bt_env b)) ->
     exists x b', runner_init m o b = (Err x, b') /\ bt_opened b' = bt_opened b ++ [c :: f] /\ lg_written (bt_log b') = lg_written (bt_log b)) /\
  (exists p p' : penv, runner_env (Some (lit "A=1;=2")) p = (Err OSError, p') /\ dget (lit "A") (pe_vars p) = None /\ dget (lit "A") (pe_vars p') = Some (lit "1")).
Proof.
  split.
  - intros V m o b c f M1 M2 M3 Ho Ha Hn.
    assert (M4 : log_ok m o) by (intros g E _; rewrite Ho in E; injection E as <-; exact Ha).
    assert (Hf : fst (runner_init m o b) <> Ok tt) by (intro X; apply Hn, C112_exact, X).
    assert (L : logged o b = Boot (bt_env b) (runner_log (Some (c :: f)) (so_debug o) (bt_log b)) (bt_opened b ++ [c :: f]) (bt_cfg b)) by (unfold logged; rewrite Ho; reflexivity).
    revert Hf. unfold runner_init. rewrite M1. cbn [negb].
    replace (exist_repeated _ _ _ _) with (Ok false) by (symmetry; apply repeated_iff; auto).
    rewrite (init_log_state m o b M4), L. unfold init_env. cbn [bt_env bt_log bt_opened bt_cfg].
    destruct (runner_env (so_env o) (bt_env b)) as [[u|x] e'].
    + unfold init_config. destruct (so_config o) as [[|d p]|]; cbn [fst]; [intro; congruence| |intro; congruence].
      clear M1. destruct (ma_exists m _); intro Hf; [exfalso; apply Hf; reflexivity|]. eexists _, _. split; [reflexivity|]. split; reflexivity.
    + intros _. eexists _, _. split; [reflexivity|]. split; reflexivity.
  - exists (PEnv [] []). eexists. split; [reflexivity|]. split; reflexivity.
Qed.
Print Assumptions C91_refuted.

(** The strategy file that was asked for is the one that is loaded (under the conditions of
    C57), with its directory first on sys.path, before those of PYTHONPATH. *)
Theorem C91_loads_partial :
  forall V (m : machine V) mods builtin ext o b d n,
    may_start m o (pe_vars (bt_env b)) -> (forall c, so_config o = Some c -> forall x, exists ns, ma_config m x = Ok ns) ->
    code_path d n (so_code o) -> ~ In n mods -> ~ In n builtin -> ma_exists m (path_join d n ++ lit ".py") = true ->
    (forall s, ma_exists m (path_join d n ++ lit "/__init__" ++ s) = false) -> (forall s, In s ext -> ma_exists m (path_join d n ++ s) = false) ->
    exists kvs f b', wrote (so_env o) kvs /\ start_task m mods builtin ext o b = (Ok (Some (OFile f)), b') /\
      (f = so_code o \/ f = lit "./" ++ so_code o) /\
      pe_path (bt_env b') = d :: match last_value kvs (lit "PYTHONPATH") with Some v => split_on 58%N v | None => [] end ++ pe_path (bt_env b).
Proof.
  intros V m mods builtin ext o b d n M Hcfg Hp H1 H2 H3 H4 H5. unfold start_task.
  pose proof (proj2 (C112_exact V m o b) M) as F. destruct (runner_init m o b) as [r b1] eqn:E. cbn [fst] in F. subst r.
  destruct (C112_started V m o b b1 E) as (kvs & Hw & _ & Hpath & _). exists kvs.
  assert (R : exists b2, run_config m o b1 = (Ok tt, b2) /\ bt_env b2 = bt_env b1).
  { unfold run_config. destruct (so_config o) as [[|c p]|] eqn:Ec; [eauto| |eauto]. destruct (Hcfg _ eq_refl (config_path m (c :: p) b1)) as (ns & ->). eauto. }
  destruct R as (b2 & -> & Eb). rewrite Eb.
  destruct (C57_loads_partial d n (so_code o) (Imp mods builtin ext (ma_exists m) (pe_path (bt_env b1))) Hp H1 H2 H3 H4 H5) as (f & i' & El & Hf & Hi).
  rewrite El. exists f. eexists. split; [exact Hw|]. split; [reflexivity|]. split; [exact Hf|]. cbn [bt_env pe_path]. rewrite Hi. cbn [im_path]. rewrite Hpath. reflexivity.
Qed.
Print Assumptions C91_loads_partial.

(** A machine with one other task, a log that can be written, and configuration files in two homes. *)
Definition cmd_of (l : list str) : list str := [lit "python"; lit "-m"; lit "jqtrade"; lit "start_task"] ++ l.
Definition demo_machine : machine Z :=
  Machine (fun f => memb f [lit "/s/demo.py"; lit "/home/a/c.py"; lit "/x/c.py"]) (fun f => eqb f (lit "/log"))
    [Proc 10 1 (cmd_of [lit "-n"; lit "other"; lit "-c"; lit "o.py"]) false true (Some (lit "other")); Proc 1 0 [lit "init"] true false None;
     Proc 20 19 (cmd_of [lit "-n"; lit "demo"; lit "-c"; lit "/s/demo.py"]) false true None] 20 19 (lit "/home/a")
    (fun f => Ok [(lit "SCHEDULER_MARKET_PERIOD", if eqb f (lit "/x/c.py") then 2 else 1)]).
Definition demo_opts (name : str) (env config : option str) : sopts := SOpts name (lit "/s/demo.py") (Some (lit "/log")) env config false.
Definition demo_boot : bootst Z := Boot (PEnv [(lit "USER", lit "a")] [lit "/lib"]) log_init [] [(lit "MARKET_PERIOD", 0)].
Example C91_demo :
  (* started; HOME of the task decides which configuration is used *)
  (let '(r, b) := start_task demo_machine [] [] [] (demo_opts (lit "demo") (Some (lit "HOME=/x/;PYTHONPATH=/p:/q")) (Some (lit "~/c.py"))) demo_boot in
   r = Ok (Some (OFile (lit "/s/demo.py"))) /\ bt_cfg b = [(lit "MARKET_PERIOD", 2)] /\
   pe_path (bt_env b) = [lit "/s"; lit "/p"; lit "/q"; lit "/lib"] /\ bt_opened b = [lit "/log"]) /\
  (let '(r, b) := start_task demo_machine [] [] [] (demo_opts (lit "demo") None (Some (lit "~/c.py"))) demo_boot in
   r = Ok (Some (OFile (lit "/s/demo.py"))) /\ bt_cfg b = [(lit "MARKET_PERIOD", 1)]) /\
  (* the name is taken: nothing happens *)
  start_task demo_machine [] [] [] (demo_opts (lit "other") None None) demo_boot = (Err TaskError, demo_boot) /\
  (* no such configuration: an empty log file is left *)
  (let '(r, b) := start_task demo_machine [] [] [] (demo_opts (lit "demo") None (Some (lit "~/d.py"))) demo_boot in
   r = Err FileNotFoundError /\ bt_opened b = [lit "/log"] /\ lg_written (bt_log b) = []).
Proof. vm_compute. auto 10. Qed.
Example C91_demo_may : may_start demo_machine (demo_opts (lit "demo") (Some (lit "HOME=/x/")) (Some (lit "~/c.py"))) [] /\
  wrote (Some (lit "HOME=/x/")) [(lit "HOME", lit "/x/")].
Proof.
  split; [|right; split; [discriminate|split; [reflexivity|split; [repeat constructor; vm_compute; intuition discriminate|intros kv [<-|[]]; vm_compute; discriminate]]]].
  apply (proj1 (C112_exact Z demo_machine (demo_opts (lit "demo") (Some (lit "HOME=/x/")) (Some (lit "~/c.py"))) (Boot (PEnv [] []) log_init [] []))).
  vm_compute. reflexivity.
Qed.

(** The settings of a task that was started: those of the program without a configuration;
    otherwise the file of that name in the home directory of the task was run, the market
    period is the one it assigned last, and what it did not assign is as before. *)
Theorem C112_settings :
  forall V (m : machine V) mods builtin ext o b r b', start_task m mods builtin ext o b = (Ok r, b') ->
    ((so_config o = None \/ so_config o = Some []) -> bt_cfg b' = bt_cfg b) /\
    (forall c, so_config o = Some c -> c <> [] -> exists kvs h x ns, wrote (so_env o) kvs /\
       h = match var_after kvs (pe_vars (bt_env b)) (lit "HOME") with Some h => h | None => ma_home m end /\ names h c x /\ ma_config m x = Ok ns /\
       (forall pre v post, ns = pre ++ (lit "SCHEDULER_MARKET_PERIOD", v) :: post ->
          (forall n, In n (map fst post) -> endswith (lit "MARKET_PERIOD") n = false) -> dget (lit "MARKET_PERIOD") (bt_cfg b') = Some v) /\
       (forall s, (forall n, In n (map fst ns) -> startswith (lit "SCHEDULER_") n = true -> endswith s n = false) -> dget s (bt_cfg b') = dget s (bt_cfg b))).
Proof.
  intros V m mods builtin ext o b r b' H. unfold start_task in H. destruct (runner_init m o b) as [[u|x] b1] eqn:E1; [|discriminate]. destruct u.
  destruct (C112_started V m o b b1 E1) as (kvs & Hw & Hv & _ & _ & _ & Hc).
  unfold run_config in H. split.
  - intros Ho. assert (X : (match so_config o with Some (c :: p) => match ma_config m (config_path m (c :: p) b1) with Err x => (Err x, b1) | Ok ns => (Ok tt, Boot (bt_env b1) (bt_log b1) (bt_opened b1) (setup_config SCHED ns (bt_cfg b1))) end | _ => (Ok tt, b1) end) = (Ok tt, b1)) by (destruct Ho as [-> | ->]; reflexivity).
    rewrite X in H. destruct (loader_load _ _) as [r' i]. injection H as _ <-. cbn [bt_cfg]. exact Hc.
  - intros c Ec Hne. rewrite Ec in H. destruct c as [|c p]; [congruence|]. destruct (ma_config m (config_path m (c :: p) b1)) as [ns|x] eqn:En; [|discriminate].
    cbn [bt_env bt_log bt_opened bt_cfg] in H. destruct (loader_load _ _) as [r' i]. injection H as _ <-. cbn [bt_cfg]. rewrite Hc.
    eexists kvs, _, (config_path m (c :: p) b1), ns. split; [exact Hw|]. split; [reflexivity|]. split.
    + rewrite <- Hv. apply user_path_names. reflexivity.
    + split; [exact En|]. split.
      * intros pre v post -> Hp. apply (C51_documented_partial V (lit "MARKET_PERIOD") v pre post (bt_cfg b) Hp). left. reflexivity.
      * intros s Hs. apply C51_others_keep. exact Hs.
Qed.
Print Assumptions C112_settings.
