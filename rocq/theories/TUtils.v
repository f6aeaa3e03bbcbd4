(** Theorems for C46, C50, C51, C56 and C57. *)
From Verif Require Import PyStr LStr LGate MUtils SUtils LUtils LUtils2.
Open Scope list_scope.
Open Scope Z_scope.

(** ** C46 *)

(** The k-th call of the function yields [out k].  The helper stops with call number
    n0+k: all earlier calls raised accepted exceptions, call k is returned or raised as
    it is, and if it raised an accepted exception then the attempts were used up. *)
Theorem C46_retry :
  forall (A : Type) (out : nat -> res A) on max n0,
    let r := simple_retry on max (fun n => n) (fun n => (out n, S n)) n0 in
    exists k, snd r = (n0 + S k)%nat /\ Z.of_nat k <= Z.max 0 max /\ fst r = out (n0 + k)%nat /\
      (forall j, (j < k)%nat -> exists e, out (n0 + j)%nat = Err e /\ retried on e) /\
      (forall e, out (n0 + k)%nat = Err e -> retried on e -> Z.of_nat k = Z.max 0 max).
Proof.
  intros A out on max n0. cbn zeta. unfold simple_retry.
  destruct (retry_loop_spec out on (Z.to_nat max) n0) as (k & H1 & H2 & H3 & H4 & H5).
  exists k. split; [exact H1|]. split; [lia|]. split; [exact H2|]. split; [exact H4|].
  intros e He Hr. specialize (H5 e He Hr). lia.
Qed.
Print Assumptions C46_retry.
(** Between two calls, and only there, it sleeps once: the world is the list of what was done
    so far, [true] for a call and [false] for a sleep. *)
Theorem C46_waits :
  forall (A : Type) (out : nat -> res A) on max n0,
    let calls w := length (filter (fun b : bool => b) w) in
    let r := simple_retry on max (fun w => w ++ [false]) (fun w => (out (n0 + calls w)%nat, w ++ [true])) [] in
    exists k, Z.of_nat k <= Z.max 0 max /\ snd r = concat (repeat [true; false] k) ++ [true] /\ fst r = out (n0 + k)%nat.
Proof.
  intros A out on max n0 calls. cbv zeta. unfold simple_retry.
  assert (G : forall left w, exists k, (k <= left)%nat /\
    snd (retry_loop on (fun w => w ++ [false]) (fun w => (out (n0 + calls w)%nat, w ++ [true])) left w) = w ++ concat (repeat [true; false] k) ++ [true] /\
    fst (retry_loop on (fun w => w ++ [false]) (fun w => (out (n0 + calls w)%nat, w ++ [true])) left w) = out (n0 + calls w + k)%nat).
  { induction left as [|left IH]; intros w; cbn [retry_loop].
    - exists O. rewrite Nat.add_0_r. split; [lia|]. destruct (out (n0 + calls w)%nat) as [v|e]; [split; reflexivity|]. destruct (accepts on e); split; reflexivity.
    - destruct (out (n0 + calls w)%nat) as [v|e] eqn:E; [|destruct (accepts on e)].
      + exists O. rewrite Nat.add_0_r, E. split; [lia|]. split; reflexivity.
      + destruct (IH ((w ++ [true]) ++ [false])) as (k & H1 & H2 & H3). exists (S k). split; [lia|]. split.
        * rewrite H2, <- !app_assoc. reflexivity.
        * rewrite H3. unfold calls. rewrite !filter_app, !app_length. cbn. f_equal. lia.
      + exists O. rewrite Nat.add_0_r, E. split; [lia|]. split; reflexivity. }
  destruct (G (Z.to_nat max) []) as (k & H1 & H2 & H3). exists k. split; [lia|]. split; [exact H2|].
  rewrite H3. cbn. rewrite Nat.add_0_r. reflexivity.
Qed.
Print Assumptions C46_waits.
(** After any number of set-ups of the gate the number of calls is at most the product of
    the bounds ... *)
Theorem C102_setups_bound_partial :
  forall (A : Type) (out : nat -> res A) maxs n0,
    (snd (after_setups maxs (fun n => n) (fun n => (out n, S n)) n0) <= n0 + prod maxs)%nat.
Proof. intros. apply setups_bound. Qed.
Print Assumptions C102_setups_bound_partial.
(** ... and reaches it, so two set-ups already break the bound of one. *)
Theorem C102_setups_refuted :
  forall (A : Type) e m n, 1 <= m -> (2 <= n)%nat ->
    let calls := snd (@after_setups nat A (repeat m n) (fun n => n) (fun n => (Err e, S n)) 0%nat) in
    calls = (S (Z.to_nat m) ^ n)%nat /\ m + 1 < Z.of_nat calls.
Proof.
  intros A e m n Hm Hn calls. unfold calls. rewrite setups_fail. cbn [snd Nat.add].
  assert (E : forall k, prod (repeat m k) = (S (Z.to_nat m) ^ k)%nat) by (induction k as [|k IH]; [reflexivity|]; cbn [repeat prod Nat.pow]; rewrite IH; reflexivity).
  rewrite E. split; [reflexivity|]. destruct n as [|[|n]]; [lia|lia|]. cbn [Nat.pow].
  pose proof (Nat.pow_nonzero (S (Z.to_nat m)) n ltac:(lia)). set (q := (S (Z.to_nat m) ^ n)%nat) in *. set (s := S (Z.to_nat m)) in *.
  assert (Hs : Z.of_nat s = m + 1) by (unfold s; lia). assert (s * 2 <= s * (s * q))%nat by (apply Nat.mul_le_mono_l; unfold s in *; nia). lia.
Qed.
Print Assumptions C102_setups_refuted.
Definition demo_out (n : nat) : res Z := if (n <? 2)%nat then Err OSError else Ok 7.
Example C46_demo :
  simple_retry None 3 (fun n => n) (fun n => (demo_out n, S n)) 0%nat = (Ok 7, 3%nat) /\
  simple_retry None 1 (fun n => n) (fun n => (demo_out n, S n)) 0%nat = (Err OSError, 2%nat) /\
  simple_retry (Some (fun e => match e with TimeOut => true | _ => false end)) 3 (fun n => n) (fun n => (demo_out n, S n)) 0%nat = (Err OSError, 1%nat) /\
  snd (@after_setups nat Z [3; 3] (fun n => n) (fun n => (Err OSError, S n)) 0%nat) = 16%nat.
Proof. vm_compute. auto. Qed.

(** ** C50 *)

(** Any entries without ';' and '=' in names and values: each name has the value of its
    last entry, blanks around names and values do not count. *)
Theorem C50_parse_partial :
  forall kvs, kvs <> [] -> Forall clean_entry kvs ->
    exists d, parse_env (join_with 59%N (map entry_of kvs)) = Ok d /\ forall k, dget k d = last_value kvs k.
Proof.
  intros kvs Hne Hc. eexists. split; [apply parse_env_join; assumption|]. intro k. rewrite fold_dset_last.
  destruct (last_value kvs k); reflexivity.
Qed.
Print Assumptions C50_parse_partial.
(** A text is accepted exactly if each of its parts has exactly one '='; otherwise ValueError. *)
Theorem C120_accepted :
  forall env, (exists d, parse_env env = Ok d) <-> Forall (fun e => count_occ N.eq_dec e 61%N = 1%nat) (split_on 59%N env).
Proof. intro env. apply parse_envs_iff. Qed.
Print Assumptions C120_accepted.
Theorem C120_rejected :
  forall env x, parse_env env = Err x -> x = ValueError.
Proof. intros env x. apply parse_envs_err. Qed.
Print Assumptions C120_rejected.
(** False for a value with '=' (or ';'), and for a trailing ';'. *)
Theorem C50_refuted :
  (forall k v, ~ In 59%N k -> ~ In 59%N v -> In 61%N v -> parse_env (entry_of (k, v)) = Err ValueError) /\
  (forall env, parse_env (env ++ [59%N]) = Err ValueError).
Proof.
  assert (R : forall env, ~ Forall (fun e => count_occ N.eq_dec e EQS = 1%nat) (split_on SEMI env) -> parse_env env = Err ValueError).
  { intros env H. destruct (parse_env env) as [d|x] eqn:E; [|rewrite (C120_rejected _ _ E); reflexivity].
    exfalso. apply H, C120_accepted. eauto. }
  split.
  - intros k v Hk Hv Hin. change 61%N with EQS in Hin. apply R. rewrite split_on_none.
    + intro F. inversion F as [|? ? F1 _]; subst. unfold entry_of in F1. cbn [fst snd] in F1.
      rewrite count_occ_app, count_occ_cons_eq in F1 by reflexivity. apply (count_occ_In N.eq_dec) in Hin. lia.
    + apply has_char_false. unfold entry_of. cbn [fst snd]. intro H. apply in_app_iff in H. destruct H as [H|[H|H]]; [tauto|discriminate|tauto].
  - intro env. apply R. rewrite split_snoc. intro F. apply Forall_app in F. destruct F as [_ F]. inversion F; discriminate.
Qed.
Print Assumptions C50_refuted.
(** The task's process: after [TaskRunner.__init__] accepted the text, the variables have
    these values, all others keep theirs, and the PYTHONPATH entries stand in front of
    sys.path in the given order. *)
Theorem C50_environment_partial :
  forall kvs p, kvs <> [] -> Forall clean_entry kvs -> (forall kv, In kv kvs -> strip (fst kv) <> []) ->
    exists p', runner_env (Some (join_with 59%N (map entry_of kvs))) p = (Ok tt, p') /\
      (forall k, dget k (pe_vars p') = match last_value kvs k with Some v => Some v | None => dget k (pe_vars p) end) /\
      (forall v, last_value kvs (lit "PYTHONPATH") = Some v -> pe_path p' = split_on 58%N v ++ pe_path p) /\
      (last_value kvs (lit "PYTHONPATH") = None -> pe_path p' = pe_path p).
Proof.
  intros kvs p Hne Hc Hk. change 59%N with SEMI. pose proof (parse_env_join kvs Hne Hc) as E. set (d := fold_left (fun (d : dict str str) kv => dset (strip (fst kv)) (strip (snd kv)) d) kvs []) in E.
  assert (Hd : forall k, dget k d = last_value kvs k).
  { intro k. unfold d. rewrite fold_dset_last. destruct (last_value kvs k); reflexivity. }
  assert (Hn : NoDup (dkeys d)).
  { unfold d. assert (N0 : NoDup (dkeys ([] : dict str str))) by constructor. revert N0. generalize ([] : dict str str).
    clear. induction kvs as [|kv kvs IH]; intros r Hr; [exact Hr|]. cbn [fold_left]. apply IH, NoDup_dset, Hr. }
  assert (Hf : Forall (fun kv => fst kv <> []) d).
  { apply Forall_forall. intros [k v] Hin E0. cbn in E0. subst k. assert (X : dget [] d = Some v) by (apply In_dget; assumption).
    rewrite Hd in X. unfold last_value in X. destruct (find _ (rev kvs)) as [kv|] eqn:Ef; [|discriminate].
    apply find_some in Ef. destruct Ef as [Ef1 Ef2]. apply eqb_true in Ef2. apply in_rev in Ef1. apply (Hk kv Ef1). congruence. }
  destruct (environ_update_ok d Hf (pe_vars p)) as [U1 U2]. unfold runner_env.
  assert (En : join_with SEMI (map entry_of kvs) <> []).
  { destruct kvs as [|[k v] kvs]; [congruence|]. unfold entry_of. cbn [map fst snd join_with]. destruct k; destruct (map _ kvs); discriminate. }
  destruct (join_with SEMI (map entry_of kvs)) as [|c env] eqn:Ej; [congruence|].
  rewrite E. destruct (environ_update d (pe_vars p)) as [r vars]. cbn [fst snd] in U1, U2. subst r vars.
  eexists. split; [reflexivity|]. cbn [pe_vars pe_path]. split; [|split].
  - intro k. rewrite dget_fold_update by exact Hn. rewrite Hd. reflexivity.
  - intros v Hv. rewrite Hd, Hv. apply fold_insert.
  - intro Hv. rewrite Hd, Hv. reflexivity.
Qed.
Print Assumptions C50_environment_partial.
Example C50_demo :
  let kvs := [(lit "A", lit "1"); (lit " PYTHONPATH", lit "./p:/q "); (lit "A", lit "2")] in
  join_with 59%N (map entry_of kvs) = lit "A=1; PYTHONPATH=./p:/q ;A=2" /\
  Forall clean_entry kvs /\
  runner_env (Some (lit "A=1; PYTHONPATH=./p:/q ;A=2")) (PEnv [(lit "A", lit "0"); (lit "B", lit "9")] [lit "/lib"]) =
    (Ok tt, PEnv [(lit "A", lit "2"); (lit "B", lit "9"); (lit "PYTHONPATH", lit "./p:/q")] [lit "./p"; lit "/q"; lit "/lib"]) /\
  parse_env (lit "URL=a?b=c") = Err ValueError /\ parse_env (lit "A=1;") = Err ValueError.
Proof.
  split; [reflexivity|]. split.
  - repeat constructor; vm_compute; intuition discriminate.
  - vm_compute. auto.
Qed.

(** ** C51 *)

(** A setting whose name does not start with a letter of its own prefix takes the value
    assigned last; a setting to which no assignment is mapped keeps its default. *)
Theorem C51_override_partial :
  forall (V : Type) prefix x c (pre post cfg : dict str V) v,
    ~ In c prefix -> (forall n, In n (map fst post) -> startswith prefix n = true -> endswith (c :: x) n = false) ->
    dget (c :: x) (setup_config prefix (pre ++ (prefix ++ c :: x, v) :: post) cfg) = Some v.
Proof.
  intros V prefix x c pre post cfg v Hc Hp. rewrite setup_get, rev_app_distr. cbn [rev]. rewrite <- app_assoc. cbn [app].
  rewrite find_first; [reflexivity| |].
  - intros [n u] Hin. cbn [fst]. apply in_rev in Hin. specialize (Hp n ltac:(apply in_map_iff; exists (n, u); auto)).
    destruct (startswith prefix n) eqn:E1; [|reflexivity]. cbn [andb]. apply eqb_false. intro E2. specialize (Hp eq_refl).
    enough (endswith (c :: x) n = true) by congruence. apply endswith_iff. rewrite E2. unfold lstrip_chars. clear. induction n as [|a n [r IH]]; [exists []; reflexivity|].
    cbn [drop_while]. destruct (has_char a prefix); [exists (a :: r); cbn; f_equal; exact IH|exists []; reflexivity].
  - cbn [fst]. rewrite lstrip_self, lstrip_keep by exact Hc. rewrite eqb_refl, andb_true_r. apply startswith_iff. eauto.
Qed.
Print Assumptions C51_override_partial.
Theorem C51_others_keep :
  forall (V : Type) prefix (configs cfg : dict str V) x,
    (forall n, In n (map fst configs) -> startswith prefix n = true -> endswith x n = false) ->
    dget x (setup_config prefix configs cfg) = dget x cfg.
Proof.
  intros V prefix configs cfg x H. rewrite setup_get. destruct (find _ (rev configs)) as [[n v]|] eqn:E; [|reflexivity].
  apply find_some in E. destruct E as [Hin E]. cbn [fst] in E. apply andb_prop in E. destruct E as [E1 E2]. apply eqb_true in E2.
  apply in_rev in Hin. specialize (H n ltac:(apply in_map_iff; exists (n, v); auto) E1).
  assert (endswith x n = true); [|congruence]. apply endswith_iff. rewrite E2. unfold lstrip_chars. clear.
  induction n as [|a n [r IH]]; [exists []; reflexivity|].
  cbn [drop_while]. destruct (has_char a prefix); [exists (a :: r); cbn; f_equal; exact IH|exists []; reflexivity].
Qed.
Print Assumptions C51_others_keep.
(** False for every setting whose name starts with a letter of the prefix, which lstrip
    removes as well: assigning PREFIX_X, whatever else is assigned, never changes X. *)
Theorem C51_refuted :
  forall (V : Type) prefix c x (configs cfg : dict str V),
    In c prefix -> dget (c :: x) (setup_config prefix configs cfg) = dget (c :: x) cfg.
Proof.
  intros V prefix c x configs cfg Hc. rewrite setup_get. destruct (find _ (rev configs)) as [[n v]|] eqn:E; [|reflexivity].
  apply find_some in E. destruct E as [_ E]. cbn [fst] in E. apply andb_prop in E. destruct E as [_ E]. apply eqb_true in E.
  exfalso. symmetry in E. apply drop_while_hd in E. apply has_char_false in E. tauto.
Qed.
Print Assumptions C51_refuted.
(** Which of the documented settings are affected: these can be set, whatever else the file
    assigns before and to other names after ... *)
Theorem C51_documented_partial :
  forall (V : Type) x (v : V) pre post cfg,
    (forall n, In n (map fst post) -> endswith x n = false) ->
    (In x [lit "MARKET_PERIOD"] -> dget x (setup_config SCHED (pre ++ (lit "SCHEDULER_" ++ x, v) :: post) cfg) = Some v) /\
    (In x [lit "SYNC_BALANCE"; lit "SYNC_ORDER"; lit "SYNC_INTERNAL"; lit "SYNC_PERIOD"] ->
     dget x (setup_config ACCT (pre ++ (lit "ACCOUNT_" ++ x, v) :: post) cfg) = Some v).
Proof.
  intros V x v pre post cfg Hp. split; intros Hx; cbn [In] in Hx;
    repeat match type of Hx with _ \/ _ => destruct Hx as [Hx|Hx] end; try contradiction; subst x;
    apply (C51_override_partial V); try (intros n Hn _; exact (Hp n Hn)); vm_compute; intuition discriminate.
Qed.
Print Assumptions C51_documented_partial.
(** ... and these never change. *)
Theorem C51_documented_refuted :
  forall (V : Type) x (configs cfg : dict str V),
    (In x [lit "EVENT_DAYS_COUNT"; lit "ENABLE_HISTORY_START"; lit "SETUP_ACCOUNT"; lit "RUNTIME_DIR"] -> dget x (setup_config SCHED configs cfg) = dget x cfg) /\
    (In x [lit "TRADE_GATE"] -> dget x (setup_config ACCT configs cfg) = dget x cfg).
Proof.
  intros V x configs cfg. split; intros Hx; cbn [In] in Hx;
    repeat match type of Hx with _ \/ _ => destruct Hx as [Hx|Hx] end; try contradiction; subst x;
    apply (C51_refuted V); vm_compute; tauto.
Qed.
Print Assumptions C51_documented_refuted.
(** No other settings exist (scheduler/config.py, account/config.py). *)
Theorem C51_settings : forall x,
  (In x scheduler_settings <-> In x [lit "EVENT_DAYS_COUNT"; lit "ENABLE_HISTORY_START"; lit "SETUP_ACCOUNT"; lit "RUNTIME_DIR"] \/ In x [lit "MARKET_PERIOD"]) /\
  (In x account_settings <-> In x [lit "TRADE_GATE"] \/ In x [lit "SYNC_BALANCE"; lit "SYNC_ORDER"; lit "SYNC_INTERNAL"; lit "SYNC_PERIOD"]).
Proof. intros x. unfold scheduler_settings, account_settings. cbn [In]. tauto. Qed.
Print Assumptions C51_settings.
Example C51_demo :
  filter (fun s => has_char (hd 0%N s) SCHED) scheduler_settings =
    [lit "EVENT_DAYS_COUNT"; lit "ENABLE_HISTORY_START"; lit "SETUP_ACCOUNT"; lit "RUNTIME_DIR"] /\
  filter (fun s => has_char (hd 0%N s) ACCT) account_settings = [lit "TRADE_GATE"] /\
  setup_config SCHED [(lit "SCHEDULER_MARKET_PERIOD", 5); (lit "SCHEDULER_RUNTIME_DIR", 6); (lit "x", 7)]
    [(lit "MARKET_PERIOD", 1); (lit "RUNTIME_DIR", 2)] = [(lit "MARKET_PERIOD", 5); (lit "RUNTIME_DIR", 2); (lit "NTIME_DIR", 6)].
Proof. vm_compute. auto. Qed.

(** ** C56 *)

(** For all arguments: what is written where, and that it is flushed unless asked otherwise. *)
Theorem C56_print :
  forall out openable args k, exists words, joined (match k_sep k with Some x => x | None => [32%N] end) args words /\
    let text := words ++ match k_end k with Some x => x | None => [10%N] end in
    let flush := fun s => match k_flush k with Some false => [] | _ => [EFlush s] end in
    strategy_print out openable args k =
    match k_file k with
    | Some (Some f) => (Ok tt, EWrite f text :: flush f)
    | Some None => (Ok tt, EWrite Stdout text :: flush Stdout)
    | None =>
        match out with
        | None | Some [] => (Ok tt, EWrite Stdout text :: flush Stdout)
        | Some p => if openable p then (Ok tt, EOpen p :: EWrite (Path p) text :: flush (Path p) ++ [EClose p]) else (Err OSError, [])
        end
    end.
Proof.
  assert (J : forall sep args, joined sep args (join_str sep args)).
  { intros sep. induction args as [|w [|v ws] IH]; [constructor|constructor|]. cbn [join_str] in *. constructor. exact IH. }
  intros out openable args [file fl sep en]. eexists. split; [apply J|]. cbv zeta. unfold strategy_print, py_print. cbn [k_file k_flush k_sep k_end].
  destruct out as [[|c p]|], file as [[f|]|], fl as [[]|]; reflexivity.
Qed.
Print Assumptions C56_print.
Example C56_demo :
  strategy_print (Some (lit "log")) (fun _ => true) [lit "a"; lit "b"] (PKw None None None None) =
    (Ok tt, [EOpen (lit "log"); EWrite (Path (lit "log")) [97; 32; 98; 10]%N; EFlush (Path (lit "log")); EClose (lit "log")]) /\
  strategy_print (Some (lit "log")) (fun _ => true) [lit "a"] (PKw (Some (Some (Obj 3))) (Some false) None (Some [])) = (Ok tt, [EWrite (Obj 3) (lit "a")]).
Proof. vm_compute. auto. Qed.

(** ** C57 *)

(** Proved when the file is NAME.py, no dot in NAME, and nothing else claims NAME: no
    module of that name already imported or built in, no package or extension module of
    that name in the same directory. *)
Theorem C57_loads_partial :
  forall d n p i, code_path d n p ->
    ~ In n (im_modules i) -> ~ In n (im_builtin i) -> im_file i (path_join d n ++ lit ".py") = true ->
    (forall s, im_file i (path_join d n ++ lit "/__init__" ++ s) = false) ->
    (forall s, In s (im_ext i) -> im_file i (path_join d n ++ s) = false) ->
    exists f i', loader_load p i = (Ok (Some (OFile f)), i') /\ (f = p \/ f = lit "./" ++ p) /\ im_path i' = d :: im_path i.
Proof.
  intros d n p i Hp Hm Hb Hf Hpkg Hext. unfold loader_load. rewrite (loader_of d n p Hp). destruct Hp as (Hn & Hd & Hs & Hp).
  rewrite name_of by exact Hd. unfold import_module. cbn [im_modules im_builtin im_ext im_file im_path].
  assert (E1 : @memb str _ n (im_modules i) = false) by (destruct (@memb str _ n (im_modules i)) eqn:E; [apply memb_In in E; tauto|reflexivity]).
  assert (E2 : @memb str _ n (im_builtin i) = false) by (destruct (@memb str _ n (im_builtin i)) eqn:E; [apply memb_In in E; tauto|reflexivity]).
  rewrite E1, E2. set (nm := n) in *. replace (match nm with [] => Err ValueError | _ :: _ => _ end) with
    (Ok (option_map OFile (find (im_file i) (flat_map (fun d0 => candidates (im_ext i) d0 nm) (d :: im_path i))))) by (destruct nm; [congruence|reflexivity]).
  cbn [flat_map]. unfold candidates at 1. rewrite !map_app. cbn [map]. rewrite <- !app_assoc. cbn [app].
  eexists _, _. split.
  - match goal with |- context [find _ ?l] => replace l with
      ((map (fun s => path_join d nm ++ lit "/__init__" ++ s) (im_ext i) ++ [path_join d nm ++ lit "/__init__" ++ lit ".py"; path_join d nm ++ lit "/__init__" ++ lit ".pyc"]
        ++ map (fun s => path_join d nm ++ s) (im_ext i)) ++ (path_join d nm ++ lit ".py") :: ((path_join d nm ++ lit ".pyc") :: flat_map (fun d0 => candidates (im_ext i) d0 nm) (im_path i))) end.
    + rewrite find_first; [reflexivity| |exact Hf]. intros y Hy. apply in_app_iff in Hy. destruct Hy as [Hy|Hy].
      * apply in_map_iff in Hy. destruct Hy as (s & <- & _). apply Hpkg.
      * destruct Hy as [<-|[<-|Hy]]; [apply Hpkg|apply Hpkg|]. apply in_map_iff in Hy. destruct Hy as (s & <- & Hin). apply Hext, Hin.
    + rewrite <- !app_assoc. reflexivity.
  - cbn [im_path]. split; [|reflexivity]. destruct (join_path d nm p (conj Hn (conj Hd (conj Hs Hp)))) as [E|E]; rewrite <- E; auto.
Qed.
Print Assumptions C57_loads_partial.
(** False for a strategy file whose name (up to the first dot) is that of an imported
    module ... *)
Theorem C57_imported_refuted :
  forall d n p i, code_path d n p -> In n (im_modules i) -> fst (loader_load p i) = Ok (Some (OLoaded n)).
Proof.
  intros d n p i Hp Hm. unfold loader_load. rewrite (loader_of d n p Hp). destruct Hp as (Hn & Hd & _).
  rewrite name_of by exact Hd. unfold import_module. cbn [im_modules fst]. apply memb_In in Hm. rewrite Hm. destruct n; [congruence|reflexivity].
Qed.
Print Assumptions C57_imported_refuted.
(** ... and for a name with a dot in it: [a.b.py] never loads itself, and loads [a.py] if
    there is one. *)
Theorem C57_dot_refuted :
  forall d a b i f, ~ In SLASH a -> ~ In SLASH b -> ~ In DOT a -> a <> [] ->
    fst (loader_load (d ++ SLASH :: a ++ DOT :: b ++ lit ".py") i) = Ok (Some (OFile f)) ->
    exists d' s, f = path_join d' a ++ s /\ (In s (im_ext i) \/ s = lit ".py" \/ s = lit ".pyc" \/ exists r, s = lit "/__init__" ++ r).
Proof.
  intros d a b i f Ha Hb Hd Hn. unfold loader_load, loader_init.
  assert (F : ~ In SLASH (a ++ DOT :: b ++ lit ".py")).
  { intro X. apply in_app_iff in X. destruct X as [X|[X|X]]; [tauto|discriminate|]. apply in_app_iff in X. destruct X as [X|X]; [tauto|].
    vm_compute in X. intuition discriminate. }
  rewrite split_dir by exact F. set (dd := match rstrip_slash d with [] => _ | h => h end).
  rewrite split_on_app by (apply has_char_false; exact Hd). cbn [hd fst]. intro E. apply import_file in E. cbn [im_ext im_path] in E.
  apply in_flat_map in E. destruct E as (d' & _ & E). exists d'. unfold candidates in E. apply in_app_iff in E. destruct E as [E|E]; apply in_map_iff in E; destruct E as (s & <- & E).
  - exists (lit "/__init__" ++ s). split; [reflexivity|]. right. right. right. eauto.
  - exists s. split; [reflexivity|]. apply in_app_iff in E. destruct E as [E|[<-|[<-|[]]]]; auto.
Qed.
Print Assumptions C57_dot_refuted.
Definition demo_imp (files : list str) : imp := Imp [lit "os"; lit "json"] [lit "sys"] [lit ".so"] (fun f => memb f files) [lit "/lib"].
Example C57_demo :
  code_path (lit "/home/me") (lit "demo") (lit "/home/me/demo.py") /\
  fst (loader_load (lit "/home/me/demo.py") (demo_imp [lit "/home/me/demo.py"])) = Ok (Some (OFile (lit "/home/me/demo.py"))) /\
  fst (loader_load (lit "demo.py") (demo_imp [lit "./demo.py"])) = Ok (Some (OFile (lit "./demo.py"))) /\
  fst (loader_load (lit "./demo.v2.py") (demo_imp [lit "./demo.py"; lit "./demo.v2.py"])) = Ok (Some (OFile (lit "./demo.py"))) /\
  fst (loader_load (lit "json.py") (demo_imp [lit "./json.py"])) = Ok (Some (OLoaded (lit "json"))) /\
  fst (loader_load (lit "demo.txt") (demo_imp [lit "./demo.txt"])) = Ok None.
Proof.
  split.
  - split; [discriminate|]. split; [vm_compute; intuition discriminate|]. split; [vm_compute; intuition discriminate|]. right. right.
    exists (lit "/home/m"), 101%N. split; [reflexivity|]. split; [discriminate|reflexivity].
  - vm_compute. auto 10.
Qed.
