(** C92: what is typed is what is done.

    The statement: on every command line, the command runs that was typed, with the options
    that were typed, and nothing else.  Proved: with start_task or stop_task first and every
    option in any of the ways argparse takes it (the name or an unambiguous beginning of it;
    the value as the next token, after "=", or behind a one-letter name), the command runs
    with, for each option, the value written last (C106_start, C106_stop), and stop_task then
    signals the tasks meant (C92_named_partial, C92_everything_partial); whatever is typed,
    every option a command runs with was typed (C106_start_from, C106_stop_from), so that all
    tasks are stopped only if --all was typed, or a beginning of it.  False in general
    (C92_refuted): -V before a command keeps it from running; without a command the program
    fails with AttributeError; and a name given together with a pid is ignored. *)
From Verif Require Import PyBase PyStr MTasks STasks LTasks TTasks PyArgs MMain SMain LGate LMain.
Open Scope list_scope.

Lemma version_never_runs toks c : main_loop toks true <> ORun c.
Proof.
  induction toks as [|t rest IH]; cbn [main_loop]; [discriminate|]. destruct (eqb t (lit "--")); [discriminate|].
  destruct (class_of top_reg t) as [|[[s [k val]]|] e|]; try discriminate.
  - destruct (sub_command t rest); discriminate.
  - destruct (match e with Some arg => _ | None => _ end) as [[l [n|]]|]; try discriminate. destruct (forallb _ l); [exact IH|discriminate].
Qed.
(** a command that runs is the first token *)
Theorem C106_first toks c : main toks = ORun c -> exists name rest, toks = name :: rest /\ sub_command name rest = Some c.
Proof.
  unfold main. destruct toks as [|t rest]; cbn [main_loop]; [discriminate|]. destruct (eqb t (lit "--")); [discriminate|].
  destruct (class_of top_reg t) as [|[[s [k val]]|] e|]; try discriminate.
  - destruct (sub_command t rest) as [c'|] eqn:E; [|discriminate]. intro X. injection X as ->. eauto.
  - destruct (match e with Some arg => _ | None => _ end) as [[l [n|]]|]; try discriminate. destruct (forallb _ l); [|discriminate].
    intro X. exfalso. exact (version_never_runs _ _ X).
Qed.
Print Assumptions C106_first.

(** start_task *)
Theorem C106_start :
  forall items, start_typed items -> given OName items -> given OCode items ->
    exists o, main (lit "start_task" :: tokens items) = ORun (CStart o) /\
      asked OName items (Some (so_name o)) /\ asked OCode items (Some (so_code o)) /\
      asked OOut items (so_out o) /\ asked OEnv items (so_env o) /\ asked OConfig items (so_config o) /\
      (so_debug o = true <-> given ODebug items).
Proof.
  intros items T Gn Gc. destruct (start_state items T) as (s & E & A1 & A2 & A3 & A4 & A5 & A6).
  assert (V : forall k ov, (k = OName \/ k = OCode) -> given k items -> asked k items ov -> exists v, ov = Some v).
  { intros k ov Hk (w & t & I) A. destruct A as [items0 H|a v t0 b H]; [|eauto]. exfalso.
    unfold start_typed in T. pose proof (proj1 (Forall_forall _ _) T _ I) as X. cbv beta iota in X. destruct X as (_ & X & _).
    destruct Hk as [->| ->]; cbn in X; (destruct w as [w|]; [exact (H _ _ I)|exact (X eq_refl)]). }
  destruct s as [n c o e g d]. cbn [ap_name ap_code ap_out ap_env ap_config ap_debug] in *.
  destruct (V OName n) as [n' ->]; auto. destruct (V OCode c) as [c' ->]; auto.
  exists (SOpts n' c' o e g d). split; [|cbn; auto 10].
  unfold main. cbn [main_loop]. replace (eqb (lit "start_task") (lit "--")) with false by reflexivity.
  change (class_of top_reg (lit "start_task")) with (@CArg topt). cbn match.
  unfold sub_command. rewrite eqb_refl. unfold parse_start. rewrite (start_args _ T), E. reflexivity.
Qed.
Print Assumptions C106_start.
(** without a name or without a file it does not start *)
Theorem C106_required :
  forall items, start_typed items -> ~ (given OName items /\ given OCode items) -> main (lit "start_task" :: tokens items) = OExit.
Proof.
  intros items T N. destruct (start_state items T) as (s & E & A1 & A2 & _).
  unfold main. cbn [main_loop]. replace (eqb (lit "start_task") (lit "--")) with false by reflexivity.
  change (class_of top_reg (lit "start_task")) with (@CArg topt). cbn match.
  unfold sub_command. rewrite eqb_refl. unfold parse_start. rewrite (start_args _ T), E. destruct s as [[n|] [c|] o e g d]; try reflexivity.
  exfalso. apply N. split; eapply asked_given; eassumption.
Qed.
Print Assumptions C106_required.

(** stop_task *)
Theorem C106_stop :
  forall items, stop_typed items -> (forall v toks, In (KPid, Some v, toks) items -> exists z, py_int v = Some z) ->
    exists o, main (lit "stop_task" :: tokens items) = ORun (CStop o) /\
      asked KName items (st_name o) /\
      (exists ov, asked KPid items ov /\ st_pid o = match ov with Some v => py_int v | None => None end) /\
      (st_all o = true <-> given KAll items) /\ (st_force o = true <-> given KForce items).
Proof.
  intros items T P. destruct (stop_state items T P) as (o & E & A). exists o. split; [|exact A].
  unfold main. cbn [main_loop]. replace (eqb (lit "stop_task") (lit "--")) with false by reflexivity.
  change (class_of top_reg (lit "stop_task")) with (@CArg topt). cbn match.
  unfold sub_command. replace (eqb (lit "stop_task") (lit "start_task")) with false by reflexivity. replace (eqb (lit "stop_task") (lit "get_tasks")) with false by reflexivity.
  rewrite eqb_refl. unfold parse_stop. rewrite (stop_args _ T), E. reflexivity.
Qed.
Print Assumptions C106_stop.
(** a pid that is no integer stops nothing *)
Theorem C106_bad_pid :
  forall items v toks, stop_typed items -> In (KPid, Some v, toks) items -> py_int v = None -> main (lit "stop_task" :: tokens items) = OExit.
Proof.
  intros items v toks T I Z.
  unfold main. cbn [main_loop]. replace (eqb (lit "stop_task") (lit "--")) with false by reflexivity.
  change (class_of top_reg (lit "stop_task")) with (@CArg topt). cbn match.
  unfold sub_command. replace (eqb (lit "stop_task") (lit "start_task")) with false by reflexivity. replace (eqb (lit "stop_task") (lit "get_tasks")) with false by reflexivity.
  rewrite eqb_refl. unfold parse_stop. rewrite (stop_args _ T), (stop_bad _ _ v); [reflexivity| |exact Z]. apply (in_map fst) in I. exact I.
Qed.
Print Assumptions C106_bad_pid.

(** who is signalled when a name is typed, and no pid and not --all *)
Theorem C92_named_partial :
  forall items n table, stop_typed items -> asked KName items (Some n) -> n <> [] -> ~ given KPid items -> ~ given KAll items ->
    NoDup (map p_pid table) -> (forall p, In p table -> p_denied p = false) -> (forall p, active_in table p -> exists m, named m (p_cmd p)) ->
    exists o, main (lit "stop_task" :: tokens items) = ORun (CStop o) /\ NoDup (sent_signals o table) /\
      forall pid sg, In (pid, sg) (sent_signals o table) <->
        (sg = SIGKILL <-> given KForce items) /\ exists p, active_in table p /\ named n (p_cmd p) /\ p_pid p = pid.
Proof.
  intros items n table T A Nn Np Na ND Hd Hn.
  destruct (C106_stop items T) as (o & E & A1 & (ov & A2 & A2') & A3 & A4).
  { intros v toks I. exfalso. apply Np. exists (Some v), toks. exact I. }
  assert (ov = None) as -> by (destruct ov as [v|]; [exfalso; apply Np; eapply asked_given, A2|reflexivity]).
  assert (En : st_name o = Some n) by (eapply asked_fun; [exact A1|exact A]).
  assert (Ea : st_all o = false) by (destruct (st_all o); [exfalso; apply Na, A3; reflexivity|reflexivity]).
  exists o. split; [exact E|].
  destruct (C49_stop_partial o table ND Hd) as (_ & D & S); [right; right; exists n; auto|auto|]. split; [exact D|].
  intros pid sg. rewrite S. clear S. unfold selects. rewrite Ea, A2', En.
  assert (F : sg = (if st_force o then SIGKILL else SIGTERM) <-> (sg = SIGKILL <-> given KForce items)).
  { rewrite <- A4. destruct (st_force o), sg; intuition congruence. }
  rewrite F. split; intros (H1 & p & H2 & H3 & H4); (split; [exact H1|]); exists p; (split; [exact H2|]); (split; [|exact H4]).
  - destruct H3 as [H3|[_ [(z & H3 & _)|[_ (m & Em & H3)]]]]; try discriminate H3. injection Em as <-. exact H3.
  - right. split; [reflexivity|]. right. split; [left; reflexivity|]. exists n. auto.
Qed.
Print Assumptions C92_named_partial.
(** and when --all is typed: all running tasks, whatever else is typed *)
Theorem C92_everything_partial :
  forall items table, stop_typed items -> (forall v toks, In (KPid, Some v, toks) items -> exists z, py_int v = Some z) -> given KAll items ->
    NoDup (map p_pid table) -> (forall p, In p table -> p_denied p = false) ->
    exists o, main (lit "stop_task" :: tokens items) = ORun (CStop o) /\
      forall pid sg, In (pid, sg) (sent_signals o table) <-> (sg = SIGKILL <-> given KForce items) /\ exists p, active_in table p /\ p_pid p = pid.
Proof.
  intros items table T P G ND Hd. destruct (C106_stop items T P) as (o & E & _ & _ & A3 & A4). exists o. split; [exact E|].
  assert (Ea : st_all o = true) by (apply A3, G).
  destruct (C49_stop_partial o table ND Hd) as (_ & _ & S); [left; exact Ea|left; exact Ea|].
  intros pid sg. rewrite S. unfold selects. rewrite Ea.
  assert (F : sg = (if st_force o then SIGKILL else SIGTERM) <-> (sg = SIGKILL <-> given KForce items)).
  { rewrite <- A4. destruct (st_force o), sg; intuition congruence. }
  rewrite F. split; [intros (H1 & p & H2 & _ & H4)|intros (H1 & p & H2 & H4)]; split; eauto 6.
Qed.
Print Assumptions C92_everything_partial.

(** ** nothing else *)

Lemma all_token l t : token_for stop_reg l KAll t -> In t [lit "--a"; lit "--al"; lit "--all"].
Proof.
  intros (s & k0 & val & e & C & B & [<-|(_ & _ & d & c & o & _ & D)]).
  - destruct (class_shape stop_reg stop_keys _ _ _ _ C) as [I Sh].
    assert (s = lit "--all" /\ val = false) as [-> ->].
    { cbn in I. decompose [or] I; try contradiction; match goal with H : _ = (s, _) |- _ => injection H; intros; subst; first [discriminate|split; reflexivity] end. }
    destruct e as [v|].
    + exfalso. destruct B as [B|[B|(_ & d & c & w & Es & Nc)]]; try discriminate B. injection Es as <- <- <-. exact (Nc eq_refl).
    + destruct Sh as [r Er]. change (lit "--all") with [45; 45; 97; 108; 108]%N in Er.
      destruct t as [|c1 t]; [discriminate C|]. cbn [app] in Er. injection Er as <- Er.
      destruct t as [|c2 t]; [discriminate C|]. cbn [app] in Er. injection Er as <- Er.
      destruct t as [|c3 t]; [vm_compute in C; discriminate C|]. cbn [app] in Er. injection Er as <- Er.
      destruct t as [|c4 t]; [left; reflexivity|]. cbn [app] in Er. injection Er as <- Er.
      destruct t as [|c5 t]; [right; left; reflexivity|]. cbn [app] in Er. injection Er as <- Er.
      destruct t; [right; right; left; reflexivity|discriminate Er].
  - exfalso. apply dget_In in D. cbn in D. decompose [or] D; try contradiction; discriminate.
Qed.
Lemma force_token l t : (forall w, ~ In (KHelp, w) l) -> token_for stop_reg l KForce t -> prefix (lit "-f") t \/ (prefix (lit "--f") t /\ prefix t (lit "--force")).
Proof.
  intros NH (s & k0 & val & e & C & B & [<-|(Ne & -> & d & c & o & Hd & D)]).
  - destruct (class_shape stop_reg stop_keys _ _ _ _ C) as [I Sh].
    assert (Q : (s = lit "-f" \/ s = lit "--force") /\ val = false).
    { cbn in I. decompose [or] I; try contradiction; match goal with H : _ = (s, _) |- _ => injection H; intros; subst; first [discriminate|split; [left; reflexivity|reflexivity]|split; [right; reflexivity|reflexivity]] end. }
    destruct Q as [[->| ->] ->].
    + left. destruct e as [v|].
      * destruct Sh as [_ [->|[(w & -> & (r & E))| ->]]]; [eexists; reflexivity|discriminate E|eexists; reflexivity].
      * destruct Sh as [r Er]. change (lit "-f") with [45; 102]%N in Er.
        destruct t as [|c1 t]; [discriminate C|]. cbn [app] in Er. injection Er as <- Er.
        destruct t as [|c2 t]; [discriminate C|]. cbn [app] in Er. injection Er as <- Er. exists t. reflexivity.
    + destruct e as [v|].
      * exfalso. destruct B as [B|[B|(_ & d & c & w & Es & Nc)]]; try discriminate B. injection Es as <- <- <-. exact (Nc eq_refl).
      * right. split; [|exact Sh]. destruct Sh as [r Er]. change (lit "--force") with [45; 45; 102; 111; 114; 99; 101]%N in Er.
        destruct t as [|c1 t]; [discriminate C|]. cbn [app] in Er. injection Er as <- Er.
        destruct t as [|c2 t]; [discriminate C|]. cbn [app] in Er. injection Er as <- Er.
        destruct t as [|c3 t]; [vm_compute in C; discriminate C|]. cbn [app] in Er. injection Er as <- Er. exists t. reflexivity.
  - destruct (class_shape stop_reg stop_keys _ _ _ _ C) as [I Sh].
    destruct B as [B|[B|(B & d' & c' & w' & Es & Nc)]]; [discriminate B|contradiction|].
    assert (s = lit "-f") as ->.
    { clear Sh C. rewrite Es in I |- *. cbn in I. decompose [or] I; try contradiction; clear I;
        match goal with H : _ = (d' :: c' :: w', _) |- _ => injection H; clear H; intros; subst end; first [discriminate|exfalso; exact (NH _ B)|exfalso; exact (Nc eq_refl)|reflexivity]. }
    left. destruct e as [v|]; [|contradiction]. destruct Sh as [_ [->|[(w & -> & (r & E))| ->]]]; [eexists; reflexivity|discriminate E|eexists; reflexivity].
Qed.

Theorem C106_stop_from :
  forall toks o, main toks = ORun (CStop o) -> exists rest, toks = lit "stop_task" :: rest /\
    (st_all o = true -> exists t, In t rest /\ In t [lit "--a"; lit "--al"; lit "--all"]) /\
    (st_force o = true -> exists t, In t rest /\ (prefix (lit "-f") t \/ (prefix (lit "--f") t /\ prefix t (lit "--force")))) /\
    (forall n, st_name o = Some n -> exists t, In t rest /\ suffix n t) /\
    (forall z, st_pid o = Some z -> exists t v, In t rest /\ suffix v t /\ py_int v = Some z).
Proof.
  intros toks o H. destruct (C106_first _ _ H) as (name & rest & -> & S). exists rest. unfold sub_command in S.
  destruct (eqb name (lit "start_task")); [destruct (parse_start rest); discriminate S|]. destruct (eqb name (lit "get_tasks")); [destruct (parse_tasks rest); discriminate S|].
  destruct (eqb name (lit "stop_task")) eqn:E; [|discriminate S]. apply eqb_true in E. split; [rewrite E; reflexivity|].
  unfold parse_stop in S. destruct (args stop_reg rest) as [l|] eqn:A; [|discriminate S]. destruct (stop_actions l _) as [o'|] eqn:B; [|discriminate S].
  cbn [option_map] in S. injection S as ->. destruct (stop_actions_from _ _ _ B) as (F1 & F2 & F3 & F4 & F5). cbn [st_name st_pid st_all st_force] in F1, F2, F3, F4.
  split.
  { intro X. destruct (F3 X) as [Y|[w Y]]; [discriminate Y|]. destruct (args_from _ _ _ A _ _ Y) as (t & T1 & T2). exists t. split; [exact T1|]. eapply all_token, T2. }
  split.
  { intro X. destruct (F4 X) as [Y|[w Y]]; [discriminate Y|]. destruct (args_from _ _ _ A _ _ Y) as (t & T1 & T2). exists t. split; [exact T1|]. eapply force_token, T2. exact F5. }
  split.
  - intros n X. destruct (F1 n X) as [Y|Y]; [discriminate Y|]. exact (args_values _ stop_keys _ _ A _ _ Y).
  - intros z X. destruct (F2 z X) as [Y|(v & Y & Z)]; [discriminate Y|]. destruct (args_values _ stop_keys _ _ A _ _ Y) as (t & T1 & T2). eauto.
Qed.
Print Assumptions C106_stop_from.

Theorem C106_start_from :
  forall toks o, main toks = ORun (CStart o) -> exists rest, toks = lit "start_task" :: rest /\
    forall v, In (Some v) [Some (so_name o); Some (so_code o); so_out o; so_env o; so_config o] -> exists t, In t rest /\ suffix v t.
Proof.
  intros toks o H. destruct (C106_first _ _ H) as (name & rest & -> & S). exists rest. unfold sub_command in S.
  destruct (eqb name (lit "start_task")) eqn:E.
  2: { destruct (eqb name (lit "get_tasks")); [destruct (parse_tasks rest); discriminate S|]. destruct (eqb name (lit "stop_task")); [destruct (parse_stop rest); discriminate S|discriminate S]. }
  apply eqb_true in E. split; [rewrite E; reflexivity|]. unfold parse_start in S. destruct (args start_reg rest) as [l|] eqn:A; [|discriminate S].
  destruct (start_actions l _) as [s|] eqn:B; [|discriminate S]. destruct s as [[n|] [c|] o1 e1 g1 d1]; try discriminate S. cbn [option_map] in S. injection S as <-.
  cbn [so_name so_code so_out so_env so_config]. intros v X. pose proof (start_actions_from _ _ _ B) as F.
  assert (Q : forall f k, In (k, f) [(OName, ap_name); (OCode, ap_code); (OOut, ap_out); (OEnv, ap_env); (OConfig, ap_config)] ->
    f (ApSt None None None None None false) = None -> f (ApSt (Some n) (Some c) o1 e1 g1 d1) = Some v -> exists t, In t rest /\ suffix v t).
  { intros f k I Z Y. destruct (F f k I v Y) as [W|W]; [congruence|]. exact (args_values _ start_keys _ _ A _ _ W). }
  cbn [In] in X. destruct X as [X|[X|[X|[X|[X|[]]]]]].
  - apply (Q ap_name OName); [cbn; auto|reflexivity|exact X].
  - apply (Q ap_code OCode); [cbn; auto|reflexivity|exact X].
  - apply (Q ap_out OOut); [cbn; auto|reflexivity|exact X].
  - apply (Q ap_env OEnv); [cbn; auto 6|reflexivity|exact X].
  - apply (Q ap_config OConfig); [cbn; auto 7|reflexivity|exact X].
Qed.
Print Assumptions C106_start_from.

(** start_task's command line is read as in C47 *)
Theorem C106_same : forall toks, parse_start toks = parse_args toks.
Proof.
  intro toks. unfold parse_start, parse_args. rewrite <- loop_forget. destruct (args start_reg toks) as [l|]; [|reflexivity].
  destruct (start_actions l _) as [[[n|] [c|] o e g d]|]; reflexivity.
Qed.
Print Assumptions C106_same.

(** ** The statement in full is false *)
Definition runs_as_typed : Prop :=
  (forall toks, main toks <> ONoCommand) /\
  (forall toks c, main toks = ORun c -> main (lit "-V" :: toks) = ORun c) /\
  (forall items o, stop_typed items -> main (lit "stop_task" :: tokens items) = ORun (CStop o) ->
     forall n table p, asked KName items (Some n) -> (forall q, In q table -> p_denied q = false) -> active_in table p -> named n (p_cmd p) ->
       In (p_pid p) (map fst (sent_signals o table))).
Definition one_task (pid : Z) (n : str) : proc :=
  Proc pid 1 [lit "python"; lit "-m"; lit "jqtrade"; lit "start_task"; lit "-n"; n; lit "-c"; lit "s.py"] false true (Some n).
Definition both : list (kopt * option str * list str) :=
  [(KName, Some (lit "a"), [lit "-n"; lit "a"]); (KPid, Some (lit "5"), [lit "--pid=5"])].
Lemma both_typed : stop_typed both.
Proof.
  apply Forall_cons; [|apply Forall_cons; [|apply Forall_nil]]; (split; [discriminate|]); (split; [discriminate|]).
  - apply (sp_separate stop_all (stop_names KName) (lit "-n") (lit "-n") (lit "a")); [left; reflexivity|left; reflexivity|]. right; right; left. exists 97%N, []. split; [reflexivity|discriminate].
  - apply (sp_equals stop_all (stop_names KPid) (lit "--pid") (lit "--pid") (lit "5")); [right; left; reflexivity|left; reflexivity].
Qed.
Theorem C92_refuted : ~ runs_as_typed /\
  main [] = ONoCommand /\
  (exists c, main [lit "start_task"; lit "-n"; lit "a"; lit "-c"; lit "s.py"] = ORun c /\
     main [lit "-V"; lit "start_task"; lit "-n"; lit "a"; lit "-c"; lit "s.py"] = OVersion) /\
  (exists o, main (lit "stop_task" :: tokens both) = ORun (CStop o) /\
     sent_signals o [one_task 4 (lit "a"); one_task 5 (lit "b")] = [(5, SIGTERM)]).
Proof.
  split; [intros (H & _); exact (H [] eq_refl)|]. split; [reflexivity|]. split; [eexists; split; vm_compute; reflexivity|]. eexists; split; vm_compute; reflexivity.
Qed.
Print Assumptions C92_refuted.
(** each part of it *)
Theorem C92_pid_refuted : ~ (forall items o, stop_typed items -> main (lit "stop_task" :: tokens items) = ORun (CStop o) ->
     forall n table p, asked KName items (Some n) -> (forall q, In q table -> p_denied q = false) -> active_in table p -> named n (p_cmd p) ->
       In (p_pid p) (map fst (sent_signals o table))).
Proof.
  intro H. specialize (H both (StOpts (Some (lit "a")) (Some 5) false false) both_typed eq_refl (lit "a") [one_task 4 (lit "a"); one_task 5 (lit "b")] (one_task 4 (lit "a"))).
  assert (X : In (p_pid (one_task 4 (lit "a"))) (map fst (sent_signals (StOpts (Some (lit "a")) (Some 5) false false) [one_task 4 (lit "a"); one_task 5 (lit "b")]))).
  { apply H.
    - apply (ak_last KName [] (lit "a") [lit "-n"; lit "a"] [(KPid, Some (lit "5"), [lit "--pid=5"])]). intros v t [E|[]]. discriminate E.
    - intros q [<-|[<-|[]]]; reflexivity.
    - split; [left; reflexivity|]. split.
      + exists (lit "python -m "), (lit " start_task -n a -c s.py"), (lit "python -m jqtrade "), (lit " -n a -c s.py"). split; vm_compute; reflexivity.
      + intros (q & [<-|[<-|[]]] & _ & E); discriminate E.
    - eexists. split; [vm_compute; reflexivity|reflexivity]. }
  vm_compute in X. destruct X as [X|[]]. discriminate X.
Qed.
Print Assumptions C92_pid_refuted.

(** ** A concrete case: an abbreviation, a joined value, a value given twice *)
Definition demo_items : list (aopt * option str * list str) :=
  [(OName, Some (lit "x"), [lit "-nx"]); (OCode, Some (lit "s.py"), [lit "--cod"; lit "s.py"]); (ODebug, None, [lit "--deb"]);
   (OName, Some (lit "-y="), [lit "--name=-y="])].
Lemma demo_items_typed : start_typed demo_items.
Proof.
  repeat (apply Forall_cons; [split; [discriminate|]|]); [| | | |apply Forall_nil].
  - split; [discriminate|]. apply (sp_attached start_all (start_names OName) 110%N 120%N []); [left; reflexivity|discriminate|discriminate].
  - split; [discriminate|]. apply (sp_separate start_all (start_names OCode) (lit "--cod") (lit "--code") (lit "s.py")).
    + right; left; reflexivity.
    + right. split; [exists 99%N, (lit "od"); reflexivity|]. split; [cbn; intuition discriminate|]. split; [exists (lit "e"); reflexivity|].
      intros s' I (r & E). cbn in I. decompose [or] I; clear I; try contradiction; match goal with H : _ = s' |- _ => first [exact (eq_sym H)|rewrite E in H; discriminate H] end.
    + right; right; left. exists 115%N, (lit ".py"). split; [reflexivity|discriminate].
  - split; [reflexivity|]. apply (sp_flag start_all (start_names ODebug) (lit "--deb") (lit "--debug")); [left; reflexivity|].
    right. split; [exists 100%N, (lit "eb"); reflexivity|]. split; [cbn; intuition discriminate|]. split; [exists (lit "ug"); reflexivity|].
    intros s' I (r & E). cbn in I. decompose [or] I; clear I; try contradiction; match goal with H : _ = s' |- _ => first [exact (eq_sym H)|rewrite E in H; discriminate H] end.
  - split; [discriminate|]. apply (sp_equals start_all (start_names OName) (lit "--name") (lit "--name") (lit "-y=")); [right; left; reflexivity|left; reflexivity].
Qed.
Example C92_demo : main (lit "start_task" :: tokens demo_items) = ORun (CStart (SOpts (lit "-y=") (lit "s.py") None None None true)).
Proof. vm_compute. reflexivity. Qed.
Example C92_demo_named : exists o, main [lit "stop_task"; lit "-fn"; lit "a"] = ORun (CStop o) /\ sent_signals o [one_task 4 (lit "a"); one_task 5 (lit "b")] = [(4, SIGKILL)].
Proof. eexists. split; vm_compute; reflexivity. Qed.

Lemma joined_some {K} (reg : list (str * (K * bool))) arg : forall s k val l n, joined reg s k val arg = Some (l, n) -> l <> [].
Proof.
  intros s k val l n H. destruct arg as [|a arg]; cbn [joined] in H; destruct val; try (injection H as <- _; discriminate).
  - destruct s as [|d [|c s]]; discriminate H.
  - destruct s as [|d [|c s]]; try discriminate H. destruct (c =? DASH)%N; [discriminate H|].
    destruct (dget [d; a] reg) as [[k' v']|]; [|discriminate H]. destruct arg as [|a' arg].
    + destruct v'; injection H as <- _; discriminate.
    + match type of H with option_map _ ?x = _ => destruct x as [[l' n']|] end; [|discriminate H]. injection H as <- _. discriminate.
Qed.
Lemma args_some {K} (reg : list (str * (K * bool))) t toks l : args reg (t :: toks) = Some l -> l <> [].
Proof.
  cbn [args]. destruct (eqb t (lit "--")); [discriminate|]. destruct (class_of reg t) as [|[[s [k val]]|] e|]; try discriminate.
  assert (X : forall a, match e with Some arg => joined reg s k val arg | None => Some (if val then ([], Some k) else ([(k, None)], None)) end = Some (a, None) -> a <> []).
  { intros a. destruct e as [arg|]; [apply joined_some|]. destruct val; intros H; injection H; congruence. }
  destruct (match e with Some arg => _ | None => _ end) as [[a [k'|]]|]; [| |discriminate].
  - destruct toks as [|v toks]; [discriminate|]. destruct (eqb v (lit "--")); [discriminate|]. destruct (class_of reg v); try discriminate.
    destruct (args reg toks); [|discriminate]. cbn [option_map]. intros H E. injection H as <-. apply app_eq_nil in E as [_ E]. discriminate E.
  - specialize (X a eq_refl). destruct (args reg toks); [|discriminate]. cbn [option_map]. intros H E. injection H as <-. apply app_eq_nil in E as [E _]. contradiction.
Qed.
(** get_tasks takes no options: with anything behind it the program leaves with a message. *)
Theorem C106_tasks : forall toks, (main (lit "get_tasks" :: toks) = ORun CTasks <-> toks = []) /\ (toks <> [] -> main (lit "get_tasks" :: toks) = OExit).
Proof.
  assert (M : forall toks, main (lit "get_tasks" :: toks) = match option_map (fun _ => CTasks) (parse_tasks toks) with Some c => ORun c | None => OExit end) by (intros; reflexivity).
  assert (N : forall t toks, parse_tasks (t :: toks) = None).
  { intros t toks. unfold parse_tasks. pose proof (args_some tasks_reg t toks). destruct (args tasks_reg (t :: toks)) as [[|]|]; auto. exfalso. exact (H [] eq_refl eq_refl). }
  intros toks. rewrite M. destruct toks as [|t toks]; [split; [tauto|congruence]|]. rewrite N. split; [split; discriminate|reflexivity].
Qed.
Print Assumptions C106_tasks.

(** A token that looks like an option and is none makes the program leave with a message,
    wherever it stands. *)
Lemma class_unknown {K} (reg : list (str * (K * bool))) all t : (forall s o, In (s, o) reg -> In s all) -> no_option all t -> class_of reg t = COpt None None.
Proof.
  intros Ha ((c & w & E) & Nb & Nn & Np & Ns).
  assert (P : forall p o, p = t \/ (exists e, t = p ++ 61%N :: e) -> ~ In (p, o) reg).
  { intros p o Hp I. apply (Np p p Hp (Ha _ _ I)). exists []. rewrite app_nil_r. reflexivity. }
  rewrite class_dash by eauto. rewrite dget_none by (intro; apply P; auto).
  assert (O : option_tuples_of reg t = []).
  { assert (Z : forall (f : str * (K * bool) -> list (str * (K * bool) * option str)), (forall s o, In (s, o) reg -> f (s, o) = []) -> flat_map f reg = []).
    { intros f Hf. assert (Y : forall l, incl l reg -> flat_map f l = []); [|apply Y, incl_refl]. induction l as [|[s o] l IH]; intro I; [reflexivity|].
      cbn [flat_map]. rewrite IH by (intros y Hy; apply I; right; exact Hy). rewrite (Hf _ _ (I _ (or_introl eq_refl))). reflexivity. }
    destruct (N.eq_dec c DASH) as [->|Nc].
    - rewrite tuples_long by eauto. destruct (split_eq t) as [[p e]|] eqn:S; apply Z; intros s o I.
      + apply split_eq_some in S as [S _]. destruct (startswith p s) eqn:St; [|reflexivity]. apply sw_prefix in St. destruct (Np p s (or_intror (ex_intro _ e S)) (Ha _ _ I) St).
      + destruct (startswith t s) eqn:St; [|reflexivity]. apply sw_prefix in St. destruct (Np t s (or_introl eq_refl) (Ha _ _ I) St).
    - rewrite E. unfold option_tuples_of. rewrite (proj2 (N.eqb_neq c DASH) Nc). apply Z. intros s o I.
      rewrite eqb_no.
      2: { intros ->. apply (Ns c (Ha _ _ I)). exists w. exact E. }
      destruct (startswith (45%N :: c :: w) s) eqn:St; [|reflexivity]. apply sw_prefix in St. rewrite <- E in St. destruct (Np t s (or_introl eq_refl) (Ha _ _ I) St). }
  rewrite O. destruct (negative_number t) eqn:Ng; [apply negative_iff in Ng; contradiction|]. rewrite (proj2 (has_char_false 32%N t) Nb).
  destruct (split_eq t) as [[p e]|] eqn:S; [|reflexivity]. apply split_eq_some in S as [S _]. rewrite (dget_none reg p); [reflexivity|]. intro o. apply P. eauto.
Qed.
Lemma args_unknown {K} (reg : list (str * (K * bool))) t : class_of reg t = COpt None None -> forall b a, args reg (a ++ t :: b) = None.
Proof.
  intros C b a. remember (List.length a) as n eqn:En. revert a En. induction n as [n IH] using (well_founded_induction lt_wf). intros a En.
  destruct a as [|x a]; cbn [app args].
  - rewrite C. destruct (eqb t (lit "--")); reflexivity.
  - destruct (eqb x (lit "--")); [reflexivity|]. destruct (class_of reg x) as [|[[s [k val]]|] e|]; try reflexivity.
    destruct (match e with Some arg => _ | None => _ end) as [[l [k'|]]|]; [| |reflexivity].
    + destruct a as [|v a]; cbn [app]; [rewrite C; destruct (eqb t (lit "--")); reflexivity|].
      rewrite (IH (List.length a)); [|subst n; cbn [List.length]; lia|reflexivity]. destruct (eqb v (lit "--")); [reflexivity|]. destruct (class_of reg v); reflexivity.
    + rewrite (IH (List.length a)); [reflexivity|subst n; cbn [List.length]; lia|reflexivity].
Qed.
Theorem C106_unknown :
  (forall a t b, no_option start_all t -> main (lit "start_task" :: a ++ t :: b) = OExit) /\
  (forall a t b, no_option stop_all t -> main (lit "stop_task" :: a ++ t :: b) = OExit).
Proof.
  split; intros a t b N.
  - change (main (lit "start_task" :: a ++ t :: b)) with (match option_map CStart (parse_start (a ++ t :: b)) with Some c => ORun c | None => OExit end).
    unfold parse_start. rewrite args_unknown; [reflexivity|]. apply class_unknown with (all := start_all); [exact start_all_of|exact N].
  - change (main (lit "stop_task" :: a ++ t :: b)) with (match option_map CStop (parse_stop (a ++ t :: b)) with Some c => ORun c | None => OExit end).
    unfold parse_stop. rewrite args_unknown; [reflexivity|]. apply class_unknown with (all := stop_all); [exact stop_all_of|exact N].
Qed.
Print Assumptions C106_unknown.
(** concrete cases: neither an option nor a number; a number as a value *)
Lemma no_option_demo : no_option stop_all (lit "-1.2.3").
Proof.
  split; [eexists _, _; reflexivity|]. split; [cbn; intuition discriminate|]. split.
  { intro H. apply negative_iff in H. discriminate H. }
  split.
  - intros p s [->|[e E]] I [r R].
    + cbn in I. decompose [or] I; clear I; try contradiction; match goal with H : _ = s |- _ => rewrite R in H; discriminate H end.
    + assert (X : In 61%N (lit "-1.2.3")) by (rewrite E; apply in_or_app; right; left; reflexivity). cbn in X. intuition discriminate.
  - intros c I [r R]. injection R as <- R. cbn in I. intuition discriminate.
Qed.
Example C106_unknown_demo : main [lit "stop_task"; lit "-f"; lit "-1.2.3"; lit "--all"] = OExit /\
  main [lit "stop_task"; lit "-n"; lit "-1.2"] = ORun (CStop (StOpts (Some (lit "-1.2")) None false false)).
Proof. split; vm_compute; reflexivity. Qed.

(** ** options before the command *)

(** The version option before anything else: nothing is run.  The version is printed if the
    rest could have been run or is empty, and a value for it is refused. *)
Lemma version_class v : In v [lit "-V"; lit "--version"] -> exists k, class_of top_reg v = COpt (Some (v, (TVersion, k))) None /\ eqb v (lit "--") = false.
Proof. intros [<-|[<-|[]]]; eexists; split; reflexivity. Qed.
Lemma version_loop vs : Forall (fun v => In v [lit "-V"; lit "--version"]) vs -> forall rest b, vs <> [] -> main_loop (vs ++ rest) b = main_loop rest true.
Proof.
  induction 1 as [|v vs Hv Hf IH]; intros rest b Hne; [contradiction|]. destruct (version_class v Hv) as (k & Hc & He).
  cbn [app main_loop]. rewrite He, Hc. cbn [forallb fst andb]. destruct vs as [|v' vs]; [reflexivity|]. apply IH. discriminate.
Qed.
Lemma version_value x : class_of top_reg (lit "--version=" ++ x) = COpt (Some (lit "--version", (TVersion, false))) (Some x).
Proof.
  change (lit "--version=" ++ x) with (DASH :: (lit "-version=" ++ x)). cbn [class_of]. change (DASH =? DASH)%N with true. cbn [negb]. reflexivity.
Qed.
Theorem C106_version :
  forall vs, vs <> [] -> Forall (fun v => In v [lit "-V"; lit "--version"]) vs ->
    main vs = OVersion /\
    (forall name rest, In name [lit "start_task"; lit "get_tasks"; lit "stop_task"] ->
       main (vs ++ name :: rest) = match main (name :: rest) with ORun _ => OVersion | _ => OExit end) /\
    (forall x rest, main (vs ++ (lit "--version=" ++ x) :: rest) = OExit /\ main ((lit "--version=" ++ x) :: rest) = OExit).
Proof.
  intros vs Hne Hf. unfold main. split; [rewrite <- (app_nil_r vs), version_loop by assumption; reflexivity|]. split.
  - intros name rest Hn. rewrite version_loop by assumption.
    assert (Hc : class_of top_reg name = CArg /\ eqb name (lit "--") = false) by (destruct Hn as [<-|[<-|[<-|[]]]]; split; reflexivity).
    destruct Hc as [Hc He]. cbn [main_loop]. rewrite He, Hc. destruct (sub_command name rest); reflexivity.
  - intros x rest. rewrite version_loop by assumption.
    assert (G : forall b, main_loop ((lit "--version=" ++ x) :: rest) b = OExit); [|split; apply G].
    intros b. cbn [main_loop]. rewrite version_value. change (eqb (lit "--version=" ++ x) (lit "--")) with false. cbv iota. destruct x; reflexivity.
Qed.
Print Assumptions C106_version.
Example C106_version_demo : main [lit "-V"; lit "--version"; lit "stop_task"; lit "--all"] = OVersion /\ main [lit "-V"; lit "stop_task"; lit "--al=x"] = OExit.
Proof. split; vm_compute; reflexivity. Qed.
