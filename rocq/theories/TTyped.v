(** C140: a task on the command line, from its start to its end.

    On a machine where every task was started with the documented words and no task is the
    parent of another: the command that was typed starts the file that was typed; while the
    task lives get_tasks shows it, once, with what was typed; no second task of its name
    starts, and tasks of other names are not held up by it; and stop_task with its name
    signals it, and only tasks of that name. *)
From Verif Require Import PyBase PyStr LStr MUtils MLog MTasks MGetTasks STasks LTasks TTasks MStart SStart LStart TStart TGetTasks TOnly PyArgs MMain SMain LMain TMain SUtils  STyped.
Open Scope list_scope.
Open Scope Z_scope.

Lemma word_typed items : Forall word items -> start_typed items.
Proof.
  intro H. unfold start_typed. eapply Forall_impl; [|exact H]. intros [[k v] toks] W. inversion W as [k0 w v0 Hk Hw Hv E1|E1]; subst.
  - split; [intros ->; discriminate Hk|]. split; [rewrite Hk; discriminate|]. apply sp_separate with (s := w); [exact Hw|left; reflexivity|].
    destruct v0 as [|c v0]; [left; reflexivity|]. right. right. left. exists c, v0. split; [reflexivity|]. intros ->. exact (Hv _ eq_refl).
  - split; [discriminate|]. split; [reflexivity|]. apply sp_flag with (s := lit "--debug"); [left; reflexivity|left; reflexivity].
Qed.
Lemma word_tokens items : Forall word items -> forall t, In t (tokens items) -> In t flags \/ classify t = AArg.
Proof.
  intros H t Ht. unfold tokens in Ht. apply in_flat_map in Ht as ([[k v] toks] & Hi & Ht). cbn [snd] in Ht.
  pose proof (proj1 (Forall_forall _ _) H _ Hi) as W. inversion W as [k0 w v0 Hk Hw Hv E1|E1]; subst.
  - destruct Ht as [<-|[<-|[]]]; [left|right].
    + destruct k; try discriminate Hk; cbn in Hw; repeat (destruct Hw as [<-|Hw]; [vm_compute; tauto|]); destruct Hw.
    + destruct v0 as [|c v0]; [reflexivity|]. unfold classify. destruct (N.eqb_spec c DASH) as [->|]; [exfalso; exact (Hv _ eq_refl)|reflexivity].
  - destruct Ht as [<-|[]]. left. vm_compute. tauto.
Qed.

(** ** starting *)
Theorem C140_started :
  forall items, spelled items -> exists o, main (lit "start_task" :: tokens items) = ORun (CStart o) /\ as_typed items o.
Proof. intros items (W & Gn & Gc). destruct (C106_start items (word_typed _ W) Gn Gc) as (o & E & A). exists o. split; [exact E|exact A]. Qed.
Print Assumptions C140_started.

Lemma spelled_parse items : spelled items -> exists o, parse_args (tokens items) = Some o /\ as_typed items o.
Proof.
  intro S. destruct (C140_started items S) as (o & E & A). exists o. split; [|exact A].
  change (main (lit "start_task" :: tokens items)) with (match option_map CStart (parse_start (tokens items)) with Some c => ORun c | None => OExit end) in E.
  rewrite C106_same in E. destruct (parse_args (tokens items)) as [o'|]; [|discriminate E]. cbn in E. congruence.
Qed.
Lemma launched_started items cmd : spelled items -> launched items cmd ->
  exists o, (forall p, p_cmd p = cmd -> started_with p o) /\ as_typed items o /\
    parse_task_info cmd = Ok (TInfo (so_debug o) (so_env o) (so_out o) (Some (so_code o)) (Some (so_name o))).
Proof.
  intros S (pre & Hp & _ & ->). destruct (spelled_parse items S) as (o & E & A). exists o.
  assert (Q : forall t, In t (pre ++ [lit "start_task"]) -> ~ In t flags).
  { intros t Ht. apply in_app_iff in Ht as [Ht|[<-|[]]]; [apply Hp, Ht|vm_compute; intuition discriminate]. }
  split; [|split; [exact A|]].
  - intros p Ep. exists (pre ++ [lit "start_task"]), (tokens items). rewrite <- app_assoc. split; [exact Ep|]. split; [exact E|]. split; [exact Q|]. apply word_tokens, S.
  - change (lit "start_task" :: tokens items) with ([lit "start_task"] ++ tokens items). rewrite app_assoc. apply C47_info_partial; [exact E|exact Q|apply word_tokens, S].
Qed.
Lemma join_has c w l : In w l -> exists a b, join_with c l = a ++ w ++ b.
Proof.
  induction l as [|x [|y l] IH]; intros H; [destruct H| |].
  - destruct H as [<-|[]]. exists [], []. cbn [join_with app]. rewrite app_nil_r. reflexivity.
  - change (join_with c (x :: y :: l)) with (x ++ c :: join_with c (y :: l)). destruct H as [<-|H]; [exists [], (c :: join_with c (y :: l)); reflexivity|].
    destruct (IH H) as (a & b & ->). exists (x ++ c :: a), b. rewrite <- app_assoc. reflexivity.
Qed.
Lemma launched_speaks items cmd : launched items cmd -> speaks cmd.
Proof.
  intros (pre & _ & (x & y & J) & ->). destruct (join_has 32%N (x ++ lit "jqtrade" ++ y) (pre ++ lit "start_task" :: tokens items)) as (a & b & E1); [apply in_or_app; left; exact J|].
  destruct (join_has 32%N (lit "start_task") (pre ++ lit "start_task" :: tokens items)) as (c & d & E2); [apply in_or_app; right; left; reflexivity|].
  exists (a ++ x), (y ++ b), c, d. split; [|exact E2]. rewrite E1, <- !app_assoc. reflexivity.
Qed.
Lemma tidy_active table p items : tidy table -> In p (seen table) -> launched items (p_cmd p) -> active_in (seen table) p.
Proof.
  intros (_ & _ & T) Hp L. split; [exact Hp|]. pose proof (launched_speaks _ _ L) as Sp. split; [exact Sp|].
  intros (q & Hq & Sq & E). exact (proj2 (T p Hp Sp) q Hq Sq E).
Qed.
Lemma named_typed n p items : spelled items -> launched items (p_cmd p) -> (named n (p_cmd p) <-> asked OName items (Some n)).
Proof.
  intros S L. destruct (launched_started items _ S L) as (o & _ & A & E). unfold named. split.
  - intros (i & Ei & En). rewrite E in Ei. injection Ei as <-. injection En as <-. apply A.
  - intro B. eexists. split; [exact E|]. exact (asked_fun _ _ _ _ (proj1 A) B).
Qed.

(** ** listing *)
Theorem C140_shown :
  forall table, tidy table -> exists l es,
    get_tasks table = (Ok tt, Some (match es with [] => LNoTasks | _ => LBlocks es end)) /\
    Forall2 (fun p e => te_pid e = p_pid p /\ te_cmd e = p_cmd p /\ forall items, spelled items -> launched items (p_cmd p) -> says items e) l es /\
    NoDup (map te_pid es) /\
    forall p, In p l <-> In p (seen table) /\ exists items, spelled items /\ launched items (p_cmd p).
Proof.
  intros table T. destruct T as (R & ND & T). destruct (proj2 C114_unreadable table R) as [-> _].
  assert (Hd : forall p, In p (seen table) -> p_denied p = false) by (intros p Hp; apply filter_In in Hp; apply negb_true_iff; tauto).
  destruct (C73_shown_partial (seen table) Hd) as (f & es & Hf & F & E).
  { intros p (Hp & Sp & _). destruct (proj1 (T p Hp Sp)) as (items & S & L). destruct (launched_started items _ S L) as (o & Q & _). exists o. apply Q. reflexivity. }
  exists (filter f (seen table)), es. split; [exact E|].
  assert (F' : Forall2 (fun p e => te_pid e = p_pid p /\ te_cmd e = p_cmd p /\ forall items, spelled items -> launched items (p_cmd p) -> says items e) (filter f (seen table)) es).
  { assert (G : forall p, In p (filter f (seen table)) -> exists items, spelled items /\ launched items (p_cmd p)).
    { intros p Hp. apply Hf in Hp as (Hp & Sp & _). exact (proj1 (T p Hp Sp)). }
    clear E Hf. induction F as [|p e l es H F IH]; [constructor|]. constructor; [|apply IH; intros q Hq; apply G; right; exact Hq]. clear IH.
    destruct (G p (or_introl eq_refl)) as (it & S & L). destruct (launched_started it _ S L) as (o & Q & _). pose proof (H o (Q p eq_refl)) as Ee. unfold shows in Ee.
    split; [rewrite Ee; reflexivity|]. split; [rewrite Ee; reflexivity|]. intros items S' L'. destruct (launched_started items _ S' L') as (o' & Q' & A & _).
    pose proof (H o' (Q' p eq_refl)) as ->. unfold says. cbn [te_name te_code te_out te_env te_debug]. unfold as_typed in A. tauto. }
  split; [exact F'|]. split.
  - assert (M : map te_pid es = map p_pid (filter f (seen table))).
    { clear - F'. induction F' as [|p e l es (H & _) F IH]; [reflexivity|]. cbn [map]. rewrite H, IH. reflexivity. }
    rewrite M. clear - ND. unfold seen. induction table as [|p l IH]; [constructor|]. cbn [map] in ND. apply NoDup_cons_iff in ND as [N1 N2].
    cbn [filter]. destruct (negb (p_denied p)); [|apply IH, N2]. cbn [filter]. destruct (f p); [|apply IH, N2]. cbn [map]. constructor; [|apply IH, N2].
    intro X. apply N1. apply in_map_iff in X as (q & Eq & X). apply filter_In in X as [X _]. apply filter_In in X as [X _]. apply in_map_iff. exists q. auto.
  - intro p. rewrite Hf. split.
    + intros (Hp & Sp & _). split; [exact Hp|exact (proj1 (T p Hp Sp))].
    + intros (Hp & items & S & L). apply (tidy_active table p items); [split; [exact R|split; [exact ND|exact T]]|exact Hp|exact L].
Qed.
Print Assumptions C140_shown.

(** ** stopping *)
Theorem C140_stopped :
  forall table n items, tidy table -> stop_typed items -> asked KName items (Some n) -> n <> [] -> ~ given KPid items -> ~ given KAll items ->
    exists o, main (lit "stop_task" :: tokens items) = ORun (CStop o) /\ fst (stop_task o table) = Ok tt /\ NoDup (sent_signals o table) /\
      forall pid sg, In (pid, sg) (sent_signals o table) <->
        (sg = SIGKILL <-> given KForce items) /\ exists p, In p (seen table) /\ task_named n p /\ p_pid p = pid.
Proof.
  intros table n items T TY A Nn Np Na. destruct (proj2 C114_unreadable table (proj1 T)) as [_ EQ].
  assert (Hd : forall p, In p (seen table) -> p_denied p = false) by (intros p Hp; apply filter_In in Hp; apply negb_true_iff; tauto).
  assert (ND : NoDup (map p_pid (seen table))).
  { destruct T as (_ & ND & _). clear - ND. unfold seen. induction table as [|p l IH]; [constructor|]. cbn [map] in ND. apply NoDup_cons_iff in ND as [N1 N2].
    cbn [filter]. destruct (negb (p_denied p)); [|apply IH, N2]. cbn [map]. constructor; [|apply IH, N2].
    intro X. apply N1. apply in_map_iff in X as (q & Eq & X). apply filter_In in X as [X _]. apply in_map_iff. exists q. auto. }
  assert (NM : forall p, active_in (seen table) p -> exists m, named m (p_cmd p)).
  { intros p (Hp & Sp & _). destruct (proj1 (proj2 (proj2 T) p Hp Sp)) as (it & S & L). destruct (launched_started it _ S L) as (o & _ & _ & E). exists (so_name o). eexists. split; [exact E|reflexivity]. }
  destruct (C92_named_partial items n (seen table) TY A Nn Np Na ND Hd NM) as (o & E & D & H). exists o. split; [exact E|].
  unfold sent_signals in *. rewrite EQ. split; [|split; [exact D|]].
  - destruct (C106_stop items TY) as (o' & E' & A1 & _).
    { intros v toks I. exfalso. apply Np. exists (Some v), toks. exact I. }
    assert (o' = o) as -> by congruence. assert (En : st_name o = Some n) by (eapply asked_fun; [exact A1|exact A]).
    apply (C49_stop_partial o (seen table) ND Hd); [right; right; exists n; auto|auto].
  - intros pid sg. rewrite H. clear H.
    assert (Q : forall p, active_in (seen table) p /\ named n (p_cmd p) <-> In p (seen table) /\ task_named n p).
    { intro p. split.
      - intros ((Hp & Sp & _) & N). split; [exact Hp|]. destruct (proj1 (proj2 (proj2 T) p Hp Sp)) as (it & S & L). exists it. split; [exact S|]. split; [exact L|]. apply (named_typed n p it S L), N.
      - intros (Hp & it & S & L & B). split; [exact (tidy_active table p it T Hp L)|]. apply (named_typed n p it S L), B. }
    split; intros (H & p & H1 & H2 & H3); (split; [exact H|]); exists p; specialize (Q p); tauto.
Qed.
Print Assumptions C140_stopped.

(** ** starting again *)
(** the name is free exactly if no other process runs a task of that name *)
Theorem C140_free :
  forall table pid ppid n, tidy table ->
    (exist_repeated pid ppid n table = Ok false <-> forall p, In p (seen table) -> task_named n p -> p_pid p = pid \/ p_pid p = ppid).
Proof.
  intros table pid ppid n T. rewrite repeated_iff. split.
  - intros (_ & F) p Hp (it & S & L & B). destruct (Z.eq_dec (p_pid p) pid) as [|N1]; [auto|]. destruct (Z.eq_dec (p_pid p) ppid) as [|N2]; [auto|]. exfalso.
    destruct (F p (tidy_active table p it T Hp L) N1 N2) as (m & Nm & Hm). apply (named_typed m p it S L) in Nm. apply Hm.
    pose proof (asked_fun _ _ _ _ Nm B) as X. injection X as ->. reflexivity.
  - intro F. split; [exact (proj1 T)|]. intros p (Hp & Sp & _) N1 N2. destruct (proj1 (proj2 (proj2 T) p Hp Sp)) as (it & S & L).
    destruct (launched_started it _ S L) as (o & _ & A & _). exists (so_name o). split; [apply (named_typed _ p it S L), A|]. intros E.
    destruct (F p Hp) as [X|X]; [exists it; split; [exact S|split; [exact L|rewrite <- E; apply A]]|contradiction|contradiction].
Qed.
Print Assumptions C140_free.
(** a second task of the name of a running one does not start, and nothing is touched *)
Theorem C140_second :
  forall V (m : machine V) mods builtin ext b p n items o, tidy (ma_procs m) -> In p (seen (ma_procs m)) -> task_named n p ->
    p_pid p <> ma_pid m -> p_pid p <> ma_ppid m -> spelled items -> asked OName items (Some n) ->
    main (lit "start_task" :: tokens items) = ORun (CStart o) -> exists x, start_task m mods builtin ext o b = (Err x, b).
Proof.
  intros V m mods builtin ext b p n items o T Hp N N1 N2 S B E. destruct (C140_started items S) as (o' & E' & A). assert (o' = o) as -> by congruence.
  assert (n = so_name o) as -> by (pose proof (asked_fun _ _ _ _ B (proj1 A)) as X; congruence).
  destruct (C91_clean_partial V m o b) as (x & Ex).
  { right. right. left. intro F. assert (R : exist_repeated (ma_pid m) (ma_ppid m) (so_name o) (ma_procs m) = Ok false) by (apply repeated_iff; split; [exact (proj1 T)|exact F]).
    destruct (proj1 (C140_free _ _ _ _ T) R p Hp N); contradiction. }
  exists x. unfold start_task. rewrite Ex. reflexivity.
Qed.
Print Assumptions C140_second.
(** and one whose name is free does, if its files and variables allow it, with the file that
    was typed *)
Theorem C140_loads :
  forall V (m : machine V) mods builtin ext b items d x c n,
    tidy (ma_procs m) -> spelled items -> asked OName items (Some n) -> asked OCode items (Some c) ->
    (forall p, In p (seen (ma_procs m)) -> task_named n p -> p_pid p = ma_pid m \/ p_pid p = ma_ppid m) ->
    (forall f, asked OOut items (Some f) -> f <> [] -> ma_append m f = true) ->
    (exists env kvs, asked OEnv items env /\ wrote env kvs /\
       forall g, asked OConfig items (Some g) -> g <> [] ->
         exists y, names (match var_after kvs (pe_vars (bt_env b)) (lit "HOME") with Some h => h | None => ma_home m end) g y /\ ma_exists m y = true) ->
    (forall y, exists ns, ma_config m y = Ok ns) ->
    code_path d x c -> ~ In x mods -> ~ In x builtin -> ma_exists m c = true -> ma_exists m (path_join d x ++ lit ".py") = true ->
    (forall s, ma_exists m (path_join d x ++ lit "/__init__" ++ s) = false) -> (forall s, In s ext -> ma_exists m (path_join d x ++ s) = false) ->
    exists o f b', main (lit "start_task" :: tokens items) = ORun (CStart o) /\ start_task m mods builtin ext o b = (Ok (Some (OFile f)), b') /\
      (f = c \/ f = lit "./" ++ c).
Proof.
  intros V m mods builtin ext b items d x c n T S Bn Bc Fr Fo (env & kvs & Be & Hw & Hg) Hcfg Hp H1 H2 H0 H3 H4 H5.
  destruct (C140_started items S) as (o & E & (An & Ac & Ao & Ae & Ag & Ad)).
  assert (En : so_name o = n) by (pose proof (asked_fun _ _ _ _ An Bn); congruence). assert (Ec : so_code o = c) by (pose proof (asked_fun _ _ _ _ Ac Bc); congruence).
  assert (Ee : so_env o = env) by exact (asked_fun _ _ _ _ Ae Be).
  assert (M : may_start m o (pe_vars (bt_env b))).
  { split; [rewrite Ec; exact H0|]. split; [exact (proj1 T)|]. split; [rewrite En; apply repeated_iff, (C140_free _ _ _ _ T), Fr|]. split.
    - intros f Ef Nf. apply Fo; [rewrite <- Ef; exact Ao|exact Nf].
    - exists kvs. split; [rewrite Ee; exact Hw|]. intros g Eg Ng. destruct (Hg g) as (y & Y); [rewrite <- Eg; exact Ag|exact Ng|]. eexists. exists y. split; [reflexivity|exact Y]. }
  destruct (C91_loads_partial V m mods builtin ext o b d x M) as (kvs' & f & b' & _ & L & Hf & _); try assumption; [intros g _ y; apply Hcfg|rewrite Ec; exact Hp|].
  exists o, f, b'. split; [exact E|]. split; [exact L|]. rewrite <- Ec. exact Hf.
Qed.
Print Assumptions C140_loads.

(** Two tasks, one of them with its name typed twice, a shell and a process of another user
    that cannot be read: both are listed, the first is stopped by name, its name is taken and
    a third one is free. *)
Definition ty_a : list (aopt * option str * list str) :=
  [(OName, Some (lit "x"), [lit "--name"; lit "x"]); (ODebug, None, [lit "--debug"]); (OName, Some (lit "a"), [lit "-n"; lit "a"]); (OCode, Some (lit "s.py"), [lit "-c"; lit "s.py"])].
Definition ty_b : list (aopt * option str * list str) :=
  [(OCode, Some (lit "t.py"), [lit "--code"; lit "t.py"]); (OOut, Some (lit "/log"), [lit "-o"; lit "/log"]); (OName, Some (lit "b"), [lit "-n"; lit "b"])].
Definition ty_cmd (items : list (aopt * option str * list str)) : list str := [lit "python"; lit "-m"; lit "jqtrade"; lit "start_task"] ++ tokens items.
Definition ty_table : list proc :=
  [Proc 1 0 [] true false None; Proc 5 1 [lit "bash"] false false None; Proc 6 5 (ty_cmd ty_a) false true (Some (lit "a")); Proc 7 5 (ty_cmd ty_b) false true (Some (lit "b"))].
Lemma ty_spelled : spelled ty_a /\ spelled ty_b.
Proof.
  assert (D : forall k w c v, start_valued k = true -> In w (start_names k) -> c <> 45%N -> word (k, Some (c :: v), [w; c :: v])) by (intros k w c v H1 H2 H3; apply w_value; [exact H1|exact H2|intros r E; congruence]).
  split; (split; [|split]).
  - repeat (apply Forall_cons; [first [apply w_debug|apply D; [reflexivity|vm_compute; tauto|discriminate]]|]). constructor.
  - eexists _, _. left. reflexivity.
  - eexists _, _. do 3 right. left. reflexivity.
  - repeat (apply Forall_cons; [first [apply w_debug|apply D; [reflexivity|vm_compute; tauto|discriminate]]|]). constructor.
  - eexists _, _. do 2 right. left. reflexivity.
  - eexists _, _. left. reflexivity.
Qed.
Lemma ty_launched items : launched items (ty_cmd items).
Proof.
  exists [lit "python"; lit "-m"; lit "jqtrade"]. split; [intros w [<-|[<-|[<-|[]]]]; vm_compute; intuition discriminate|]. split; [exists [], []; right; right; left; reflexivity|reflexivity].
Qed.
Lemma ty_tidy : tidy ty_table.
Proof.
  split; [intros p [<-|[<-|[<-|[<-|[]]]]] H; [reflexivity|discriminate H..]|]. split; [cbn; repeat constructor; cbn; intuition discriminate|].
  assert (NB : ~ speaks [lit "bash"]) by (rewrite <- mentions_iff; discriminate).
  intros p [<-|[<-|[<-|[]]]] Sp; [contradiction| |]; (split; [|intros q [<-|[<-|[<-|[]]]] _; cbn; discriminate]).
  - exists ty_a. split; [apply ty_spelled|apply ty_launched].
  - exists ty_b. split; [apply ty_spelled|apply ty_launched].
Qed.
Example C140_demo :
  tidy ty_table /\ task_named (lit "a") (Proc 6 5 (ty_cmd ty_a) false true (Some (lit "a"))) /\
  get_tasks ty_table = (Ok tt, Some (LBlocks [TEntry (lit "a") 6 (lit "s.py") None None true (ty_cmd ty_a); TEntry (lit "b") 7 (lit "t.py") (Some (lit "/log")) None false (ty_cmd ty_b)])) /\
  sent_signals (StOpts (Some (lit "a")) None false false) ty_table = [(6, SIGTERM)] /\
  exist_repeated 9 8 (lit "a") ty_table = Ok true /\ exist_repeated 9 8 (lit "c") ty_table = Ok false.
Proof.
  split; [exact ty_tidy|]. split.
  - exists ty_a. split; [apply ty_spelled|]. split; [apply ty_launched|].
    apply (ak_last OName [(OName, Some (lit "x"), [lit "--name"; lit "x"]); (ODebug, None, [lit "--debug"])] (lit "a") [lit "-n"; lit "a"] [(OCode, Some (lit "s.py"), [lit "-c"; lit "s.py"])]).
    intros v t [E|[]]. discriminate E.
  - vm_compute. auto 10.
Qed.
(** a machine with these tasks, and a third one that is typed now *)
Definition ty_c : list (aopt * option str * list str) :=
  [(OName, Some (lit "c"), [lit "-n"; lit "c"]); (OEnv, Some (lit "HOME=/x"), [lit "-e"; lit "HOME=/x"]); (OCode, Some (lit "/s/u.py"), [lit "-c"; lit "/s/u.py"])].
Definition ty_machine : machine Z :=
  Machine (fun f => eqb f (lit "/s/u.py")) (fun _ => false) (ty_table ++ [Proc 9 5 (ty_cmd ty_c) false true (Some (lit "c"))]) 9 5 (lit "/home/a") (fun _ => Ok []).
Lemma ty_c_spelled : spelled ty_c.
Proof.
  assert (D : forall k w c v, start_valued k = true -> In w (start_names k) -> c <> 45%N -> word (k, Some (c :: v), [w; c :: v])) by (intros k w c v H1 H2 H3; apply w_value; [exact H1|exact H2|intros r E; congruence]).
  split; [|split].
  - repeat (apply Forall_cons; [apply D; [reflexivity|vm_compute; tauto|discriminate]|]). constructor.
  - eexists _, _. left. reflexivity.
  - eexists _, _. do 2 right. left. reflexivity.
Qed.
Example C140_loads_demo :
  tidy (ma_procs ty_machine) /\
  (exists o f b', main (lit "start_task" :: tokens ty_c) = ORun (CStart o) /\ start_task ty_machine [] [] [] o (Boot (PEnv [] []) log_init [] []) = (Ok (Some (OFile f)), b') /\ (f = lit "/s/u.py" \/ f = lit "./" ++ lit "/s/u.py")) /\
  exists x, start_task ty_machine [] [] [] (SOpts (lit "a") (lit "/s/u.py") None None None false) (Boot (PEnv [] []) log_init [] []) = (Err x, Boot (PEnv [] []) log_init [] []).
Proof.
  assert (T : tidy (ma_procs ty_machine)).
  { destruct ty_tidy as (R & _ & _). split; [intros p Hp; cbn in Hp; destruct Hp as [<-|[<-|[<-|[<-|[<-|[]]]]]]; intro X; [reflexivity|discriminate X..]|].
    split; [cbn; repeat constructor; cbn; intuition discriminate|].
    assert (NB : ~ speaks [lit "bash"]) by (rewrite <- mentions_iff; discriminate).
    intros p [<-|[<-|[<-|[<-|[]]]]] Sp; [contradiction| | |]; (split; [|intros q [<-|[<-|[<-|[<-|[]]]]] _; cbn; discriminate]).
    - exists ty_a. split; [apply ty_spelled|apply ty_launched].
    - exists ty_b. split; [apply ty_spelled|apply ty_launched].
    - exists ty_c. split; [apply ty_c_spelled|apply ty_launched]. }
  split; [exact T|]. split.
  - assert (Bn : asked OName ty_c (Some (lit "c"))).
    { apply (ak_last OName [] (lit "c") [lit "-n"; lit "c"] (tl ty_c)). intros v t [X|[X|[]]]; discriminate X. }
    assert (Bc : asked OCode ty_c (Some (lit "/s/u.py"))) by (apply (ak_last OCode (firstn 2 ty_c) (lit "/s/u.py") [lit "-c"; lit "/s/u.py"] []); intros v t []).
    assert (Be : asked OEnv ty_c (Some (lit "HOME=/x"))).
    { apply (ak_last OEnv (firstn 1 ty_c) (lit "HOME=/x") [lit "-e"; lit "HOME=/x"] (skipn 2 ty_c)). intros v t [X|[]]; discriminate X. }
    assert (No : forall k f, k = OOut \/ k = OConfig -> ~ asked k ty_c (Some f)).
    { intros k f Hk X. apply asked_given in X as (v & t & [X|[X|[X|[]]]]); injection X as <- _ _; destruct Hk; discriminate. }
    apply (C140_loads Z ty_machine [] [] [] _ ty_c (lit "/s") (lit "u") (lit "/s/u.py") (lit "c") T ty_c_spelled Bn Bc).
    + intros p Hp N. assert (F : exist_repeated 9 5 (lit "c") (ma_procs ty_machine) = Ok false) by (vm_compute; reflexivity). exact (proj1 (C140_free _ _ _ _ T) F p Hp N).
    + intros f X. exfalso. exact (No OOut f (or_introl eq_refl) X).
    + exists (Some (lit "HOME=/x")), [(lit "HOME", lit "/x")]. split; [exact Be|]. split.
      * right. split; [discriminate|split; [reflexivity|split; [repeat constructor; vm_compute; intuition discriminate|intros kv [<-|[]]; vm_compute; discriminate]]].
      * intros g X. exfalso. exact (No OConfig g (or_intror eq_refl) X).
    + intro y. exists []. reflexivity.
    + split; [discriminate|]. split; [vm_compute; intuition discriminate|]. split; [vm_compute; intuition discriminate|]. right. right.
      exists (lit "/"), 115%N. split; [reflexivity|]. split; [discriminate|reflexivity].
    + intros [].
    + intros [].
    + reflexivity.
    + reflexivity.
    + intro s. apply eqb_false. intro X. cbn in X. discriminate X.
    + intros s [].
  - eexists. vm_compute. reflexivity.
Qed.
