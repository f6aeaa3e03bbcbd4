(** C73: get_tasks shows the running tasks. *)
From Verif Require Import PyBase PyStr MTasks MGetTasks STasks LTasks TTasks.
Open Scope list_scope.
Open Scope Z_scope.

(** [p] was started by "... start_task toks" with the options [o], in the documented
    spellings (see C47) *)
Definition started_with (p : proc) (o : sopts) : Prop :=
  exists pre toks, p_cmd p = pre ++ toks /\ parse_args toks = Some o /\
    (forall t, In t pre -> ~ In t flags) /\ (forall t, In t toks -> In t flags \/ classify t = AArg).
Definition shows (p : proc) (o : sopts) (e : tentry) : Prop :=
  e = TEntry (so_name o) (p_pid p) (so_code o) (so_out o) (so_env o) (so_debug o) (p_cmd p).

Lemma print_ok l : (forall p, In p l -> exists o, started_with p o) -> forall shown,
  exists es, print_tasks l shown = (Ok tt, shown ++ es) /\ Forall2 (fun p e => forall o, started_with p o -> shows p o e) l es.
Proof.
  induction l as [|p l IH]; intros H shown; [exists []; rewrite app_nil_r; split; [reflexivity|constructor]|].
  destruct (H p (or_introl eq_refl)) as (o & pre & toks & Ec & Ep & H1 & H2). cbn [print_tasks].
  assert (I := C47_info_partial pre toks o Ep H1 H2). rewrite <- Ec in I. rewrite I. cbn [ti_name ti_code ti_out ti_env ti_debug].
  destruct (IH (fun q Hq => H q (or_intror Hq)) (shown ++ [TEntry (so_name o) (p_pid p) (so_code o) (so_out o) (so_env o) (so_debug o) (p_cmd p)])) as (es & E & F).
  rewrite E, <- app_assoc. eexists. split; [reflexivity|]. constructor; [|exact F].
  intros o' (pre' & toks' & Ec' & Ep' & H1' & H2'). assert (I' := C47_info_partial pre' toks' o' Ep' H1' H2'). rewrite <- Ec', I in I'.
  unfold shows. injection I' as -> -> -> -> ->. reflexivity.
Qed.

(** Proved if every process can be inspected and each active one is a task started with the
    documented spellings: all of them are shown, in the order of the process table, each
    with what it was started with. *)
Theorem C73_shown_partial :
  forall table, (forall p, In p table -> p_denied p = false) -> (forall p, active_in table p -> exists o, started_with p o) ->
    exists f es, (forall p, In p (filter f table) <-> active_in table p) /\
      Forall2 (fun p e => forall o, started_with p o -> shows p o e) (filter f table) es /\
      get_tasks table = (Ok tt, Some (match es with [] => LNoTasks | _ => LBlocks es end)).
Proof.
  intros table Hd Hs. destruct (get_active_spec table Hd) as (l & El & Hl & f & ->). unfold get_tasks. rewrite El.
  destruct (print_ok (filter f table)) with (shown := @nil tentry) as (es & E & F); [intros p Hp; apply Hs, Hl, Hp|].
  exists f, es. split; [exact Hl|]. split; [exact F|]. cbn [app] in E.
  inversion F as [Ex Ey|p e l1 l2 F1 F2 Ex Ey]; [reflexivity|]. rewrite Ex, E. subst es. reflexivity.
Qed.
Print Assumptions C73_shown_partial.
(** Nothing else is ever shown: each block is about an active process, with its own command line. *)
Theorem C73_only_active :
  forall table r l e, (forall p, In p table -> p_denied p = false) -> get_tasks table = (r, Some (LBlocks l)) -> In e l ->
    exists p, active_in table p /\ te_pid e = p_pid p /\ te_cmd e = p_cmd p /\ named (te_name e) (p_cmd p).
Proof.
  intros table r l e Hd E He. destruct (get_active_spec table Hd) as (act & El & Hl & _). unfold get_tasks in E. rewrite El in E.
  assert (P : forall a shown r l, print_tasks a shown = (r, l) -> In e l -> In e shown \/ exists p, In p a /\ te_pid e = p_pid p /\ te_cmd e = p_cmd p /\ named (te_name e) (p_cmd p)).
  { clear. induction a as [|p a IH]; intros shown r l E He; cbn [print_tasks] in E; [injection E as _ <-; auto|].
    destruct (parse_task_info (p_cmd p)) as [i|x] eqn:Ei; [|injection E as _ <-; auto].
    destruct (ti_name i) as [n|] eqn:En; [|injection E as _ <-; auto]. destruct (ti_code i) as [c|]; [|injection E as _ <-; auto].
    destruct (IH _ _ _ E He) as [H|(q & Hq & H)]; [|right; exists q; split; [right|]; assumption].
    apply in_app_iff in H. destruct H as [H|[<-|[]]]; [auto|]. right. exists p. cbn. split; [auto|]. split; [reflexivity|]. split; [reflexivity|]. exists i. auto. }
  destruct act as [|p act]; [discriminate E|]. destruct (print_tasks (p :: act) []) as [r' l'] eqn:Ep. injection E as -> ->.
  destruct (P _ _ _ _ Ep He) as [[]|(q & Hq & H)]. exists q. split; [apply Hl, Hq|exact H].
Qed.
Print Assumptions C73_only_active.
(** False: one task started with --name=... ends the command; the tasks after it are not shown. *)
Theorem C73_spelling_refuted :
  forall pid ppid (v c : str) table, (forall r, c <> DASH :: r) ->
    let odd := Proc pid ppid [lit "python"; lit "-m"; lit "jqtrade"; lit "start_task"; lit "--name=" ++ v; lit "-c"; c] false true (Some v) in
    forall act, get_active table = Ok (odd :: act) -> get_tasks table = (Err KeyError, Some (LBlocks [])).
Proof.
  intros pid ppid v c table Hc odd act E. unfold get_tasks. rewrite E. cbn [print_tasks].
  destruct (C47_equals_refuted v c Hc) as (_ & i & Ei & En). assert (X : parse_task_info (p_cmd odd) = Ok i) by exact Ei. rewrite X, En. reflexivity.
Qed.
Print Assumptions C73_spelling_refuted.
(** False: so does any other process that mentions the two words (an editor); and a running
    task that has started another one is not shown. *)
Theorem C73_bystander_refuted :
  let editor := Proc 20 1 [lit "vim"; lit "/repo/jqtrade/start_task.md"] false false None in
  get_tasks [editor; task 10 1 (lit "a")] = (Err KeyError, Some (LBlocks [])).
Proof. vm_compute. reflexivity. Qed.
Print Assumptions C73_bystander_refuted.
Theorem C73_parent_refuted :
  let t := Proc 10 1 (start_cmd (lit "a")) false true (Some (lit "a")) in
  let u := Proc 11 10 (start_cmd (lit "b")) false true (Some (lit "b")) in
  exists e, get_tasks [t; u] = (Ok tt, Some (LBlocks [e])) /\ te_pid e = 11.
Proof. eexists. split; [vm_compute; reflexivity|reflexivity]. Qed.
Print Assumptions C73_parent_refuted.
Example C73_demo :
  let t1 := Proc 10 1 [lit "python"; lit "-m"; lit "jqtrade"; lit "start_task"; lit "-n"; lit "a"; lit "--code"; lit "s.py"; lit "--debug"] false true (Some (lit "a")) in
  let sh := Proc 1 0 [lit "init"] false false None in
  get_tasks [sh; t1] = (Ok tt, Some (LBlocks [TEntry (lit "a") 10 (lit "s.py") None None true (p_cmd t1)])) /\
  started_with t1 (SOpts (lit "a") (lit "s.py") None None None true) /\
  get_tasks [sh] = (Ok tt, Some LNoTasks) /\
  get_active [Proc 7 1 [lit "python"; lit "-m"; lit "jqtrade"; lit "start_task"; lit "--name=x"; lit "-c"; lit "s.py"] false true (Some (lit "x"))]
  = Ok [Proc 7 1 [lit "python"; lit "-m"; lit "jqtrade"; lit "start_task"; lit "--name=" ++ lit "x"; lit "-c"; lit "s.py"] false true (Some (lit "x"))].
Proof.
  split; [vm_compute; reflexivity|]. split; [|split; vm_compute; reflexivity].
  exists [lit "python"; lit "-m"; lit "jqtrade"; lit "start_task"], [lit "-n"; lit "a"; lit "--code"; lit "s.py"; lit "--debug"].
  split; [reflexivity|]. split; [vm_compute; reflexivity|]. split.
  - intros t Ht F. cbn [In] in Ht. repeat (destruct Ht as [<-|Ht]; [vm_compute in F; repeat (destruct F as [F|F]; [discriminate F|]); exact F|]). exact Ht.
  - intros t Ht. cbn [In] in Ht. repeat (destruct Ht as [<-|Ht]; [vm_compute; auto 12|]). contradiction.
Qed.
