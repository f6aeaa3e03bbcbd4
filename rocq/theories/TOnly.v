(** C114: stop_task and get_tasks, on any process table. *)
From Coq Require Import Sorted.
From Verif Require Import PyBase PyStr LStr MTasks MGetTasks STasks LTasks TTasks MStart SStart LStart TGetTasks.
Open Scope list_scope.
Open Scope Z_scope.

Lemma active_any table : 
  (readable table /\ exists l f, get_active table = Ok l /\ l = filter f table /\ forall p, In p l <-> active_in (seen table) p) \/
  ((exists p, In p table /\ p_denied p = true /\ p_python p = true) /\ get_active table = Err AccessDenied).
Proof.
  assert (S : forall p, In p (seen table) -> p_denied p = false).
  { intros p Hp. apply filter_In in Hp. apply negb_true_iff. tauto. }
  assert (D : readable table \/ exists p, In p table /\ p_denied p = true /\ p_python p = true).
  { clear S. induction table as [|p l [IH|(q & Hq & H)]]; [left; intros ? []| |right; exists q; split; [right|]; assumption].
    destruct (p_denied p && p_python p) eqn:E.
    - apply andb_true_iff in E as [E1 E2]. right. exists p. split; [left; reflexivity|]. auto.
    - left. intros q [<-|Hq] Hd; [|apply IH; assumption]. rewrite Hd in E. exact E. }
  destruct D as [R|Hp]; [left|right]; (split; [assumption|]).
  - destruct (get_active_spec (seen table) S) as (act & E & Ha & (f & Ef)). unfold get_active in *. rewrite scan_seen by exact R.
    exists act, (fun p => negb (p_denied p) && f p). split; [exact E|]. split; [|exact Ha]. subst act. unfold seen. clear.
    induction table as [|p l IH]; [reflexivity|]. cbn [filter]. destruct (p_denied p); cbn [negb andb filter]; [exact IH|]. rewrite IH. reflexivity.
  - unfold get_active. clear S. destruct Hp as (p & Hp & Hd & Hy).
    assert (G : forall t ps, scan table t ps = Err AccessDenied); [|rewrite G; reflexivity].
    induction table as [|q l IH]; [destruct Hp|]. intros t ps. cbn [scan]. destruct Hp as [->|Hp]; [rewrite Hd, Hy; reflexivity|].
    destruct (p_denied q); [destruct (p_python q); [reflexivity|]|destruct (mentions (p_cmd q))]; apply (IH Hp).
Qed.
Lemma stop_named_only n l : forall sent z, In z (snd (stop_named n l sent)) -> In z sent \/ exists p m, In p l /\ p_pid p = z /\ n = Some m /\ named m (p_cmd p).
Proof.
  induction l as [|p l IH]; intros sent z; cbn [stop_named]; [cbn; auto|]. destruct (parse_task_info (p_cmd p)) as [i|] eqn:Ei; [|cbn; auto].
  destruct (ti_name i) as [m|] eqn:Em; [|cbn; auto]. intro X. apply IH in X. destruct X as [X|(q & k & Hq & X)]; [|right; exists q, k; split; [right|]; assumption].
  destruct (eqb_spec n (Some m)) as [->|]; [|auto]. apply in_app_iff in X. destruct X as [X|[X|[]]]; [auto|]. right. exists p, m. split; [left; reflexivity|].
  split; [exact X|]. split; [reflexivity|]. exists i. auto.
Qed.

(** Only a process that can be read, whose command line mentions jqtrade and start_task, that
    is not the parent of another such process and that was selected is ever signalled. *)
Theorem C114_signalled :
  forall o table pid sg, In (pid, sg) (sent_signals o table) ->
    sg = (if st_force o then SIGKILL else SIGTERM) /\ exists p, active_in (seen table) p /\ p_pid p = pid /\ selects o p.
Proof.
  intros o table pid sg H. unfold sent_signals in H. apply in_map_iff in H as (z & E & H). injection E as -> <-. split; [reflexivity|].
  unfold stop_task in H. destruct (active_any table) as [[_ (l & f & El & _ & Hl)]|[_ El]]; rewrite El in H; [|destruct H].
  destruct (_ && _ && _); [destruct H|]. unfold selects. destruct (st_all o) eqn:Ea.
  { apply in_map_iff in H as (p & Ep & Hp). exists p. split; [apply Hl, Hp|]. auto. }
  destruct (truthy_pid (st_pid o)) eqn:Et.
  - destruct (find _ l) as [p|] eqn:F; [|destruct H]. destruct H as [<-|[]]. apply find_some in F as [Hp E]. apply eqb_true in E.
    exists p. split; [apply Hl, Hp|]. split; [reflexivity|]. right. split; [reflexivity|]. left. exists (p_pid p). split; [symmetry; exact E|]. split; [|reflexivity].
    rewrite <- E in Et. cbn in Et. apply negb_true_iff, Z.eqb_neq in Et. exact Et.
  - apply stop_named_only in H as [[]|(p & m & Hp & Ep & Em & Hn)]. exists p. split; [apply Hl, Hp|]. split; [exact Ep|]. right. split; [reflexivity|]. right. split; [|eauto].
    destruct (st_pid o) as [z|]; [|auto]. right. cbn in Et. apply negb_false_iff, Z.eqb_eq in Et. congruence.
Qed.
Print Assumptions C114_signalled.

(** No process is signalled twice. *)
Theorem C114_once :
  forall o table, NoDup (map p_pid table) -> NoDup (map fst (sent_signals o table)).
Proof.
  intros o table ND. unfold sent_signals. rewrite map_map. cbn [fst]. rewrite map_id. unfold stop_task.
  destruct (active_any table) as [[_ (l & f & El & Ef & _)]|[_ El]]; rewrite El; [|constructor].
  assert (NDl : NoDup (map p_pid l)).
  { clear - ND Ef. subst l. induction table as [|p table IH]; cbn [filter map] in *; [constructor|]. apply NoDup_cons_iff in ND as [N1 N2].
    destruct (f p); [|apply IH, N2]. cbn [map]. constructor; [|apply IH, N2]. intro H. apply N1. apply in_map_iff in H as (q & E & H).
    apply filter_In in H. apply in_map_iff. exists q. tauto. }
  destruct (_ && _ && _); [constructor|]. destruct (st_all o); [exact NDl|]. destruct (truthy_pid (st_pid o)).
  { destruct (find _ l); cbn [snd]; repeat constructor. intros []. }
  assert (G : forall l sent, NoDup (sent ++ map p_pid l) -> NoDup (snd (stop_named (st_name o) l sent))); [|apply (G l []); exact NDl].
  clear. induction l as [|p l IH]; intros sent ND; cbn [stop_named map] in *; [rewrite app_nil_r in ND; exact ND|].
  assert (N0 : NoDup sent).
  { clear - ND. induction sent as [|a l0 IH]; [constructor|]. cbn [app] in ND. apply NoDup_cons_iff in ND as [N1 N2]. constructor; [|apply IH, N2].
    intro H. apply N1, in_or_app. left. exact H. }
  destruct (parse_task_info (p_cmd p)) as [i|]; [|exact N0]. destruct (ti_name i) as [m|]; [|exact N0]. apply IH.
  destruct (eqb (st_name o) (Some m)); [rewrite <- app_assoc; exact ND|]. apply NoDup_remove_1 in ND. exact ND.
Qed.
Print Assumptions C114_once.

(** Nothing is signalled if nothing was selected. *)
Theorem C114_nothing_given :
  forall o table, ~ something_given o -> sent_signals o table = [] /\ exists x, fst (stop_task o table) = Err x.
Proof.
  intros o table Hg. assert (E : exists x, stop_task o table = (Err x, [])).
  { unfold stop_task. destruct (get_active table) as [l|x]; [|eauto]. exists ValueError.
    replace (negb (truthy_str (st_name o)) && negb (truthy_pid (st_pid o)) && negb (st_all o)) with true; [reflexivity|].
    symmetry. unfold something_given in Hg. destruct (st_all o); [tauto|]. destruct (st_pid o) as [z|].
    - cbn. destruct (Z.eqb_spec z 0) as [|Nz]; [|exfalso; apply Hg; eauto]. destruct (st_name o) as [[|c n]|]; try reflexivity. exfalso. apply Hg. right. right. exists (c :: n). split; [reflexivity|discriminate].
    - destruct (st_name o) as [[|c n]|]; try reflexivity. exfalso. apply Hg. right. right. exists (c :: n). split; [reflexivity|discriminate]. }
  destruct E as [x E]. unfold sent_signals. rewrite E. split; [reflexivity|]. exists x. reflexivity.
Qed.
Print Assumptions C114_nothing_given.

(** get_tasks: each block is about such a process, with its own command line and name. *)
Theorem C114_shown :
  forall table r l e, get_tasks table = (r, Some (LBlocks l)) -> In e l ->
    exists p, active_in (seen table) p /\ te_pid e = p_pid p /\ te_cmd e = p_cmd p /\ named (te_name e) (p_cmd p).
Proof.
  intros table r l e E He. unfold get_tasks in E. destruct (active_any table) as [[_ (act & f & El & _ & Hl)]|[_ El]]; rewrite El in E; [|discriminate].
  assert (P : forall a shown r l, print_tasks a shown = (r, l) -> In e l -> In e shown \/ exists p, In p a /\ te_pid e = p_pid p /\ te_cmd e = p_cmd p /\ named (te_name e) (p_cmd p)).
  { clear. induction a as [|p a IH]; intros shown r l E He; cbn [print_tasks] in E; [injection E as _ <-; auto|].
    destruct (parse_task_info (p_cmd p)) as [i|x] eqn:Ei; [|injection E as _ <-; auto].
    destruct (ti_name i) as [n|] eqn:En; [|injection E as _ <-; auto]. destruct (ti_code i) as [c|]; [|injection E as _ <-; auto].
    destruct (IH _ _ _ E He) as [H|(q & Hq & H)]; [|right; exists q; split; [right|]; assumption].
    apply in_app_iff in H. destruct H as [H|[<-|[]]]; [auto|]. right. exists p. cbn. split; [auto|]. split; [reflexivity|]. split; [reflexivity|]. exists i. auto. }
  destruct act as [|p act]; [discriminate E|]. destruct (print_tasks (p :: act) []) as [r' l'] eqn:Ep. injection E as -> ->.
  destruct (P _ _ _ _ Ep He) as [[]|(q & Hq & H)]. exists q. split; [apply Hl, Hq|exact H].
Qed.
Print Assumptions C114_shown.

(** One python process that cannot be read, and neither command does anything; other
    processes that cannot be read do not matter. *)
Theorem C114_unreadable :
  (forall table p, In p table -> p_denied p = true -> p_python p = true ->
     get_tasks table = (Err AccessDenied, None) /\ forall o, stop_task o table = (Err AccessDenied, [])) /\
  (forall table, readable table -> get_tasks table = get_tasks (seen table) /\ forall o, stop_task o table = stop_task o (seen table)).
Proof.
  split.
  - intros table p Hp Hd Hy. destruct (active_any table) as [[R _]|[_ El]]; [specialize (R p Hp Hd); congruence|]. unfold get_tasks, stop_task. rewrite El. auto.
  - intros table R. assert (E : get_active table = get_active (seen table)) by (unfold get_active; rewrite scan_seen by exact R; reflexivity).
    unfold get_tasks, stop_task. rewrite E. auto.
Qed.
Print Assumptions C114_unreadable.

(** a table with a task, its shell, an unreadable process of root and a bystander *)
Definition only_table (d : bool) : list proc :=
  [Proc 1 0 [lit "init"] true d None; Proc 5 1 [lit "sh"; lit "-c"; lit "python -m jqtrade start_task -n a -c s.py"] false false None;
   Proc 6 5 [lit "python"; lit "-m"; lit "jqtrade"; lit "start_task"; lit "-n"; lit "a"; lit "-c"; lit "s.py"] false true (Some (lit "a"));
   Proc 7 1 [lit "python"; lit "other.py"] false true None].
Example C114_demo :
  sent_signals (StOpts (Some (lit "a")) None false false) (only_table false) = [(6, SIGTERM)] /\
  sent_signals (StOpts None (Some 5) false true) (only_table false) = [] /\
  sent_signals (StOpts None None true true) (only_table false) = [(6, SIGKILL)] /\
  get_tasks (only_table false) = (Ok tt, Some (LBlocks [TEntry (lit "a") 6 (lit "s.py") None None false
    [lit "python"; lit "-m"; lit "jqtrade"; lit "start_task"; lit "-n"; lit "a"; lit "-c"; lit "s.py"]])) /\
  stop_task (StOpts None None true true) (only_table true) = (Err AccessDenied, []).
Proof. vm_compute. repeat split. Qed.
