(** Theorems for C47, C48 and C49. *)
From Verif Require Import PyStr LStr LGate MTasks STasks LTasks LTasks2.
Open Scope list_scope.
Open Scope Z_scope.

(** ** C47 *)

(** Proved for every accepted command line in which each option is one of the documented
    words followed by its value as a separate word. *)
Theorem C47_info_partial :
  forall pre toks o, parse_args toks = Some o ->
    (forall t, In t pre -> ~ In t flags) -> (forall t, In t toks -> In t flags \/ classify t = AArg) ->
    parse_task_info (pre ++ toks) = Ok (TInfo (so_debug o) (so_env o) (so_out o) (Some (so_code o)) (Some (so_name o))).
Proof.
  intros pre toks o H Hpre Ht. unfold parse_task_info. rewrite items_skip by exact Hpre. unfold parse_args in H.
  destruct (ap_loop toks (ApSt None None None None None false)) as [s|] eqn:E; [|discriminate].
  assert (A0 : agree (ApSt None None None None None false) (TInfo false None None None None)) by (unfold agree; cbn; auto 10).
  destruct (items_follow (List.length toks) toks _ s (TInfo false None None None None) (le_n _) Ht A0 E) as (i & Ei & A1 & A2 & A3 & A4 & A5).
  rewrite Ei. destruct s as [[n|] [c|] out env cfg d]; try discriminate. injection H as <-. destruct i. cbn in *. congruence.
Qed.
Print Assumptions C47_info_partial.
Lemma ap_loop_cons t rest s : ap_loop (t :: rest) s =
  if eqb t (lit "--") then None
  else match classify t with
  | AOpt (Some OHelp) _ => None
  | AOpt (Some ODebug) None => ap_loop rest (ap_flag s)
  | AOpt (Some ODebug) (Some _) => None
  | AOpt (Some o) (Some v) => ap_loop rest (ap_set o v s)
  | AOpt (Some o) None =>
      match rest with
      | v :: rest' => if eqb v (lit "--") then None else match classify v with AArg => ap_loop rest' (ap_set o v s) | _ => None end
      | [] => None
      end
  | _ => None
  end.
Proof. reflexivity. Qed.
(** False for the other accepted spellings, e.g. --name=NAME, for every name: the name is
    not found. *)
Theorem C47_equals_refuted :
  forall v c : str, (forall r, c <> DASH :: r) ->
    parse_args [lit "--name=" ++ v; lit "-c"; c] = Some (SOpts v c None None None false) /\
    exists i, parse_task_info [lit "python"; lit "-m"; lit "jqtrade"; lit "start_task"; lit "--name=" ++ v; lit "-c"; c] = Ok i /\ ti_name i = None.
Proof.
  intros v c Hc.
  assert (Ac : classify c = AArg).
  { destruct c as [|x c]; [reflexivity|]. unfold classify. destruct (N.eqb_spec x DASH) as [->|]; [exfalso; eapply Hc; reflexivity|reflexivity]. }
  assert (An : classify (lit "--name=" ++ v) = AOpt (Some OName) (Some v)).
  { reflexivity. }
  assert (Nd : eqb (lit "--name=" ++ v) (lit "--") = false) by reflexivity.
  assert (Cd : eqb c (lit "--") = false) by (apply eqb_false; intros ->; eapply Hc; reflexivity).
  split.
  - assert (S1 : forall t rest st, eqb t (lit "--") = false -> classify t = AOpt (Some OName) (Some v) -> ap_loop (t :: rest) st = ap_loop rest (ap_set OName v st))
      by (intros t rest st E1 E2; rewrite ap_loop_cons, E1, E2; reflexivity).
    assert (S2 : forall t rest st, eqb t (lit "--") = false -> eqb c (lit "--") = false -> classify t = AOpt (Some OCode) None -> ap_loop (t :: c :: rest) st = ap_loop rest (ap_set OCode c st))
      by (intros t rest st E1 E2 E3; rewrite ap_loop_cons, E1, E3; cbv beta iota; rewrite E2, Ac; reflexivity).
    unfold parse_args. rewrite (S1 _ _ _ Nd An), (S2 (lit "-c") _ _ eq_refl Cd eq_refl). reflexivity.
  - unfold parse_task_info.
    change [lit "python"; lit "-m"; lit "jqtrade"; lit "start_task"; lit "--name=" ++ v; lit "-c"; c]
      with ([lit "python"; lit "-m"; lit "jqtrade"; lit "start_task"] ++ [lit "--name=" ++ v; lit "-c"; c]).
    rewrite items_skip by (intros t Ht; cbn in Ht; repeat (destruct Ht as [<-|Ht]; [vm_compute; intuition discriminate|]); contradiction).
    rewrite not_flag_items by (intro X; cbn [In flags] in X; repeat (destruct X as [X|X]; [discriminate|]); contradiction).
    change (parse_items [lit "-c"; c]) with (fun i => parse_items [c] (TInfo (ti_debug i) (ti_env i) (ti_out i) (Some c) (ti_name i))). cbn beta.
    rewrite not_flag_items by (apply arg_not_flag, Ac). eexists. split; reflexivity.
Qed.
Print Assumptions C47_equals_refuted.
(** More spellings that argparse accepts and the parser misses or gets wrong. *)
Theorem C47_spellings_refuted :
  let start := [lit "python"; lit "-m"; lit "jqtrade"; lit "start_task"] in
  let name_of toks := match parse_task_info (start ++ toks) with Ok i => ti_name i | Err _ => None end in
  (parse_args [lit "-ndemo"; lit "-c"; lit "s.py"] = Some (SOpts (lit "demo") (lit "s.py") None None None false) /\ name_of [lit "-ndemo"; lit "-c"; lit "s.py"] = None) /\
  (parse_args [lit "--nam"; lit "demo"; lit "-c"; lit "s.py"] = Some (SOpts (lit "demo") (lit "s.py") None None None false) /\ name_of [lit "--nam"; lit "demo"; lit "-c"; lit "s.py"] = None) /\
  (parse_args [lit "-n"; lit "a"; lit "--name=b"; lit "-c"; lit "s.py"] = Some (SOpts (lit "b") (lit "s.py") None None None false) /\
   name_of [lit "-n"; lit "a"; lit "--name=b"; lit "-c"; lit "s.py"] = Some (lit "a")).
Proof. vm_compute. auto 10. Qed.
Print Assumptions C47_spellings_refuted.
Example C47_demo :
  let toks := [lit "--name"; lit "demo"; lit "--debug"; lit "-o"; lit "-5"; lit "-c"; lit "a b.py"; lit "-e"; lit "A=1"; lit "--config"; lit "x"; lit "-n"; lit "d2"] in
  parse_args toks = Some (SOpts (lit "d2") (lit "a b.py") (Some (lit "-5")) (Some (lit "A=1")) (Some (lit "x")) true) /\
  (forall t, In t toks -> In t flags \/ classify t = AArg) /\
  parse_task_info (lit "python" :: lit "-m" :: lit "jqtrade" :: lit "start_task" :: toks) = Ok (TInfo true (Some (lit "A=1")) (Some (lit "-5")) (Some (lit "a b.py")) (Some (lit "d2"))) /\
  parse_args [lit "-n"; lit "a"] = None /\ parse_args [lit "-n"; lit "-c"; lit "s.py"] = None.
Proof.
  split; [vm_compute; reflexivity|]. split; [|vm_compute; auto].
  intros t Ht. cbn [In] in Ht. repeat (destruct Ht as [<-|Ht]; [vm_compute; auto 12|]). contradiction.
Qed.

(** ** C48 *)

(** Proved for every interleaving of starts, exits, changes of parent and single reading
    steps of any number of processes, on machines where no task is the parent of a
    process that speaks of start_task and tasks use the spellings of C47. *)
Theorem C48_exclusive_partial :
  forall m j k p q n, reach m -> m_live m j = Some p -> m_live m k = Some q ->
    m_phase m j = PRunning -> m_phase m k = PRunning -> p_task p = Some n -> p_task q = Some n -> j = k.
Proof.
  intros m j k p q n R Hj Hk Fj Fk Tj Tk. destruct (reach_inv m R) as [_ [_ _ P]]. destruct (Z.eq_dec j k) as [E|N]; [exact E|exfalso].
  destruct (P j k p q n N Hj Hk Tj Tk) as [X|X]; rewrite ?Fj, ?Fk in *; exact X || exact Logic.I.
Qed.
Print Assumptions C48_exclusive_partial.
Definition start_cmd (n : str) : list str := [lit "python"; lit "-m"; lit "jqtrade"; lit "start_task"; lit "-n"; n; lit "-c"; lit "s.py"].
Definition task (pid ppid : Z) (n : str) : proc := Proc pid ppid (start_cmd n) false true (Some n).
Definition empty_machine : mach := Mach (fun _ => None) (fun _ => PNew) [1].
Definition check (k : Z) (n m : nat) : list mlabel := MSnap k :: repeat (MRead k) (S n) ++ repeat (MCompare k) (S m).
Definition both_running (n : str) (j k : Z) (o : option mach) : Prop :=
  exists m p q, o = Some m /\ m_live m j = Some p /\ m_live m k = Some q /\ p_task p = Some n /\ p_task q = Some n /\
    m_phase m j = PRunning /\ m_phase m k = PRunning.
(** False when a running task has started another task: it is hidden from the check. *)
Theorem C48_parent_hidden_refuted :
  both_running (lit "a") 10 12 (m_run
    (MSpawn (task 10 1 (lit "a")) :: check 10 1 1 ++ MSpawn (task 11 10 (lit "b")) :: MSpawn (task 12 1 (lit "a")) :: check 12 3 2) empty_machine).
Proof. eexists _, _, _. vm_compute. auto 10. Qed.
Print Assumptions C48_parent_hidden_refuted.
(** False when a task starts itself again: its own parent is not compared. *)
Theorem C48_own_parent_refuted :
  both_running (lit "a") 10 11 (m_run
    (MSpawn (task 10 1 (lit "a")) :: check 10 1 1 ++ MSpawn (task 11 10 (lit "a")) :: check 11 2 1) empty_machine).
Proof. eexists _, _, _. vm_compute. auto 10. Qed.
Print Assumptions C48_own_parent_refuted.
(** False when the name was given twice in two spellings. *)
Theorem C48_spelling_refuted :
  let odd := Proc 10 1 [lit "python"; lit "-m"; lit "jqtrade"; lit "start_task"; lit "-n"; lit "a"; lit "--name=b"; lit "-c"; lit "s.py"] false true (Some (lit "b")) in
  both_running (lit "b") 10 11 (m_run (MSpawn odd :: check 10 1 1 ++ MSpawn (task 11 1 (lit "b")) :: check 11 2 2) empty_machine).
Proof. eexists _, _, _. vm_compute. auto 10. Qed.
Print Assumptions C48_spelling_refuted.
(** A race of two starts: whoever is compared while alive blocks the other; here both fail. *)
Example C48_demo :
  match m_run ([MSpawn (task 10 1 (lit "a")); MSpawn (task 11 1 (lit "a")); MSnap 10; MSnap 11; MRead 10; MRead 11; MRead 11; MRead 10; MRead 10; MRead 11;
                MCompare 10; MCompare 11; MCompare 11]) empty_machine with
  | Some m => m_phase m 10 = PFailed /\ m_phase m 11 = PFailed | None => False end /\
  match m_run (MSpawn (task 10 1 (lit "a")) :: check 10 1 1 ++ MSpawn (task 11 1 (lit "a")) :: MSpawn (task 12 1 (lit "b")) :: check 12 3 3
     ++ MSnap 11 :: repeat (MRead 11) 4 ++ repeat (MCompare 11) 3) empty_machine with
  | Some m => m_phase m 10 = PRunning /\ m_phase m 11 = PFailed /\ m_phase m 12 = PRunning | None => False end.
Proof. vm_compute. auto. Qed.
Lemma speaks_start n : speaks (start_cmd n).
Proof.
  unfold speaks, start_cmd. exists (lit "python -m "), (lit " start_task -n " ++ n ++ lit " -c s.py"), (lit "python -m jqtrade "), (lit " -n " ++ n ++ lit " -c s.py").
  cbn [join_with]. split; reflexivity.
Qed.
(** Every run of strategies started side by side meets the hypotheses. *)
Definition plain (l : mlabel) : Prop := match l with MSpawn p => exists k n, p = task k 1 n /\ k <> 1 /\ (forall r, n <> DASH :: r) | MReparent _ _ => False | _ => True end.
Definition all_plain (m : mach) : Prop := forall k p, m_live m k = Some p -> exists n, p = task k 1 n /\ k <> 1 /\ (forall r, n <> DASH :: r).
Lemma plain_sane m : all_plain m -> sane m.
Proof.
  intro H. split.
  - intros j k p q Hj Hk _ _. destruct (H j p Hj) as (n & _ & Nj & _), (H k q Hk) as (n' & -> & _ & _). cbn. congruence.
  - intros k p n Hk E. destruct (H k p Hk) as (n' & -> & _ & Nd). cbn in E. injection E as ->. split; [apply speaks_start|]. split; [reflexivity|].
    unfold named. exists (TInfo false None None (Some (lit "s.py")) (Some n)). split; [|reflexivity].
    assert (Nf : ~ In n flags) by (intro X; cbn [In flags] in X; repeat (destruct X as [X|X]; [eapply Nd; symmetry; exact X|]); exact X).
    unfold parse_task_info. change (p_cmd (task k 1 n)) with ([lit "python"; lit "-m"; lit "jqtrade"; lit "start_task"] ++ [lit "-n"; n; lit "-c"; lit "s.py"]).
    rewrite items_skip by (intros t Ht; cbn in Ht; repeat (destruct Ht as [<-|Ht]; [vm_compute; intuition discriminate|]); contradiction).
    change (parse_items [lit "-n"; n; lit "-c"; lit "s.py"]) with (fun i => parse_items [n; lit "-c"; lit "s.py"] (TInfo (ti_debug i) (ti_env i) (ti_out i) (ti_code i) (Some n))). cbn beta.
    rewrite not_flag_items by exact Nf. reflexivity.
Qed.
Lemma plain_run ls : Forall plain ls -> forall m m', reach m -> all_plain m -> m_run ls m = Some m' -> reach m' /\ all_plain m'.
Proof.
  induction 1 as [|l ls Hl _ IH]; intros m m' R A E; cbn [m_run] in E; [injection E as <-; auto|].
  destruct (m_step l m) as [m1|] eqn:E1; [|discriminate].
  assert (A1 : all_plain m1).
  { intros k p Hk. destruct l as [p'|k'|k' q|k'|k'|k']; cbn [m_step] in E1.
    - destruct Hl as (k0 & n & -> & Nk & Nd). destruct (memb (p_pid (task k0 1 n)) (m_used m)); [discriminate|]. injection E1 as <-. cbn in Hk.
      destruct (Z.eqb_spec k k0) as [->|]; [injection Hk as <-; eauto|apply A, Hk].
    - destruct (m_live m k'); [|discriminate]. injection E1 as <-. cbn in Hk. destruct (k =? k'); [discriminate|apply A, Hk].
    - contradiction.
    - destruct (m_live m k') as [p0|]; [|discriminate]. destruct (m_phase m k'); try discriminate. destruct (p_task p0); [|discriminate]. injection E1 as <-. apply A, Hk.
    - destruct (m_live m k') as [p0|]; [|discriminate]. destruct (m_phase m k') as [|[|q todo] ta pa pp| | |]; try discriminate; injection E1 as <-; [apply A, Hk|].
      destruct (m_live m q) as [p1|]; [|apply A, Hk]. destruct (p_denied p1), (p_python p1), (mentions (p_cmd p1)); apply A, Hk.
    - destruct (m_live m k') as [p0|]; [|discriminate]. destruct (m_phase m k') as [| |[|q todo] pp| |]; try discriminate; injection E1 as <-; [apply A, Hk|].
      destruct ((q =? k') || (q =? pp)); [apply A, Hk|]. destruct (m_live m q) as [p1|]; [|apply A, Hk].
      destruct (parse_task_info (p_cmd p1)) as [i|]; [|apply A, Hk]. destruct (ti_name i) as [n|]; [|apply A, Hk]. match type of Hk with m_live (if ?b then _ else _) _ = _ => destruct b end; apply A, Hk. }
  apply (IH m1 m'); [eapply r_step; [exact R|exact E1|apply plain_sane, A1]|exact A1|exact E].
Qed.
Example C48_demo_reach : exists m, reach m /\ m_phase m 10 = PRunning /\ m_phase m 11 = PRunning /\ m_phase m 12 = PFailed /\
  m_live m 10 = Some (task 10 1 (lit "a")) /\ m_live m 11 = Some (task 11 1 (lit "b")).
Proof.
  assert (R : reach empty_machine) by (apply r_init; [discriminate|reflexivity|apply plain_sane; discriminate]).
  destruct (m_run (MSpawn (task 10 1 (lit "a")) :: check 10 1 1 ++ MSpawn (task 11 1 (lit "b")) :: MSpawn (task 12 1 (lit "a")) :: check 11 3 3
     ++ MSnap 12 :: repeat (MRead 12) 4 ++ repeat (MCompare 12) 3) empty_machine) as [m|] eqn:E; [|vm_compute in E; discriminate].
  exists m. split.
  - eapply plain_run; [|exact R| |exact E]; [|discriminate]. cbv [check repeat app].
    repeat (apply Forall_cons; [first [exact Logic.I | eexists _, _; split; [reflexivity|split; [discriminate|intros r; discriminate]]]|]). constructor.
  - vm_compute in E. injection E as <-. vm_compute. auto 10.
Qed.

(** ** C49 *)

(** what the command selects *)
Definition selects (o : stopts) (p : proc) : Prop :=
  st_all o = true \/
  st_all o = false /\ ((exists z, st_pid o = Some z /\ z <> 0 /\ p_pid p = z) \/
                      ((st_pid o = None \/ st_pid o = Some 0) /\ exists n, st_name o = Some n /\ named n (p_cmd p))).
Definition something_given (o : stopts) : Prop :=
  st_all o = true \/ (exists z, st_pid o = Some z /\ z <> 0) \/ (exists n, st_name o = Some n /\ n <> []).
(** Proved for process tables in which every process can be inspected and, for --name,
    the name of every active process can be read; "task" means here a process speaking
    of jqtrade and start_task that is not the parent of another such process. *)
Theorem C49_stop_partial :
  forall o table, NoDup (map p_pid table) -> (forall p, In p table -> p_denied p = false) -> something_given o ->
    (st_all o = true \/ (exists z, st_pid o = Some z /\ z <> 0) \/ (forall p, active_in table p -> exists n, named n (p_cmd p))) ->
    fst (stop_task o table) = Ok tt /\ NoDup (sent_signals o table) /\
    forall pid sg, In (pid, sg) (sent_signals o table) <->
      sg = (if st_force o then SIGKILL else SIGTERM) /\ exists p, active_in table p /\ selects o p /\ p_pid p = pid.
Proof.
  intros o table ND Hd Hg Hn. destruct (get_active_spec table Hd) as (l & El & Hl & (f & Ef)).
  assert (NDl : NoDup (map p_pid l)).
  { clear - ND Ef. subst l. induction table as [|p table IH]; cbn [filter map] in *; [constructor|]. apply NoDup_cons_iff in ND. destruct ND as [N1 N2].
    destruct (f p); [|apply IH, N2]. cbn [map]. constructor; [|apply IH, N2]. intro H. apply N1. apply in_map_iff in H. destruct H as (q & E & H).
    apply filter_In in H. apply in_map_iff. exists q. tauto. }
  assert (G : negb (truthy_str (st_name o)) && negb (truthy_pid (st_pid o)) && negb (st_all o) = false).
  { destruct Hg as [->|[(z & -> & Nz)|(n & -> & Nn)]]; cbn.
    - rewrite andb_false_r. reflexivity.
    - destruct (Z.eqb_spec z 0) as [|]; [contradiction|]. cbn. rewrite andb_false_r. reflexivity.
    - destruct n; [contradiction|reflexivity]. }
  assert (K : exists ps, stop_task o table = (Ok tt, map p_pid ps) /\ NoDup (map p_pid ps) /\ forall p, In p ps <-> In p l /\ selects o p).
  { unfold stop_task. rewrite El, G. unfold selects. destruct (st_all o) eqn:Ea.
    { exists l. split; [reflexivity|]. split; [exact NDl|]. intro p. tauto. }
    destruct (truthy_pid (st_pid o)) eqn:Et.
    - destruct (st_pid o) as [z|] eqn:Ez; [|discriminate]. cbn in Et. apply negb_true_iff, Z.eqb_neq in Et.
      destruct (find (fun p => eqb (Some (p_pid p)) (Some z)) l) as [p|] eqn:Fd.
      + apply find_some in Fd. destruct Fd as [Hp E]. apply eqb_true in E. injection E as E. exists [p]. split; [reflexivity|]. split; [repeat constructor; auto|].
        intro q. split.
        * intros [<-|[]]. split; [exact Hp|]. right. split; [reflexivity|]. left. eauto.
        * intros [Hq [X|[_ [(z' & Ez' & _ & Eq)|[[X|X] _]]]]]; try discriminate; [|congruence].
          left. injection Ez' as <-. clear - NDl Hp Hq E Eq. revert NDl Hp Hq. induction l as [|a l IH]; cbn; [tauto|].
          intros ND [<-|Hp] [<-|Hq]; [reflexivity| | |]; apply NoDup_cons_iff in ND; destruct ND as [N1 N2]; [| |apply IH; assumption]; exfalso; apply N1, in_map_iff; [exists q|exists p]; split; congruence || assumption.
      + exists []. split; [reflexivity|]. split; [constructor|]. intro q. split; [intros []|].
        intros [Hq [X|[_ [(z' & Ez' & _ & Eq)|[[X|X] _]]]]]; try discriminate; [|congruence].
        injection Ez' as <-. eapply find_none in Fd; [|exact Hq]. cbv beta in Fd. rewrite Eq, eqb_refl in Fd. discriminate.
    - assert (En : exists n, st_name o = Some n).
      { destruct (st_name o) as [n|]; [eauto|]. cbn in G. discriminate. }
      destruct En as (n & En). rewrite En. rewrite stop_named_spec.
      2:{ intros p Hp. destruct Hn as [X|[(z & Ez & Nz)|X]]; [discriminate| |apply X, Hl, Hp].
          rewrite Ez in Et. cbn in Et. apply negb_false_iff, Z.eqb_eq in Et. contradiction. }
      exists (filter (name_is n) l). split; [reflexivity|]. split.
      + clear - NDl. induction l as [|p l IH]; cbn [filter map] in *; [constructor|]. apply NoDup_cons_iff in NDl. destruct NDl as [N1 N2].
        destruct (name_is n p); [|apply IH, N2]. cbn [map]. constructor; [|apply IH, N2]. intro H. apply N1. apply in_map_iff in H. destruct H as (q & E & H).
        apply filter_In in H. apply in_map_iff. exists q. tauto.
      + intro p. rewrite filter_In, name_is_iff. split; intros [Hp H]; (split; [exact Hp|]).
        * right. split; [reflexivity|]. right. split; [|exists n; auto]. destruct (st_pid o) as [z|]; [|auto]. right. cbn in Et. apply negb_false_iff, Z.eqb_eq in Et. congruence.
        * destruct H as [X|[_ [(z & Ez & Nz & _)|[_ (n' & E & H)]]]]; [discriminate| |congruence].
          rewrite Ez in Et. cbn in Et. apply negb_false_iff, Z.eqb_eq in Et. contradiction. }
  destruct K as (ps & E & NDp & Hps). unfold sent_signals. rewrite E. cbn [fst snd]. split; [reflexivity|]. split.
  - clear - NDp. induction ps as [|p ps IH]; cbn [map] in *; [constructor|]. apply NoDup_cons_iff in NDp. destruct NDp as [N1 N2]. constructor; [|apply IH, N2].
    intro H. apply N1. apply in_map_iff in H. destruct H as (z & Ez & H). injection Ez as ->. exact H.
  - intros pid sg. rewrite in_map_iff. split.
    + intros (z & Ez & Hz). injection Ez as -> <-. split; [reflexivity|]. apply in_map_iff in Hz. destruct Hz as (p & Ep & Hp). exists p. apply Hps in Hp. rewrite <- Hl. tauto.
    + intros [-> (p & Ha & Hs & Ep)]. exists pid. split; [reflexivity|]. apply in_map_iff. exists p. split; [exact Ep|]. apply Hps. rewrite Hl. tauto.
Qed.
Print Assumptions C49_stop_partial.
(** nothing is signalled when nothing was selected *)
Theorem C49_nothing_given :
  forall o table, (forall p, In p table -> p_denied p = false) -> ~ something_given o ->
    stop_task o table = (Err ValueError, []) /\ sent_signals o table = [].
Proof.
  intros o table Hd Hg. destruct (get_active_spec table Hd) as (l & El & _).
  assert (E : stop_task o table = (Err ValueError, [])); [|unfold sent_signals; rewrite E; auto].
  unfold stop_task. rewrite El. replace (negb (truthy_str (st_name o)) && negb (truthy_pid (st_pid o)) && negb (st_all o)) with true; [reflexivity|].
  symmetry. unfold something_given in Hg. destruct (st_all o); [tauto|]. destruct (st_pid o) as [z|].
  - cbn. destruct (Z.eqb_spec z 0) as [|Nz]; [|exfalso; apply Hg; eauto]. destruct (st_name o) as [[|c n]|]; try reflexivity. exfalso. apply Hg. right. right. exists (c :: n). split; [reflexivity|discriminate].
  - destruct (st_name o) as [[|c n]|]; try reflexivity. exfalso. apply Hg. right. right. exists (c :: n). split; [reflexivity|discriminate].
Qed.
Print Assumptions C49_nothing_given.
(** never a process that does not speak of jqtrade and start_task, whatever else is on the machine *)
Theorem C49_only_speakers :
  forall o table pid sg, (forall p, In p table -> p_denied p = false) -> In (pid, sg) (sent_signals o table) -> exists p, In p table /\ p_pid p = pid /\ speaks (p_cmd p).
Proof.
  intros o table pid sg Hd H. destruct (get_active_spec table Hd) as (l & El & Hl & _).
  assert (S : forall n l0 sent, (forall z, In z (snd (stop_named n l0 sent)) -> In z sent \/ In z (map p_pid l0))).
  { intros n l0. induction l0 as [|p l0 IH]; intros sent z; cbn [stop_named]; [cbn; auto|]. destruct (parse_task_info (p_cmd p)) as [i|]; [|cbn; auto].
    destruct (ti_name i) as [m|]; [|cbn; auto]. intro X. apply IH in X. destruct X as [X|X]; [|cbn; auto].
    destruct (eqb n (Some m)); [|auto]. apply in_app_iff in X. cbn. destruct X as [X|[X|[]]]; auto. }
  assert (P : In pid (map p_pid l)).
  { unfold sent_signals in H. apply in_map_iff in H. destruct H as (z & E & H). injection E as -> _. unfold stop_task in H. rewrite El in H.
    destruct (_ && _ && _); [contradiction|]. destruct (st_all o); [exact H|]. destruct (truthy_pid (st_pid o)).
    - destruct (find _ l) as [p|] eqn:F; [|contradiction]. destruct H as [<-|[]]. apply find_some in F. apply in_map, F.
    - apply S in H. destruct H as [[]|H]. exact H. }
  apply in_map_iff in P. destruct P as (p & E & Hp). apply Hl in Hp. destruct Hp as (Hin & Hs & _). eauto.
Qed.
Print Assumptions C49_only_speakers.
(** False: a process that is no task is signalled, for instance an editor showing the file
    start_task of this repository. *)
Theorem C49_bystander_refuted :
  let editor := Proc 20 1 [lit "vim"; lit "/repo/jqtrade/start_task.md"] false false None in
  sent_signals (StOpts None None true true) [editor; task 10 1 (lit "a")] = [(20, SIGKILL); (10, SIGKILL)].
Proof. vm_compute. reflexivity. Qed.
Print Assumptions C49_bystander_refuted.
(** False: a running task that has started another one is never signalled, whatever is asked. *)
Theorem C49_parent_refuted :
  forall o table p q sg, (forall r, In r table -> p_denied r = false) -> In q table -> speaks (p_cmd q) -> p_ppid q = p_pid p -> ~ In (p_pid p, sg) (sent_signals o table).
Proof.
  intros o table p q sg Hd Hq Sq E H. destruct (get_active_spec table Hd) as (l & El & Hl & _).
  assert (P : In (p_pid p) (map p_pid l)).
  { unfold sent_signals in H. apply in_map_iff in H. destruct H as (z & Ez & H). injection Ez as -> _. unfold stop_task in H. rewrite El in H.
    destruct (_ && _ && _); [contradiction|]. destruct (st_all o); [exact H|]. destruct (truthy_pid (st_pid o)).
    - destruct (find _ l) as [r|] eqn:F; [|contradiction]. destruct H as [<-|[]]. apply find_some in F. apply in_map, F.
    - assert (S : forall n l0 sent, (forall z, In z (snd (stop_named n l0 sent)) -> In z sent \/ In z (map p_pid l0))); [|apply S in H; destruct H as [[]|H]; exact H].
      clear. intros n l0. induction l0 as [|p l0 IH]; intros sent z; cbn [stop_named]; [cbn; auto|]. destruct (parse_task_info (p_cmd p)) as [i|]; [|cbn; auto].
      destruct (ti_name i) as [m|]; [|cbn; auto]. intro X. apply IH in X. destruct X as [X|X]; [|cbn; auto].
      destruct (eqb n (Some m)); [|auto]. apply in_app_iff in X. cbn. destruct X as [X|[X|[]]]; auto. }
  apply in_map_iff in P. destruct P as (r & Er & Hr). apply Hl in Hr. destruct Hr as (_ & _ & N). apply N. exists q. split; [exact Hq|]. split; [exact Sq|]. congruence.
Qed.
Print Assumptions C49_parent_refuted.
(** False: one process whose name cannot be read ends the loop; a later task of the given
    name is not signalled. *)
Theorem C49_unreadable_refuted :
  let odd := Proc 9 1 [lit "python"; lit "-m"; lit "jqtrade"; lit "start_task"; lit "--name=x"; lit "-c"; lit "s.py"] false true (Some (lit "x")) in
  stop_task (StOpts (Some (lit "a")) None false false) [odd; task 10 1 (lit "a")] = (Err KeyError, []) /\
  stop_task (StOpts (Some (lit "x")) None false false) [task 10 1 (lit "a"); odd] = (Err KeyError, []).
Proof. vm_compute. auto. Qed.
Print Assumptions C49_unreadable_refuted.
(** False: one python process that may not be inspected ends the command, nothing is signalled. *)
Theorem C49_denied_refuted :
  forall o t1 t2 p, p_denied p = true -> p_python p = true -> (forall q, In q t1 -> p_denied q = false) -> sent_signals o (t1 ++ p :: t2) = [].
Proof.
  intros o t1 t2 p Hd Hp Ht. unfold sent_signals, stop_task.
  assert (E : exists x, get_active (t1 ++ p :: t2) = Err x); [|destruct E as (x & ->); reflexivity].
  unfold get_active.
  assert (E : forall ta pa, exists x, scan (t1 ++ p :: t2) ta pa = Err x); [|destruct (E [] []) as (x & ->); exists x; reflexivity].
  induction t1 as [|q t1 IH]; intros ta pa; cbn [app scan].
  - rewrite Hd, Hp. eauto.
  - rewrite (Ht q (or_introl eq_refl)). destruct (mentions (p_cmd q)); apply IH; intros; apply Ht; right; assumption.
Qed.
Print Assumptions C49_denied_refuted.
Example C49_demo :
  let table := [Proc 1 0 [lit "init"] false false None; task 10 1 (lit "a"); task 11 1 (lit "b"); task 12 1 (lit "a"); Proc 13 1 [lit "sh"] true false None] in
  let t2 := firstn 4 table in
  sent_signals (StOpts (Some (lit "a")) None false false) table = [(10, SIGTERM); (12, SIGTERM)] /\
  sent_signals (StOpts None (Some 11) false true) table = [(11, SIGKILL)] /\
  sent_signals (StOpts None (Some 1) false true) table = [] /\
  sent_signals (StOpts (Some (lit "a")) (Some 11) true false) table = [(10, SIGTERM); (11, SIGTERM); (12, SIGTERM)] /\
  stop_task (StOpts None None false true) table = (Err ValueError, []) /\
  NoDup (map p_pid t2) /\ forallb (fun p => negb (p_denied p)) t2 = true /\ (exists n, named n (start_cmd (lit "a")) /\ n = lit "a").
Proof.
  repeat split; try (vm_compute; reflexivity).
  - vm_compute. repeat constructor; cbn; intuition discriminate.
  - exists (lit "a"). split; [|reflexivity]. eexists. split; [vm_compute; reflexivity|reflexivity].
Qed.
