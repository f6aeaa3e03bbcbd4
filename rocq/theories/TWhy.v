(** Why calls fail, and when: the attempts at a lock (C121), the refusals of a start (C112),
    and the periods given to set_options (C77). *)
From Verif Require Import PyBase PyStr LStr MLock SLock TLock MUtils MTasks MLog STasks LTasks TTasks MStart SStart LStart TStart TOnly.
From Verif Require MEventSource MStrategy TOptions.
Open Scope list_scope.
Open Scope Z_scope.

(** ** the lock *)
(** Another error than a lock that is held is raised at once, exactly at the first attempt
    that meets it. *)
Theorem C121_raised :
  forall tmo start l e, fst (wait_lock tmo start l) = WaRaised e <->
    exists pre rest, l = pre ++ AtFail e :: rest /\ waits tmo start pre.
Proof.
  intros tmo start l e. split.
  - destruct (wait_split tmo start l) as (pre & rest & -> & H & E). rewrite wait_after by exact H. cbn [fst].
    destruct rest as [|[|now|e'] rest]; cbn [wait_lock fst]; try discriminate.
    + apply Z.leb_le in E. rewrite E. discriminate.
    + intro X. injection X as ->. exists pre, rest. auto.
  - intros (pre & rest & -> & H). rewrite wait_after by exact H. reflexivity.
Qed.
Print Assumptions C121_raised.
(** No attempt is made after the one that ends the wait; before it all were made. *)
Theorem C121_attempts :
  forall tmo start l n, snd (wait_lock tmo start l) = n <->
    (n = length l /\ waits tmo start l) \/
    exists pre a rest, l = pre ++ a :: rest /\ waits tmo start pre /\ ~ waits tmo start [a] /\ n = S (length pre).
Proof.
  intros tmo start l n.
  assert (One : forall a, waits tmo start [a] <-> exists now, a = AtBusy now /\ now - start < tmo).
  { intro a. split; [intro W; inversion W; assumption|intro W; constructor; [exact W|constructor]]. }
  assert (Stop : forall a rest, ~ waits tmo start [a] -> snd (wait_lock tmo start (a :: rest)) = 1%nat).
  { intros a rest W. rewrite One in W. destruct a as [|now|e]; try reflexivity. cbn [wait_lock].
    destruct (Z.leb_spec tmo (now - start)) as [|L]; [reflexivity|]. exfalso. apply W. eauto. }
  split.
  - intros <-. destruct (wait_split tmo start l) as (pre & rest & -> & H & E). rewrite wait_after by exact H. cbn [snd]. destruct rest as [|a rest].
    + left. rewrite app_nil_r. cbn [wait_lock snd]. split; [lia|exact H].
    + right. exists pre, a, rest. split; [reflexivity|]. split; [exact H|].
      assert (W : ~ waits tmo start [a]) by (rewrite One; intros (now & -> & L); lia). split; [exact W|]. rewrite Stop by exact W. lia.
  - intros [(-> & W)|(pre & a & rest & -> & W & Wa & ->)].
    + rewrite <- (app_nil_r l) at 1. rewrite wait_after by exact W. cbn [wait_lock snd]. lia.
    + rewrite wait_after by exact W. cbn [snd]. rewrite Stop by exact Wa. lia.
Qed.
Print Assumptions C121_attempts.

(** ** the refusal of a name *)
Section Name.
  Context (pid ppid : Z) (name : str).
  (** the process does not keep a task of this name from starting *)
  Definition passes (p : proc) : Prop := p_pid p = pid \/ p_pid p = ppid \/ exists n, named n (p_cmd p) /\ n <> name.
  Lemma same_name_passes l1 : forall l, (forall q, In q l1 -> passes q) -> same_name pid ppid name (l1 ++ l) = same_name pid ppid name l.
  Proof.
    induction l1 as [|p l1 IH]; intros l H; [reflexivity|]. cbn [app same_name].
    assert (K : same_name pid ppid name (l1 ++ l) = same_name pid ppid name l) by (apply IH; intros q Hq; apply H; right; exact Hq). rewrite K.
    destruct (memb (p_pid p) [pid; ppid]) eqn:M; [reflexivity|].
    destruct (H p (or_introl eq_refl)) as [E|[E|(n & (i & Ei & En) & Hn)]].
    - rewrite E in M. cbn [memb existsb] in M. rewrite eqb_refl in M. discriminate.
    - rewrite E in M. cbn [memb existsb] in M. rewrite eqb_refl, orb_true_r in M. discriminate.
    - rewrite Ei. cbn [rbind]. rewrite En. destruct (eqb_spec name n) as [->|]; [congruence|reflexivity].
  Qed.
  Lemma same_name_stops p l : p_pid p <> pid -> p_pid p <> ppid ->
    (named name (p_cmd p) -> same_name pid ppid name (p :: l) = Ok true) /\
    (forall i, parse_task_info (p_cmd p) = Ok i -> ti_name i = None -> same_name pid ppid name (p :: l) = Err KeyError) /\
    (forall x, parse_task_info (p_cmd p) = Err x -> same_name pid ppid name (p :: l) = Err x).
  Proof.
    intros N1 N2. cbn [same_name]. assert (M : memb (p_pid p) [pid; ppid] = false).
    { destruct (memb (p_pid p) [pid; ppid]) eqn:M; [|reflexivity]. apply memb_In in M as [M|[M|[]]]; congruence. }
    rewrite M. split; [|split].
    - intros (i & -> & En). cbn [rbind]. rewrite En, eqb_refl. reflexivity.
    - intros i -> En. cbn [rbind]. rewrite En. reflexivity.
    - intros x ->. reflexivity.
  Qed.
End Name.
(** Of the processes found, in the order of the process table, the first that is neither the
    starting process nor its parent and does not show another name decides: TaskError if it
    shows this name, KeyError if it shows none (an error of reading its command line is
    passed on).  Nothing is touched. *)
Theorem C112_why :
  forall V (m : machine V) o b t1 p t2, ma_exists m (so_code o) = true -> readable (ma_procs m) -> ma_procs m = t1 ++ p :: t2 ->
    active_in (seen (ma_procs m)) p -> p_pid p <> ma_pid m -> p_pid p <> ma_ppid m -> ~ In p t1 ->
    (forall q, In q t1 -> active_in (seen (ma_procs m)) q -> passes (ma_pid m) (ma_ppid m) (so_name o) q) ->
    (named (so_name o) (p_cmd p) -> runner_init m o b = (Err TaskError, b)) /\
    (forall i, parse_task_info (p_cmd p) = Ok i -> ti_name i = None -> runner_init m o b = (Err KeyError, b)) /\
    (forall x, parse_task_info (p_cmd p) = Err x -> runner_init m o b = (Err x, b)).
Proof.
  intros V m o b t1 p t2 He R Et Hp N1 N2 Hn H.
  destruct (active_any (ma_procs m)) as [[_ (l & f & El & Ef & Hl)]|[(q & Hq & D & Y) _]]; [|rewrite (R q Hq D) in Y; discriminate].
  assert (Fp : f p = true).
  { apply Hl in Hp. rewrite Ef in Hp. apply filter_In in Hp. tauto. }
  assert (L : l = filter f t1 ++ p :: filter f t2).
  { rewrite Ef, Et, filter_app. cbn [filter]. rewrite Fp. reflexivity. }
  assert (P : forall q, In q (filter f t1) -> passes (ma_pid m) (ma_ppid m) (so_name o) q).
  { intros q Hq. apply H; [apply filter_In in Hq; tauto|]. apply Hl. rewrite L. apply in_or_app. left. exact Hq. }
  destruct (same_name_stops (ma_pid m) (ma_ppid m) (so_name o) p (filter f t2) N1 N2) as (S1 & S2 & S3).
  unfold runner_init, exist_repeated. rewrite He, El, L. cbn [negb rbind]. rewrite same_name_passes by exact P. split; [|split].
  - intro X. rewrite (S1 X). reflexivity.
  - intros i E1 E2. rewrite (S2 i E1 E2). reflexivity.
  - intros x E. rewrite (S3 x E). reflexivity.
Qed.
Print Assumptions C112_why.
(** an editor on a file of that name, before a task: the start fails with KeyError *)
Definition why_machine (l : list proc) : machine Z := Machine (fun _ => true) (fun _ => true) l 20 19 (lit "/home/a") (fun _ => Ok []).
Example C112_why_demo :
  let editor := Proc 30 1 [lit "vim"; lit "/repo/jqtrade/start_task.md"] false false None in
  let t := Proc 10 1 (cmd_of [lit "-n"; lit "a"; lit "-c"; lit "o.py"]) false true (Some (lit "a")) in
  let broken := Proc 40 1 (cmd_of [lit "-n"]) false true None in
  let o := SOpts (lit "a") (lit "s.py") None None None false in
  runner_init (why_machine [editor; t]) o demo_boot = (Err KeyError, demo_boot) /\
  runner_init (why_machine [t; editor]) o demo_boot = (Err TaskError, demo_boot) /\
  runner_init (why_machine [broken; t]) o demo_boot = (Err IndexError, demo_boot) /\
  passes 20 19 (lit "b") t.
Proof.
  cbv zeta. split; [vm_compute; reflexivity|]. split; [vm_compute; reflexivity|]. split; [vm_compute; reflexivity|]. right. right. exists (lit "a"). split; [|discriminate].
  eexists. split; vm_compute; reflexivity.
Qed.

(** ** periods that are none *)
Section Periods.
  Import MEventSource MStrategy.
  (** The first period that has not two bounds, or a bound that is no time, is what
      set_options fails with: ValueError for the number of bounds. *)
  Theorem C77_bad_period :
    forall mp1 p mp2 r, parse_periods mp1 = Ok r ->
      (length p <> 2%nat -> parse_periods (mp1 ++ p :: mp2) = Err ValueError) /\
      (forall a b x, p = [a; b] -> (parse_time a = Err x \/ (exists t, parse_time a = Ok t /\ parse_time b = Err x)) -> parse_periods (mp1 ++ p :: mp2) = Err x).
  Proof.
    induction mp1 as [|q mp1 IH]; intros p mp2 r H; cbn [app].
    - split.
      + intro L. destruct p as [|a [|b [|c p]]]; cbn [parse_periods]; try reflexivity. exfalso. apply L. reflexivity.
      + intros a b x -> [E|(t & E1 & E2)]; cbn [parse_periods]; [rewrite E|rewrite E1; cbn [rbind]; rewrite E2]; reflexivity.
    - destruct q as [|a [|b [|c q]]]; cbn [parse_periods] in H; try discriminate H. cbn [parse_periods].
      destruct (parse_time a) as [ta|]; cbn [rbind] in *; [|discriminate]. destruct (parse_time b) as [tb|]; cbn [rbind] in *; [|discriminate].
      destruct (parse_periods mp1) as [r'|]; cbn [rbind] in *; [|discriminate]. destruct (IH p mp2 r' eq_refl) as [I1 I2]. split.
      + intro L. rewrite (I1 L). reflexivity.
      + intros a' b' x Ep E. rewrite (I2 a' b' x Ep E). reflexivity.
  Qed.
  Theorem C77_bad_period_call :
    forall fuel sc st en k e s mp1 p mp2 r, st_allowed s = true -> parse_periods mp1 = Ok r -> length p <> 2%nat ->
      (so_mp k = Some (mp1 ++ p :: mp2) \/
       (exists m, parse_opt (so_mp k) = Ok m) /\ (forall x, so_interval k <> Some (Err x)) /\ so_period k = Some (mp1 ++ p :: mp2)) ->
      set_options fuel sc st en k e s = (GErr ValueError, s).
  Proof.
    intros fuel sc st en k e s mp1 p mp2 r Ha Hr L H. destruct (C77_bad_period mp1 p mp2 r Hr) as [B _]. specialize (B L).
    assert (O : parse_opt (Some (mp1 ++ p :: mp2)) = Err ValueError).
    { destruct mp1 as [|q mp1]; cbn [app parse_opt] in *; rewrite B; reflexivity. }
    unfold set_options. rewrite Ha. cbn [negb]. unfold parse_opts. destruct H as [->|((m & ->) & Hi & ->)]; [rewrite O; reflexivity|]. cbn [rbind].
    destruct (so_interval k) as [[v|x]|]; [|destruct (Hi x eq_refl)|]; cbn [rbind]; rewrite O; reflexivity.
  Qed.
  Example C77_bad_period_demo :
    parse_periods [[TTime 0; TTime 60]; [TTime 5]; []] = Err ValueError /\ parse_periods [[TTime 0; TTime 60]] = Ok [[TTime 0; TTime 60]] /\ parse_periods [[TTime 0; TStr (lit "noon")]; [TTime 5]] <> Err KeyError.
  Proof. split; [vm_compute; reflexivity|]. split; [vm_compute; reflexivity|]. vm_compute. discriminate. Qed.
End Periods.
Print Assumptions C77_bad_period.
Print Assumptions C77_bad_period_call.
