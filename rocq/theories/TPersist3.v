(** C41, C42 and C45 where renaming does not replace a file (Windows). *)
From Verif Require Import PyBase PyStr MTime MOrder MAccount MGate MPersist SPersist LPersist TPersist.
Open Scope list_scope.
Open Scope Z_scope.

(** On either platform, a save that is not disturbed puts the orders in memory in the file of
    the day, leaves no temporary file, and acknowledges the order it was for. *)
Theorem C41_undisturbed :
  forall posix s w, NoDup (dkeys (ps_tmp s)) -> ps_pc s = PSave w -> exists n s', p_run posix (repeat LStep n) s = Some s' /\ ps_pc s' = PIdle /\
    (forall d, dget d (ps_data s') = if eqb d (ps_day s) then Some (FSnap (ps_mem s)) else dget d (ps_data s)) /\
    dget (ps_day s) (ps_tmp s') = None /\ ps_mem s' = ps_mem s /\
    ps_acked s' = ps_acked s ++ map (fun id => (ps_day s, ps_date s, id)) (of_why w).
Proof.
  intros posix s w N P.
  assert (A : ps_acked s ++ map (fun id => (ps_day s, ps_date s, id)) (of_why w) = match w with Some id => ps_acked s ++ [(ps_day s, ps_date s, id)] | None => ps_acked s end).
  { destruct w; [reflexivity|apply app_nil_r]. }
  destruct (posix || negb (dmem (ps_day s) (ps_data s))) eqn:B; [exists 4%nat|exists 6%nat].
  - eexists. split.
    { cbn [repeat p_run]. unfold p_step at 1. rewrite P. unfold p_step at 1. cbn [ps_pc p_set]. unfold p_step at 1. cbn [ps_pc p_set p_files ps_day ps_tmp ps_data].
      rewrite dget_dset_same, B. unfold p_step at 1. cbn [ps_pc p_set]. reflexivity. }
    cbn. split; [reflexivity|]. split; [intro d; exact (dget_dset d (ps_day s) (FSnap (ps_mem s)) (ps_data s))|]. split; [rewrite dget_dpop by (repeat apply NoDup_dset; exact N); rewrite eqb_refl; reflexivity|]. auto.
  - eexists. split.
    { cbn [repeat p_run]. unfold p_step at 1. rewrite P. unfold p_step at 1. cbn [ps_pc p_set]. unfold p_step at 1. cbn [ps_pc p_set p_files ps_day ps_tmp ps_data].
      rewrite dget_dset_same, B. unfold p_step at 1. cbn [ps_pc p_set p_files ps_day ps_tmp ps_data]. rewrite dget_dset_same.
      unfold p_step at 1. cbn [ps_pc p_set p_files ps_day ps_tmp ps_data]. unfold p_step at 1. cbn [ps_pc p_set]. reflexivity. }
    cbn. split; [reflexivity|]. split; [intro d; rewrite !dget_dset; cbn [eqb Eqb_Z]; destruct (d =? ps_day s); reflexivity|]. split; [rewrite dget_dpop by (repeat apply NoDup_dset; exact N); rewrite eqb_refl; reflexivity|]. auto.
Qed.
Print Assumptions C41_undisturbed.

(** The one weak point on Windows is the copy.  [calm l s]: step [l] is not an end of the
    process, nor an exception, during the copy, and removing the temporary file succeeds. *)
Definition calm_step (l : plab) (s : pst) : Prop :=
  match ps_pc s, l with PCopy _, (LKill | LFail) | PCopied _, LFail => False | _, _ => True end.
Inductive calm_reach : pst -> Prop :=
| cr_init d : calm_reach (p_init d)
| cr_step s l s' : calm_reach s -> calm_step l s -> p_step false l s = Some s' -> calm_reach s'.

(** seen as a state of the other platform: the copy has not begun, or is complete *)
Definition alike (s t : pst) : Prop :=
  ps_mem t = ps_mem s /\ ps_day t = ps_day s /\ ps_date t = ps_date s /\ ps_lines t = ps_lines s /\ ps_acked t = ps_acked s /\ ps_broken t = ps_broken s /\
  match ps_pc s with
  | PCopy w => ps_pc t = PDumped w /\ ps_data s = dset (ps_day s) FTorn (ps_data t) /\ dget (ps_day s) (ps_tmp t) = dget (ps_day s) (ps_tmp s) /\ (exists c, dget (ps_day s) (ps_tmp s) = Some c)
  | PCopied w => ps_pc t = PMoved w /\ ps_data t = ps_data s
  | PDumped w => ps_pc t = PDumped w /\ ps_data t = ps_data s /\ dget (ps_day s) (ps_tmp t) = dget (ps_day s) (ps_tmp s)
  | p => ps_pc t = p /\ ps_data t = ps_data s
  end.
Lemma dset_twice {K V} `{Eqb K} (k : K) (v w : V) d : dset k v (dset k w d) = dset k v d.
Proof. induction d as [|[k' v'] d IH]; cbn; [rewrite eqb_refl; reflexivity|]. destruct (eqb k k') eqn:E; cbn; rewrite E; [reflexivity|rewrite IH; reflexivity]. Qed.
Lemma alike_step l s s' t : alike s t -> calm_step l s -> p_step false l s = Some s' ->
  exists t', alike s' t' /\ (t' = t \/ p_step true l t = Some t').
Proof.
  intros (E1 & E2 & E3 & E4 & E5 & E6 & E7) C S. destruct s as [pc m day date data tmp ln ac br], t as [pc' m' day' date' data' tmp' ln' ac' br'].
  cbn in E1, E2, E3, E4, E5, E6. subst m' day' date' ln' ac' br'. unfold calm_step in C. cbn [ps_pc ps_day ps_tmp ps_data] in E7, C.
  destruct pc as [| |id i|id i|w|w|w|w|w|w], l as [oid oi|oo| | | | | |dd]; unfold p_step in S; cbn [ps_pc ps_day ps_date ps_tmp ps_data ps_mem] in S; try discriminate S; try contradiction.
  all: try (destruct (date <? dd) eqn:Q; [|discriminate S]).
  all: try (destruct (eqb (dkeys oo) (dkeys m)) eqn:Q; [|discriminate S]).
  all: try (destruct (dget day tmp) as [c|] eqn:Q; [|discriminate S]).
  all: try (destruct (negb (dmem day data)) eqn:Q2).
  all: injection S as <-.
  all: repeat match goal with H : _ /\ _ |- _ => destruct H end; subst.
  all: try (eexists; split; [|right; unfold p_step; cbn [ps_pc ps_day ps_date ps_tmp ps_data ps_mem orb]; rewrite ?Q, ?Q2; reflexivity]; unfold alike; cbn; rewrite ?Q; auto 20; fail).
  all: try (eexists; split; [|right; unfold p_step; cbn [ps_pc ps_day ps_date ps_tmp ps_data ps_mem orb]; rewrite ?Q, ?Q2; reflexivity]; unfold alike; cbn; rewrite ?dget_dset_same; auto 20; fail).
  all: try (eexists; split; [|right; unfold p_step; cbn [ps_pc ps_day ps_date ps_tmp ps_data ps_mem orb];
    match goal with H : dget _ _ = Some _ |- context [match dget _ _ with _ => _ end] => rewrite H end; cbn [orb]; reflexivity]; unfold alike; cbn; rewrite ?dset_twice; auto 20; fail).
  all: try (eexists; split; [|left; reflexivity]; unfold alike; cbn; eauto 20; fail).
  eexists; split; [|left; reflexivity]; unfold alike; cbn; repeat (split; [congruence|]); eauto.
Qed.
Lemma calm_alike s : calm_reach s -> exists t, p_reach true t /\ alike s t.
Proof.
  induction 1 as [d|s l s' R (t & T & A) C S].
  - exists (p_init d). split; [constructor|]. unfold alike. cbn. auto 20.
  - destruct (alike_step l s s' t A C S) as (t' & A' & [-> |E]); [eauto|]. exists t'. split; [|exact A']. eapply pr_step; eassumption.
Qed.

(** So on Windows too, as long as nothing goes wrong during a copy: outside the copies no save
    file is torn, and what order() acknowledged is known, now and after a restart. *)
Theorem C41_windows_partial :
  forall s d, calm_reach s -> intact (dget d (ps_data s)) \/ (exists w, ps_pc s = PCopy w) /\ d = ps_day s.
Proof.
  intros s d R. destruct (calm_alike s R) as (t & T & E1 & E2 & E3 & E4 & E5 & E6 & E7). pose proof (C41_never_torn_partial t d T) as I.
  destruct (ps_pc s) as [| |id i|id i|w|w|w|w|w|w] eqn:P; repeat match goal with H : _ /\ _ |- _ => destruct H end; try (left; congruence).
  destruct (eqb_spec d (ps_day s)) as [->|N]; [right; eauto|]. left. rewrite H0, dget_dset_other by exact N. exact I.
Qed.
Print Assumptions C41_windows_partial.
Theorem C42_windows_partial :
  forall s, calm_reach s ->
    (forall dt id, ps_pc s <> PDown -> acked s (ps_day s) dt id -> known s id) /\
    (forall s' dt id, p_step false LStart s = Some s' -> acked s (ps_date s) dt id -> known s' id) /\
    (forall id, known s id -> has_line s id) /\
    (forall id, has_line s id -> In id (ps_broken s) \/ (exists d dt, acked s d dt id) \/ In id (in_hand (ps_pc s))).
Proof.
  assert (Run : forall s dt id, calm_reach s -> ps_pc s <> PDown -> acked s (ps_day s) dt id -> known s id).
  { intros s dt id R N A. destruct (calm_alike s R) as (t & T & E1 & E2 & E3 & E4 & E5 & E6 & E7). unfold known. rewrite <- E1.
    apply (C42_acknowledged_running_partial t dt id T); [|unfold acked in *; rewrite E5, E2; exact A].
    destruct (ps_pc s); repeat match goal with H : _ /\ _ |- _ => destruct H end; congruence. }
  intros s R. split; [intros; eapply Run; eassumption|]. split; [|split].
  - intros s' dt id S A. assert (X : ps_day s' = ps_date s /\ ps_acked s' = ps_acked s /\ ps_pc s' = PIdle /\ ps_pc s = PDown).
    { unfold p_step in S. destruct (ps_pc s); try discriminate. injection S as <-. auto. }
    destruct X as (X1 & X2 & X3 & X4). apply (Run s' dt id); [|congruence|unfold acked in *; rewrite X1, X2; exact A].
    eapply cr_step; [exact R| |exact S]. unfold calm_step. rewrite X4. exact I.
  - intros id K. destruct (calm_alike s R) as (t & T & E1 & E2 & E3 & E4 & E5 & E6 & E7). unfold has_line, known in *. rewrite <- E4. apply (C42_recovered_submitted_partial t id T).
    unfold known. rewrite E1. exact K.
  - intros id K. destruct (calm_alike s R) as (t & T & E1 & E2 & E3 & E4 & E5 & E6 & E7).
    destruct (C42_lines_partial t id T) as [H|[H|H]]; [unfold has_line; rewrite E4; exact K|left; congruence|right; left; unfold acked in *; rewrite <- E5; exact H|right; right].
    destruct (ps_pc s); repeat match goal with H : _ /\ _ |- _ => destruct H end; match goal with P : ps_pc t = _ |- _ => rewrite P in H end; exact H.
Qed.
Print Assumptions C42_windows_partial.
(** Met: two orders on Windows, the second saved by a copy, then a kill and a restart. *)
Example C42_windows_demo :
  exists s, calm_reach s /\ ps_pc s = PIdle /\ acked s 5 5 (lit "a") /\ acked s 5 5 (lit "b") /\ dkeys (ps_mem s) = [lit "a"; lit "b"] /\
    intact (dget 5 (ps_data s)).
Proof.
  set (a := lit "a"). set (b := lit "b").
  assert (G : forall ls s s', calm_reach s -> p_run false ls s = Some s' -> (forall pre l post m, ls = pre ++ l :: post -> p_run false pre s = Some m -> calm_step l m) -> calm_reach s').
  { intro ls. induction ls as [|l ls IH]; intros s s' R E C; cbn [p_run] in E; [injection E as <-; exact R|].
    destruct (p_step false l s) as [s1|] eqn:S; [|discriminate]. apply (IH s1 s'); [|exact E|].
    - eapply cr_step; [exact R| |exact S]. apply (C [] l ls s eq_refl eq_refl).
    - intros pre k post m -> P. apply (C (l :: pre) k post m eq_refl). cbn [p_run]. rewrite S. exact P. }
  eexists. split; [|split; [|split; [|split; [|split]]]].
  - eapply (G ([LStart] ++ submit a (some_order a) ++ LOrder b (some_order b) :: repeat LStep 8 ++ [LKill; LStart]) (p_init 5)); [constructor|vm_compute; reflexivity|].
    intros pre l post m E P.
    assert (K : forall n, (n < 19)%nat -> match p_run false (firstn n ([LStart] ++ submit a (some_order a) ++ LOrder b (some_order b) :: repeat LStep 8 ++ [LKill; LStart])) (p_init 5), nth_error ([LStart] ++ submit a (some_order a) ++ LOrder b (some_order b) :: repeat LStep 8 ++ [LKill; LStart]) n with Some m, Some l => calm_step l m | _, _ => False end).
    { intros n Hn. do 19 (destruct n as [|n]; [vm_compute; exact I|]). lia. }
    specialize (K (length pre)). rewrite E, firstn_app, Nat.sub_diag, firstn_all, nth_error_app2, Nat.sub_diag in K by lia. cbn [firstn nth_error] in K. rewrite app_nil_r, P in K.
    apply K. apply (f_equal (@length _)) in E. rewrite (app_length pre) in E. change (19 = length pre + S (length post))%nat in E. lia.
  - reflexivity.
  - left. reflexivity.
  - right. left. reflexivity.
  - reflexivity.
  - discriminate.
Qed.
