(** C70: a save file that could not be read. *)
From Verif Require Import PyBase PyStr MOrder MAccount MGate MPersist MPersist2 SPersist SPersist2 LPersist.
Open Scope list_scope.
Open Scope Z_scope.

(** ** what holds also with failing reads *)
Record qinv (s : pst) : Prop := {
  qi_intact : forall d, intact (dget d (ps_data s));
  qi_dumped : forall w, ps_pc s = PDumped w -> dget (ps_day s) (ps_tmp s) = Some (FSnap (ps_mem s));
  qi_nocopy : match ps_pc s with PCopy _ | PCopied _ => False | _ => True end;
  qi_line_mem : forall id, known s id -> has_line s id;
  qi_line_data : forall d o id, dget d (ps_data s) = Some (FSnap o) -> In id (dkeys o) -> has_line s id;
  qi_line_hand : match ps_pc s with PWritten id _ => has_line s id | _ => True end;
  qi_lines : forall id, has_line s id -> In id (ps_broken s) \/ (exists d dt, acked s d dt id) \/ In id (in_hand (ps_pc s))
}.
Lemma qinv_step s l s' : qinv s -> q_step true l s = Some s' -> qinv s'.
Proof.
  intros [I1 I2 I6 I7 I8 I9 I10] E. destruct l as [l| |]; cbn [q_step] in E; [unfold p_step in E| |].
  1: destruct l as [id i|o| | | | | |d].
  - destruct (ps_pc s) eqn:P; try discriminate. injection E as <-. constructor; popen; try rewrite P in *; try assumption; try discriminate; try tauto; try (intros ? []; fail).
    intros k H. specialize (I10 k H). cbn in I10. tauto.
  - destruct (ps_pc s) eqn:P; try discriminate. destruct (eqb (dkeys o) (dkeys (ps_mem s))) eqn:K; [|discriminate]. apply eqb_true in K. injection E as <-.
    constructor; popen; try rewrite P in *; try assumption; try discriminate; try tauto; try (intros ? []; fail); rewrite ?K; try assumption.
  - destruct (ps_pc s) as [| |id i|id i|w|w|w|w|w|w] eqn:P; try discriminate; try contradiction.
    + injection E as <-. constructor; popen; try rewrite P in *; try assumption; try discriminate; try tauto; try (intros ? []; fail); rewrite ?map_app; cbn [map snd].
      * intros k H. apply in_app_iff. left. apply I7, H.
      * intros d o k H1 H2. apply in_app_iff. left. eapply I8; eassumption.
      * apply in_app_iff. right. left. reflexivity.
      * intros k H. apply in_app_iff in H. destruct H as [H|[<-|[]]]; [|cbn; tauto]. specialize (I10 k H). cbn in *. tauto.
    + injection E as <-. constructor; popen; try rewrite P in *; try assumption; try discriminate; try tauto; try (intros ? []; fail).
      intros k H. apply keys_dset in H. destruct H as [->|H]; [exact I9|apply I7, H].
    + injection E as <-. constructor; popen; try rewrite P in *; try assumption; try discriminate; try tauto; try (intros ? []; fail).
    + injection E as <-. constructor; popen; try rewrite P in *; try assumption; try discriminate; try tauto; try (intros ? []; fail).
      intros _ _. apply dget_dset_same.
    + rewrite (I2 w eq_refl) in E. cbn [orb] in E. injection E as <-. constructor; popen; try rewrite P in *; try assumption; try discriminate; try tauto; try (intros ? []; fail).
      * intro d. rewrite dget_dset. destruct (eqb d (ps_day s)); [discriminate|apply I1].
      * intros d o k H. rewrite dget_dset in H. destruct (eqb d (ps_day s)); [|eapply I8; exact H]. injection H as <-. apply I7.
    + injection E as <-. constructor; popen; try rewrite P in *; try assumption; try discriminate; try tauto; try (intros ? []; fail).
      intros k H. specialize (I10 k H). cbn in *. destruct I10 as [A|[(d & dt & A)|A]]; [auto| |].
      * right. left. exists d, dt. destruct w; [apply in_app_iff|]; auto.
      * right. left. destruct w as [id|]; [|destruct A]. destruct A as [<-|[]]. exists (ps_day s), (ps_date s). apply in_app_iff. cbn. auto.
  - assert (E' : s' = p_set PIdle (p_break s)) by (destruct (ps_pc s); try discriminate; injection E as <-; reflexivity). subst s'. clear E.
    constructor; popen; try assumption; try discriminate; try tauto; try (intros ? []; fail).
    intros k H. specialize (I10 k H). rewrite in_app_iff. tauto.
  - assert (E' : s' = p_set PDown (p_mem [] (p_break s))) by (destruct (ps_pc s); try discriminate; injection E as <-; reflexivity). subst s'. clear E.
    constructor; popen; try assumption; try discriminate; try tauto; try (intros ? []; fail).
    intros k H. specialize (I10 k H). rewrite in_app_iff. tauto.
  - destruct (ps_pc s) eqn:P; try discriminate. injection E as <-. constructor; popen; try rewrite P in *; try assumption; try discriminate; try tauto; try (intros ? []; fail).
    intros k. unfold load_orders. destruct (dget (ps_date s) (ps_data s)) as [[o|]|] eqn:D; [|intros []|intros []]. apply (I8 _ _ _ D).
  - destruct (ps_pc s) eqn:P; try discriminate. injection E as <-. constructor; popen; try rewrite P in *; try assumption; try discriminate; try tauto; try (intros ? []; fail).
    intros k. unfold load_orders. destruct (dget (ps_date s) (ps_data s)) as [[o|]|] eqn:D; [|apply I7|apply I7]. apply (I8 _ _ _ D).
  - destruct (ps_date s <? d); [|discriminate].
    injection E as <-. constructor; popen; try assumption.
  - destruct (ps_pc s) eqn:P; try discriminate. injection E as <-. constructor; popen; try rewrite P in *; try assumption; try discriminate; try tauto; try (intros ? []; fail).
  - destruct (ps_pc s) eqn:P; try discriminate. injection E as <-. constructor; popen; try rewrite P in *; try assumption; try discriminate; try tauto; try (intros ? []; fail).
Qed.
Lemma qreach_inv s : q_reach true s -> qinv s.
Proof.
  induction 1 as [d|s l s' _ IH E]; [|eapply qinv_step; eassumption].
  destruct (pinv_init d). constructor; assumption.
Qed.
(** Proved on POSIX: with reads failing at any start, no save file is ever torn, every order
    known has its line, and a line that was neither acknowledged nor is being submitted
    belongs to a submission that failed or was killed. *)
Theorem C70_consistent_partial :
  forall s, q_reach true s ->
    (forall d, intact (dget d (ps_data s))) /\ (forall id, known s id -> has_line s id) /\
    (forall id, has_line s id -> In id (ps_broken s) \/ (exists d dt, acked s d dt id) \/ In id (in_hand (ps_pc s))).
Proof. intros s R. destruct (qreach_inv s R). auto. Qed.
Print Assumptions C70_consistent_partial.

(** ** the orders of the unreadable file *)

(** Proved: until the first save, the next start that can read the file recovers them. *)
Theorem C70_until_saved_partial :
  forall s s1 s2 s3 dt id, p_reach true s -> acked s (ps_date s) dt id ->
    q_step true QStartErr s = Some s1 -> unsaved s1 s2 -> ps_date s2 = ps_date s ->
    q_step true (QStep LStart) s2 = Some s3 -> known s3 id.
Proof.
  intros s s1 s2 s3 dt id R A E U D E3.
  assert (X : ps_data s1 = ps_data s /\ match ps_pc s1 with PCopy _ | PCopied _ => False | _ => True end).
  { cbn in E. destruct (ps_pc s); try discriminate. injection E as <-. cbn. auto. }
  destruct X as [X1 X2].
  assert (Y : ps_data s2 = ps_data s1).
  { clear -U X2. induction U as [s|s l s1 s2 N E U IH]; [reflexivity|].
    assert (Z : ps_data s1 = ps_data s /\ match ps_pc s1 with PCopy _ | PCopied _ => False | _ => True end).
    { unfold no_save in N. destruct l as [l| |]; cbn [q_step] in E; [unfold p_step in E| |]; [destruct l| |]; destruct (ps_pc s) eqn:P; try discriminate; try contradiction;
        try (destruct (ps_date s <? d); [|discriminate]); try (destruct (eqb _ _); [|discriminate]); injection E as <-; cbn; rewrite ?P; auto. }
    destruct Z as [Z1 Z2]. rewrite IH by exact Z2. exact Z1. }
  destruct (pi_acked s (preach_inv s R) (ps_date s) dt id A) as [(o & O1 & O2) _].
  cbn in E3. unfold p_step in E3. destruct (ps_pc s2); try discriminate. injection E3 as <-. unfold known. cbn [ps_mem]. unfold load_orders.
  rewrite D, Y, X1, O1. exact O2.
Qed.
Print Assumptions C70_until_saved_partial.

(** [order()] from beginning to end; the sync that Account.setup makes (account.py:107-113) *)
Definition q_submit (id : str) (i : oinfo) : list qlab := QStep (LOrder id i) :: repeat (QStep LStep) 6.
Definition q_sync (o : dict str oinfo) : list qlab := QStep (LSync o) :: repeat (QStep LStep) 4.
(** False after it, for every order: the sync at start-up already replaces the file by an
    empty one, and no later start finds the order. *)
Theorem C70_refuted :
  forall d id i, exists s,
    q_run true (QStep LStart :: q_submit id i ++ QStep LKill :: QStartErr :: q_sync [] ++ [QStep LKill; QStep LStart]) (p_init d) = Some s /\
    acked s d d id /\ ps_day s = d /\ dget d (ps_data s) = Some (FSnap []) /\ ~ known s id.
Proof.
  intros d id i. eexists. split.
  { cbn -[Z.ltb dset dpop dget dmem]. rewrite ?dget_dset_same. cbn -[Z.ltb dset dpop dget dmem]. rewrite ?dget_dset_same. cbn -[Z.ltb dset dpop dget dmem]. reflexivity. }
  unfold acked, known. cbn [ps_acked ps_day ps_data ps_mem]. split; [left; reflexivity|]. split; [reflexivity|]. unfold load_orders. rewrite dget_dset_same. split; [reflexivity|intros []].
Qed.
Print Assumptions C70_refuted.
Definition demo_order (id : str) : oinfo :=
  OInfo (lit "000001.XSHE") (PNum (lit "9.5")) 100 (lit "open") id (lit "new") (lit "limit") (lit "2024-01-02 09:30:00.000000") None None None None None None None None None.
(** an order is acknowledged, the next start cannot read the file, fails to submit another
    order and dies; the start after that knows the first *)
Example C70_demo :
  exists s s1 s2 s3,
    p_run true (LStart :: LOrder (lit "a") (demo_order (lit "a")) :: repeat LStep 6 ++ [LKill]) (p_init 5) = Some s /\
    acked s (ps_date s) 5 (lit "a") /\
    q_step true QStartErr s = Some s1 /\ unsaved s1 s2 /\ ps_date s2 = ps_date s /\
    map snd (ps_lines s2) = [lit "a"; lit "b"] /\
    q_step true (QStep LStart) s2 = Some s3 /\ dkeys (ps_mem s3) = [lit "a"].
Proof.
  eexists. eexists. eexists. eexists. split; [cbv; reflexivity|]. split; [left; reflexivity|]. split; [cbv; reflexivity|]. split.
  { apply un_step with (l := QStep (LOrder (lit "b") (demo_order (lit "b")))) (2 := eq_refl); [exact I|].
    apply un_step with (l := QStep LStep) (2 := eq_refl); [exact I|].
    apply un_step with (l := QStep LStep) (2 := eq_refl); [exact I|].
    apply un_step with (l := QStep LFail) (2 := eq_refl); [exact I|].
    apply un_step with (l := QStep LKill) (2 := eq_refl); [exact I|]. apply un_refl. }
  split; [reflexivity|]. split; [reflexivity|]. split; [cbv; reflexivity|]. reflexivity.
Qed.
