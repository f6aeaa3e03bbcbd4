(** Lemmas for C41, C42 and C45. *)
From Verif Require Import PyBase PyStr MOrder MAccount MGate MPersist SPersist.
Open Scope list_scope.
Open Scope Z_scope.

Record pinv (s : pst) : Prop := {
  pi_intact : forall d, intact (dget d (ps_data s));
  pi_dumped : forall w, ps_pc s = PDumped w -> dget (ps_day s) (ps_tmp s) = Some (FSnap (ps_mem s));
  pi_acked : forall d dt id, acked s d dt id -> (exists o, dget d (ps_data s) = Some (FSnap o) /\ In id (dkeys o)) /\ (ps_pc s <> PDown -> ps_day s = d -> known s id);
  pi_moved : forall w, ps_pc s = PMoved w -> dget (ps_day s) (ps_data s) = Some (FSnap (ps_mem s));
  pi_hand : forall id, In id (in_hand (ps_pc s)) -> match ps_pc s with PSubmit _ _ | PWritten _ _ => True | _ => known s id end;
  pi_nocopy : match ps_pc s with PCopy _ | PCopied _ => False | _ => True end;
  pi_line_mem : forall id, known s id -> has_line s id;
  pi_line_data : forall d o id, dget d (ps_data s) = Some (FSnap o) -> In id (dkeys o) -> has_line s id;
  pi_line_hand : match ps_pc s with PWritten id _ => has_line s id | _ => True end;
  pi_lines : forall id, has_line s id -> In id (ps_broken s) \/ (exists d dt, acked s d dt id) \/ In id (in_hand (ps_pc s))
}.

Lemma pinv_init d : pinv (p_init d).
Proof.
  constructor; cbn; unfold intact, acked, known, has_line; cbn; try discriminate; try tauto; try (intros ? []; fail).
Qed.

Lemma keys_dset (id k : str) (i : oinfo) m : In k (dkeys (dset id i m)) <-> k = id \/ In k (dkeys m).
Proof.
  rewrite dkeys_dset. destruct (dmem id m) eqn:E.
  - apply dmem_In in E. split; [auto|]. intros [->|H]; assumption.
  - rewrite in_app_iff. cbn. split; [intros [H|[H|[]]]; auto|intros [->|H]; auto].
Qed.

Ltac popen := unfold known, has_line, acked, intact in *; cbn [p_set p_mem p_files p_line p_ack p_break ps_pc ps_mem ps_day ps_date ps_data ps_tmp ps_lines ps_acked ps_broken in_hand of_why] in *.
Lemma pinv_step s l s' : pinv s -> p_step true l s = Some s' -> pinv s'.
Proof.
  intros [I1 I2 I3 I4 I5 I6 I7 I8 I9 I10] E. unfold p_step in E.
  destruct l as [id i|o| | | | | |d].
  - (* order *) destruct (ps_pc s) eqn:P; try discriminate. injection E as <-. constructor; popen; try rewrite P in *; try assumption; try discriminate; try tauto; try (intros ? []; fail).
    + intros d dt k H. destruct (I3 d dt k H) as [A B]. split; [exact A|]. intros _. apply B. discriminate.
    + intros k H. specialize (I10 k H). cbn in I10. tauto.
  - (* sync *) destruct (ps_pc s) eqn:P; try discriminate. destruct (eqb (dkeys o) (dkeys (ps_mem s))) eqn:K; [|discriminate]. apply eqb_true in K. injection E as <-.
    constructor; popen; try rewrite P in *; try assumption; try discriminate; try tauto; try (intros ? []; fail); rewrite ?K; try assumption.
    intros d dt k H. destruct (I3 d dt k H) as [A B]. split; [exact A|]. intros _. apply B. discriminate.
  - (* step *) destruct (ps_pc s) as [| |id i|id i|w|w|w|w|w|w] eqn:P; try discriminate; try contradiction.
    + injection E as <-. constructor; popen; try rewrite P in *; try assumption; try discriminate; try tauto; try (intros ? []; fail); rewrite ?map_app; cbn [map snd].
      * intros d dt k H. destruct (I3 d dt k H) as [A B]. split; [exact A|]. intros _. apply B. discriminate.
      * intros k H. apply in_app_iff. left. apply I7, H.
      * intros d o k H1 H2. apply in_app_iff. left. eapply I8; eassumption.
      * apply in_app_iff. right. left. reflexivity.
      * intros k H. apply in_app_iff in H. destruct H as [H|[<-|[]]]; [|cbn; tauto]. specialize (I10 k H). cbn in *. tauto.
    + injection E as <-. constructor; popen; try rewrite P in *; try assumption; try discriminate; try tauto; try (intros ? []; fail).
      * intros d dt k H. destruct (I3 d dt k H) as [A B]. split; [exact A|]. intros _ E. apply keys_dset. right. apply B; [discriminate|exact E].
      * intros k [<-|[]]. apply keys_dset. auto.
      * intros k H. apply keys_dset in H. destruct H as [->|H]; [exact I9|apply I7, H].
    + injection E as <-. constructor; popen; try rewrite P in *; try assumption; try discriminate; try tauto; try (intros ? []; fail).
      intros d dt k H. destruct (I3 d dt k H) as [A B]. split; [exact A|]. intros _. apply B. discriminate.
    + injection E as <-. constructor; popen; try rewrite P in *; try assumption; try discriminate; try tauto; try (intros ? []; fail).
      * intros _ _. apply dget_dset_same.
      * intros d dt k H. destruct (I3 d dt k H) as [A B]. split; [exact A|]. intros _. apply B. discriminate.
    + rewrite (I2 w eq_refl) in E. cbn [orb] in E. injection E as <-. constructor; popen; try rewrite P in *; try assumption; try discriminate; try tauto; try (intros ? []; fail).
      * intro d. rewrite dget_dset. destruct (eqb d (ps_day s)); [discriminate|apply I1].
      * intros d dt k H. destruct (I3 d dt k H) as [A B]. split; [|intros _; apply B; discriminate].
        rewrite dget_dset. destruct (eqb_spec d (ps_day s)) as [->|N]; [|exact A]. exists (ps_mem s). split; [reflexivity|]. apply B; [discriminate|reflexivity].
      * intros _ _. apply dget_dset_same.
      * intros d o k H. rewrite dget_dset in H. destruct (eqb d (ps_day s)); [|eapply I8; exact H]. injection H as <-. apply I7.
    + injection E as <-. assert (M := I4 w eq_refl). constructor; popen; try rewrite P in *; try assumption; try discriminate; try tauto; try (intros ? []; fail).
      * intros d dt k H.
        assert (H' : In (d, dt, k) (ps_acked s) \/ (w = Some k /\ d = ps_day s)).
        { destruct w as [id|]; [|auto]. apply in_app_iff in H. destruct H as [H|[H|[]]]; [auto|]. injection H as <- _ <-. auto. }
        destruct H' as [H'|[-> ->]].
        -- destruct (I3 d dt k H') as [A B]. split; [exact A|]. intros _. apply B. discriminate.
        -- specialize (I5 k (or_introl eq_refl)). cbn in I5. split; [exists (ps_mem s); auto|auto].
      * intros k H. specialize (I10 k H). cbn in *. destruct I10 as [A|[(d & dt & A)|A]]; [auto| |].
        -- right. left. exists d, dt. destruct w; [apply in_app_iff|]; auto.
        -- right. left. destruct w as [id|]; [|destruct A]. destruct A as [<-|[]]. exists (ps_day s), (ps_date s). apply in_app_iff. cbn. auto.
  - (* fail *) assert (N : ps_pc s <> PDown) by (intro X; rewrite X in E; discriminate).
    assert (E' : s' = p_set PIdle (p_break s)) by (destruct (ps_pc s); try discriminate; injection E as <-; reflexivity). subst s'. clear E.
    constructor; popen; try assumption; try discriminate; try tauto; try (intros ? []; fail).
    + intros d dt k H. destruct (I3 d dt k H) as [A B]. split; [exact A|]. intros _. apply B, N.
    + intros k H. specialize (I10 k H). rewrite in_app_iff. tauto.
  - (* kill *) assert (E' : s' = p_set PDown (p_mem [] (p_break s))) by (destruct (ps_pc s); try discriminate; injection E as <-; reflexivity). subst s'. clear E.
    constructor; popen; try assumption; try discriminate; try tauto; try (intros ? []; fail).
    + intros d dt k H. destruct (I3 d dt k H) as [A B]. split; [exact A|]. intro X. contradiction.

    + intros k H. specialize (I10 k H). rewrite in_app_iff. tauto.
  - (* start *) destruct (ps_pc s) eqn:P; try discriminate. injection E as <-. constructor; popen; try rewrite P in *; try assumption; try discriminate; try tauto; try (intros ? []; fail).
    + intros d dt k H. destruct (I3 d dt k H) as [A B]. split; [exact A|]. intros _ <-. destruct A as (o & E1 & E2). unfold load_orders. rewrite E1. exact E2.
    + intros k. unfold load_orders. destruct (dget (ps_date s) (ps_data s)) as [[o|]|] eqn:D; [|intros []|intros []]. apply (I8 _ _ _ D).
  - (* setup *) destruct (ps_pc s) eqn:P; try discriminate. injection E as <-. constructor; popen; try rewrite P in *; try assumption; try discriminate; try tauto; try (intros ? []; fail).
    + intros d dt k H. destruct (I3 d dt k H) as [A B]. split; [exact A|]. intros _ <-. destruct A as (o & E1 & E2). unfold load_orders. rewrite E1. exact E2.
    + intros k. unfold load_orders. destruct (dget (ps_date s) (ps_data s)) as [[o|]|] eqn:D; [|apply I7|apply I7]. apply (I8 _ _ _ D).
  - (* day *) destruct (ps_date s <? d); [|discriminate].
    injection E as <-. constructor; popen; try assumption.
Qed.
Lemma preach_inv s : p_reach true s -> pinv s.
Proof. induction 1 as [d|s l s' _ IH E]; [apply pinv_init|]. eapply pinv_step; eassumption. Qed.
