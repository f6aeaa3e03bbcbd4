(** Deliveries whose callbacks change only other classes, or only register (C76). *)
From Coq Require Import Permutation Sorted.
From Verif Require Import PyBase MBus SBus LSort LBus MEmit SEmit LEmit.
Open Scope Z_scope.

Section S.
  Context {K C E W V : Type} {HK : Eqb K} {HC : Eqb C} (inst : E -> K -> bool)
          (act : C -> E -> W -> list (bop K C) * W * res V).
  Notation bus := (bus K C).
  Notation est := (est K C W V).
  Implicit Types (b : bus) (x : est) (h : list (bop K C)) (k : K) (c : C) (ks : list K) (ops : list (bop K C)).

  Definition end_of (r : option exn) : eend := match r with None => EndDone | Some e => EndRaise e end.

  Lemma in_turn_app e (a b : list C) s :
    in_turn act e (a ++ b) s =
    match in_turn act e a s with
    | (d, vs, None, s') => let '(d2, vs2, r, s2) := in_turn act e b s' in (d ++ d2, vs ++ vs2, r, s2)
    | y => y
    end.
  Proof.
    revert s. induction a as [|c a IH]; intros s; cbn [app in_turn].
    - destruct (in_turn act e b s) as [[[d vs] r] s2]. reflexivity.
    - destruct (act c e s) as [[ops s'] [v|er]]; [|reflexivity]. rewrite IH.
      destruct (in_turn act e a s') as [[[d vs] [er|]] s2]; [reflexivity|].
      destruct (in_turn act e b s2) as [[[d2 vs2] r2] s3]. reflexivity.
  Qed.

  (** ** other classes only *)
  Section Elsewhere.
    Context (e : E) (ks0 : list K).
    Definition same b b' : Prop := dkeys b' = dkeys b /\ forall k, inst e k = true -> dget k b' = dget k b.
    Context (Hel : forall c s, Forall (elsewhere inst e ks0) (fst (fst (act c e s)))).

    Lemma same_ops ops : Forall (elsewhere inst e ks0) ops -> forall b, dkeys b = ks0 -> same b (fold_left b_step ops b).
    Proof.
      induction 1 as [|o ops Ho _ IH]; intros b Hb; [split; reflexivity|]. cbn [fold_left].
      assert (Ho' : same b (b_step b o)).
      { assert (Hkey : forall k, In k ks0 -> dmem k b = true) by (intros k Hk; apply dmem_In; rewrite Hb; exact Hk).
        destruct o as [k c p|k c]; destruct Ho as [Hk Hin]; cbn [b_step].
        - unfold register. split; [rewrite dkeys_dset, (Hkey k Hin); reflexivity|]. intros k' Hk'.
          apply dget_dset_other. intros ->. congruence.
        - unfold unregister. destruct (dget k b) as [subs|] eqn:Ek; [|split; reflexivity].
          split; [rewrite dkeys_dset, (Hkey k Hin); reflexivity|]. intros k' Hk'. apply dget_dset_other. intros ->. congruence. }
      destruct Ho' as [O1 O2]. destruct (IH (b_step b o)) as [I1 I2]; [congruence|].
      split; [congruence|]. intros k Hk. rewrite I2, O2 by exact Hk. reflexivity.
    Qed.

    (** from [x], calling exactly [cs] in turn, to [x'] *)
    Definition took x (cs : list C) x' (q : eend) : Prop :=
      same (e_bus x) (e_bus x') /\
      exists d vs r s2, in_turn act e cs (e_rest x) = (d, vs, r, s2) /\
        map snd (e_calls x') = map snd (e_calls x) ++ d /\ e_ret x' = e_ret x ++ vs /\ q = end_of r /\ e_rest x' = s2.

    Lemma took_nil x : took x [] x EndDone.
    Proof.
      split; [split; reflexivity|]. exists [], [], None, (e_rest x). rewrite !app_nil_r. repeat split; reflexivity.
    Qed.
    Lemma took_app x (a : list C) y (b : list C) x' q : took x a y EndDone -> took y b x' q -> took x (a ++ b) x' q.
    Proof.
      intros (A1 & d & vs & r & s2 & A2 & A3 & A4 & A5 & A6) (B1 & d' & vs' & r' & s2' & B2 & B3 & B4 & B5 & B6).
      split. { destruct A1 as [P1 P2], B1 as [Q1 Q2]. split; [congruence|]. intros k Hk. rewrite (Q2 k Hk). exact (P2 k Hk). }
      destruct r; [discriminate|]. exists (d ++ d'), (vs ++ vs'), r', s2'. rewrite in_turn_app, A2. rewrite A6 in B2. rewrite B2.
      split; [reflexivity|]. rewrite B3, A3, B4, A4, !app_assoc. repeat split; assumption.
    Qed.
    Lemma took_stop x (a : list C) y (b : list C) q : took x a y q -> q <> EndDone -> took x (a ++ b) y q.
    Proof.
      intros (A1 & d & vs & r & s2 & A2 & A3 & A4 & A5 & A6) Hq. split; [exact A1|]. exists d, vs, r, s2.
      rewrite in_turn_app, A2. destruct r as [er|]; [repeat split; assumption|]. exfalso. apply Hq. rewrite A5. reflexivity.
    Qed.

    Lemma now_same k p b b' : inst e k = true -> same b b' -> now_at k p b' = now_at k p b.
    Proof. intros Hk [_ Hs]. unfold now_at. rewrite (Hs k Hk). reflexivity. Qed.

    Lemma iter_list_took k p : inst e k = true -> forall fuel i x x' q, dkeys (e_bus x) = ks0 ->
      (length (skipn i (now_at k p (e_bus x))) <= fuel)%nat ->
      iter_list act fuel e k p i x = (x', q) -> took x (skipn i (now_at k p (e_bus x))) x' q.
    Proof.
      intros Hk. induction fuel as [|n IH]; intros i x x' q Hb Hl; cbn [iter_list];
        destruct (nth_error (now_at k p (e_bus x)) i) as [c|] eqn:En.
      - rewrite (skipn_nth _ _ _ En) in Hl. cbn [length] in Hl. lia.
      - intros Hx; injection Hx as <- <-. rewrite (skipn_nth_none _ _ En). apply took_nil.
      - rewrite (skipn_nth _ _ _ En) in *. cbn [length] in Hl.
        assert (Hone : forall y r, call1 act e c x = (y, r) -> took x [c] y (end_of r)).
        { unfold call1. pose proof (Hel c (e_rest x)) as He. unfold took. cbn [in_turn].
          destruct (act c e (e_rest x)) as [[ops s'] [v|er]]; cbn [fst] in He; intros y r Hy; injection Hy as <- <-;
            cbn [e_bus e_calls e_ret e_rest end_of]; (split; [apply same_ops; assumption|]).
          - exists [c], [v], None, s'. rewrite map_app. repeat split; reflexivity.
          - exists [c], [], (Some er), s'. rewrite map_app, app_nil_r. repeat split; reflexivity. }
        destruct (call1 act e c x) as [y [er|]] eqn:Ec; specialize (Hone _ _ eq_refl); cbn [end_of] in Hone.
        + intros Hx; injection Hx as <- <-. change (c :: skipn (S i) (now_at k p (e_bus x))) with ([c] ++ skipn (S i) (now_at k p (e_bus x))).
          apply took_stop; [exact Hone|discriminate].
        + intros Hx. pose proof (proj1 Hone) as Hs. change (c :: skipn (S i) (now_at k p (e_bus x))) with ([c] ++ skipn (S i) (now_at k p (e_bus x))).
          eapply took_app; [exact Hone|]. rewrite <- (now_same k p _ _ Hk Hs). apply IH; [destruct Hs; congruence| |exact Hx].
          rewrite (now_same k p _ _ Hk Hs). lia.
      - intros Hx; injection Hx as <- <-. rewrite (skipn_nth_none _ _ En). apply took_nil.
    Qed.

    Lemma iter_prios_took k fuel : inst e k = true -> forall ps x x' q, dkeys (e_bus x) = ks0 ->
      (length (flat_map (fun p => now_at k p (e_bus x)) ps) <= fuel)%nat ->
      iter_prios act fuel e k ps x = (x', q) -> took x (flat_map (fun p => now_at k p (e_bus x)) ps) x' q.
    Proof.
      intros Hk. induction ps as [|p ps IH]; intros x x' q Hb Hl; cbn [iter_prios flat_map].
      - intros Hx; injection Hx as <- <-. apply took_nil.
      - cbn [flat_map] in Hl. rewrite app_length in Hl. destruct (iter_list act fuel e k p 0 x) as [y r] eqn:Ey.
        apply iter_list_took in Ey; [|exact Hk|exact Hb|cbn [skipn]; lia]. cbn [skipn] in Ey.
        destruct r; try (intros Hx; injection Hx as <- <-; apply took_stop; [exact Ey|discriminate]).
        intros Hx. pose proof (proj1 Ey) as Hs. eapply took_app; [exact Ey|].
        assert (Heq : flat_map (fun p => now_at k p (e_bus x)) ps = flat_map (fun p => now_at k p (e_bus y)) ps).
        { rewrite !flat_map_concat_map. f_equal. apply map_ext. intros a. symmetry. apply now_same; assumption. }
        rewrite Heq in *. apply IH; [destruct Hs; congruence|lia|exact Hx].
    Qed.

    Lemma rest_same ks b b' : same b b' -> rest_calls inst e ks b' = rest_calls inst e ks b.
    Proof.
      intros Hs. unfold rest_calls. rewrite !flat_map_concat_map. f_equal. apply map_ext. intros k.
      destruct (inst e k) eqn:Ek; [|reflexivity]. unfold class_now, prios, now_at. rewrite (proj2 Hs k Ek). reflexivity.
    Qed.

    Lemma iter_classes_took fuel : forall ks x x' q, dkeys (e_bus x) = ks0 ->
      (length (rest_calls inst e ks (e_bus x)) <= fuel)%nat ->
      iter_classes inst act fuel e (length ks0) ks x = (x', q) -> took x (rest_calls inst e ks (e_bus x)) x' q.
    Proof.
      induction ks as [|k ks IH]; intros x x' q Hb Hl; cbn [iter_classes].
      - intros Hx; injection Hx as <- <-. apply took_nil.
      - assert (Hm : length (e_bus x) = length ks0) by (rewrite <- Hb; unfold dkeys; rewrite map_length; reflexivity).
        rewrite Hm, Nat.eqb_refl. cbn [negb]. unfold rest_calls in *. cbn [flat_map] in *. fold (rest_calls inst e ks (e_bus x)) in *.
        destruct (inst e k) eqn:Ek; [|cbn [app] in *; apply IH; [exact Hb|exact Hl]].
        fold (prios k (e_bus x)). rewrite app_length in Hl.
        destruct (iter_prios act fuel e k (prios k (e_bus x)) x) as [y r] eqn:Ey.
        apply iter_prios_took in Ey; [|exact Ek|exact Hb|unfold class_now in Hl; lia]. fold (class_now k (e_bus x)) in Ey.
        destruct r; try (intros Hx; injection Hx as <- <-; apply took_stop; [exact Ey|discriminate]).
        intros Hx. pose proof (proj1 Ey) as Hs. eapply took_app; [exact Ey|]. rewrite <- (rest_same ks _ _ Hs).
        apply IH; [destruct Hs; congruence| |exact Hx]. fold (rest_calls inst e ks (e_bus y)). rewrite (rest_same ks _ _ Hs). lia.
    Qed.
  End Elsewhere.

  Lemma emit_elsewhere fuel e h s x q :
    (forall c s, Forall (elsewhere inst e (dkeys (b_run h))) (fst (fst (act c e s)))) ->
    (length (calls inst e (b_run h)) <= fuel)%nat -> emit_live inst act fuel e (b_run h) s = (x, q) ->
    exists r, in_turn act e (calls inst e (b_run h)) s = (map snd (e_calls x), e_ret x, r, e_rest x) /\ q = end_of r.
  Proof.
    intros Hel Hf Hx. unfold emit_live in Hx. rewrite (calls_now inst e _ (run_nodup h)) in *.
    replace (length (b_run h)) with (length (dkeys (b_run h))) in Hx by (unfold dkeys; apply map_length).
    apply (iter_classes_took e _ Hel) in Hx; [|reflexivity|exact Hf]. destruct Hx as (_ & d & vs & r & s2 & A2 & A3 & A4 & A5 & A6).
    cbn [e_bus e_rest e_calls e_ret map app] in *. exists r. rewrite A3, A4, A6. split; [exact A2|exact A5].
  Qed.

  (** ** registering only *)
  Record grow b b' : Prop := {
    gr_prios : forall k, exists t, dkeys (dflt (dget k b') []) = dkeys (dflt (dget k b) []) ++ t;
    gr_at : forall k p, exists t, now_at k p b' = now_at k p b ++ t
  }.
  Lemma grow_refl b : grow b b.
  Proof. constructor; intros; exists []; rewrite app_nil_r; reflexivity. Qed.
  Lemma grow_trans b1 b2 b3 : grow b1 b2 -> grow b2 b3 -> grow b1 b3.
  Proof.
    intros [A1 A2] [B1 B2]. constructor.
    - intros k. destruct (A1 k) as [t Ht], (B1 k) as [u Hu]. exists (t ++ u). rewrite Hu, Ht, app_assoc. reflexivity.
    - intros k p. destruct (A2 k p) as [t Ht], (B2 k p) as [u Hu]. exists (t ++ u). rewrite Hu, Ht, app_assoc. reflexivity.
  Qed.
  Lemma grow_reg b k c p : grow b (register k c p b).
  Proof.
    unfold register. constructor.
    - intros k'. rewrite dget_dset. destruct (eqb_spec k' k) as [->|_]; [|exists []; rewrite app_nil_r; reflexivity].
      cbn [dflt]. rewrite dkeys_dset. destruct (dmem p (dflt (dget k b) [])); [exists []; rewrite app_nil_r|exists [p]]; reflexivity.
    - intros k' p'. unfold now_at. rewrite dget_dset. destruct (eqb_spec k' k) as [->|_]; [|exists []; rewrite app_nil_r; reflexivity].
      cbn [dflt]. rewrite dget_dset. destruct (eqb_spec p' p) as [->|_]; [exists [c]; reflexivity|exists []; rewrite app_nil_r; reflexivity].
  Qed.
  Lemma grow_ops ops : Forall is_reg ops -> forall b, grow b (fold_left b_step ops b).
  Proof.
    induction 1 as [|o ops Ho _ IH]; intros b; [apply grow_refl|]. cbn [fold_left].
    eapply grow_trans; [|apply IH]. destruct o as [k c p|k c]; [apply grow_reg|destruct Ho].
  Qed.

  Section Reg.
    Context (Hre : forall c e s, Forall is_reg (fst (fst (act c e s)))).

    Definition atleast x (l : list C) x' : Prop :=
      grow (e_bus x) (e_bus x') /\ exists done, e_calls x' = e_calls x ++ done /\ subseq l (map snd done).

    Lemma atleast_nil x : atleast x [] x.
    Proof. split; [apply grow_refl|]. exists []. rewrite app_nil_r. split; [reflexivity|constructor]. Qed.
    Lemma atleast_app x (l : list C) y l' x' t : atleast x l y -> atleast y l' x' -> subseq t l' -> atleast x (l ++ t) x'.
    Proof.
      intros (A1 & d & A2 & A3) (B1 & d' & B2 & B3) Hs. split; [eapply grow_trans; eassumption|].
      exists (d ++ d'). split; [rewrite B2, A2, app_assoc; reflexivity|]. rewrite map_app.
      apply subseq_app; [exact A3|]. eapply subseq_trans; eassumption.
    Qed.

    Lemma iter_list_atleast e k p : forall fuel i x x', iter_list act fuel e k p i x = (x', EndDone) ->
      atleast x (skipn i (now_at k p (e_bus x))) x'.
    Proof.
      induction fuel as [|n IH]; intros i x x'; cbn [iter_list];
        destruct (nth_error (now_at k p (e_bus x)) i) as [c|] eqn:En; try discriminate.
      - intros Hx; injection Hx as <-. rewrite (skipn_nth_none _ _ En). apply atleast_nil.
      - rewrite (skipn_nth _ _ _ En). destruct (call1 act e c x) as [y [er|]] eqn:Ec; [discriminate|]. intros Hx.
        assert (Hone : grow (e_bus x) (e_bus y) /\ e_calls y = e_calls x ++ [(e_bus x, c)]).
        { revert Ec. unfold call1. pose proof (Hre c e (e_rest x)) as He. destruct (act c e (e_rest x)) as [[ops s'] rv]. cbn [fst] in He.
          destruct rv; intros Hy; inversion Hy; subst; cbn [e_bus e_calls]. split; [apply grow_ops; exact He|reflexivity]. }
        destruct Hone as [Hg Hc]. change (c :: skipn (S i) (now_at k p (e_bus x))) with ([c] ++ skipn (S i) (now_at k p (e_bus x))).
        eapply atleast_app; [|apply IH; exact Hx|].
        + split; [exact Hg|]. exists [(e_bus x, c)]. split; [exact Hc|apply subseq_refl].
        + destruct (gr_at _ _ Hg k p) as [t Ht]. rewrite Ht, skipn_app.
          rewrite <- (app_nil_r (skipn (S i) (now_at k p (e_bus x)))) at 1. apply subseq_app; [apply subseq_refl|apply subseq_nil].
      - intros Hx; injection Hx as <-. rewrite (skipn_nth_none _ _ En). apply atleast_nil.
    Qed.
    Lemma now_grow k p b b' : grow b b' -> subseq (now_at k p b) (now_at k p b').
    Proof.
      intros Hg. destruct (gr_at _ _ Hg k p) as [t ->]. rewrite <- (app_nil_r (now_at k p b)) at 1.
      apply subseq_app; [apply subseq_refl|apply subseq_nil].
    Qed.
    Lemma iter_prios_atleast e k fuel : forall ps x x', iter_prios act fuel e k ps x = (x', EndDone) ->
      atleast x (flat_map (fun p => now_at k p (e_bus x)) ps) x'.
    Proof.
      induction ps as [|p ps IH]; intros x x'; cbn [iter_prios flat_map].
      - intros Hx; injection Hx as <-. apply atleast_nil.
      - destruct (iter_list act fuel e k p 0 x) as [y r] eqn:Ey. destruct r; try discriminate. intros Hx.
        apply iter_list_atleast in Ey. cbn [skipn] in Ey. eapply atleast_app; [exact Ey|apply IH; exact Hx|].
        apply subseq_flat_map. intros a _. apply now_grow, (proj1 Ey).
    Qed.
    Lemma class_grow k b b' : grow b b' -> subseq (class_now k b) (class_now k b').
    Proof.
      intros Hg. unfold class_now, prios. destruct (gr_prios _ _ Hg k) as [t ->].
      eapply subseq_trans; [apply subseq_flat_map_l, subseq_sort|]. apply subseq_flat_map. intros p _. apply now_grow, Hg.
    Qed.
    Lemma iter_classes_atleast e fuel m : forall ks x x', iter_classes inst act fuel e m ks x = (x', EndDone) ->
      atleast x (rest_calls inst e ks (e_bus x)) x'.
    Proof.
      induction ks as [|k ks IH]; intros x x'; cbn [iter_classes].
      - intros Hx; injection Hx as <-. apply atleast_nil.
      - destruct (negb (Nat.eqb (length (e_bus x)) m)); [discriminate|]. unfold rest_calls. cbn [flat_map].
        fold (rest_calls inst e ks (e_bus x)). destruct (inst e k) eqn:Ek; [|cbn [app]; apply IH].
        fold (prios k (e_bus x)). destruct (iter_prios act fuel e k (prios k (e_bus x)) x) as [y r] eqn:Ey.
        destruct r; try discriminate. intros Hx. apply iter_prios_atleast in Ey. fold (class_now k (e_bus x)) in Ey.
        eapply atleast_app; [exact Ey|apply IH; exact Hx|]. apply subseq_flat_map. intros k' _.
        destruct (inst e k'); [|constructor]. apply class_grow, (proj1 Ey).
    Qed.
    Lemma emit_reg fuel e h s x : emit_live inst act fuel e (b_run h) s = (x, EndDone) ->
      subseq (calls inst e (b_run h)) (map snd (e_calls x)).
    Proof.
      unfold emit_live. intros Hx. apply iter_classes_atleast in Hx. destruct Hx as (_ & d & A2 & A3).
      cbn [e_bus e_calls app] in *. rewrite (calls_now inst e _ (run_nodup h)), A2. exact A3.
    Qed.
  End Reg.
End S.
