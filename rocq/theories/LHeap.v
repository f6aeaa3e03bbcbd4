(** Correctness of the [heapq] model: heap order and permutation. *)
From Coq Require Import Permutation.
From Verif Require Import PyBase PyHeap.

Section HeapProofs.
  Context {A : Type} (lt : A -> A -> bool).
  (** [le x y]: y is not strictly smaller than x *)
  Definition hle (x y : A) : Prop := lt y x = false.

  Hypothesis lt_asym : forall x y, lt x y = true -> lt y x = false.
  Hypothesis hle_trans : forall x y z, hle x y -> hle y z -> hle x z.

  Lemma hle_refl x : hle x x.
  Proof. unfold hle; destruct (lt x x) eqn:E; [rewrite (lt_asym _ _ E) in E; discriminate|reflexivity]. Qed.

  Implicit Types h : list A.

  Lemma length_upd (h : list A) i x : length (upd h i x) = length h.
  Proof. revert i; induction h as [|y h IH]; intros [|i]; cbn [upd length]; congruence. Qed.

  Lemma nth_upd h i j x d : i < length h -> nth j (upd h i x) d = if Nat.eqb i j then x else nth j h d.
  Proof.
    revert i j; induction h as [|y h IH]; intros i j Hi; cbn [length] in Hi; [lia|].
    destruct i as [|i], j as [|j]; cbn [upd nth Nat.eqb]; try reflexivity.
    apply IH; lia.
  Qed.

  Lemma nth_upd_eq h i x d : i < length h -> nth i (upd h i x) d = x.
  Proof. intros Hi; rewrite nth_upd by exact Hi; rewrite Nat.eqb_refl; reflexivity. Qed.

  Lemma nth_upd_neq h i j x d : i <> j -> nth j (upd h i x) d = nth j h d.
  Proof.
    revert i j; induction h as [|y h IH]; intros [|i] [|j] Hij; cbn [upd nth]; try reflexivity; try lia.
    apply IH; lia.
  Qed.

  Lemma upd_upd h i x y : upd (upd h i x) i y = upd h i y.
  Proof. revert i; induction h as [|z h IH]; intros [|i]; cbn [upd]; [reflexivity..|]; rewrite IH; reflexivity. Qed.

  Lemma upd_comm h i j x y : i <> j -> upd (upd h i x) j y = upd (upd h j y) i x.
  Proof.
    revert i j; induction h as [|z h IH]; intros [|i] [|j] Hij; cbn [upd]; try reflexivity; try lia.
    rewrite IH by lia; reflexivity.
  Qed.

  Lemma upd_self h i d : upd h i (nth i h d) = h.
  Proof. revert i; induction h as [|z h IH]; intros [|i]; cbn [upd nth]; [reflexivity..|]; rewrite IH; reflexivity. Qed.

  Lemma perm_upd h i x d : i < length h -> Permutation (nth i h d :: upd h i x) (x :: h).
  Proof.
    revert i; induction h as [|y h IH]; intros i Hi; cbn [length] in Hi; [lia|].
    destruct i as [|i]; cbn [upd nth].
    - apply perm_swap.
    - rewrite perm_swap, (IH i) by lia; apply perm_swap.
  Qed.

  (** moving element [j] into the hole [i] and putting the new item into hole [j] *)
  Lemma perm_hole h i j x d :
    i < length h -> j < length h -> i <> j ->
    Permutation (upd (upd h i (nth j h d)) j x) (upd h i x).
  Proof.
    intros Hi Hj Hij.
    set (g := upd h i x).
    assert (Hg : length g = length h) by apply length_upd.
    assert (E : upd (upd h i (nth j h d)) j x = upd (upd g j x) i (nth j g d)).
    { unfold g; rewrite (nth_upd_neq h i j x d Hij).
      rewrite (upd_comm h i j x x) by exact Hij.
      rewrite upd_upd; apply upd_comm; exact Hij. }
    rewrite E.
    assert (P1 : Permutation (nth j g d :: upd g j x) (x :: g)) by (apply perm_upd; lia).
    assert (P2 : Permutation (nth i (upd g j x) d :: upd (upd g j x) i (nth j g d)) (nth j g d :: upd g j x)).
    { apply perm_upd; rewrite length_upd; lia. }
    rewrite (nth_upd_neq g j i x d) in P2 by lia.
    unfold g in P2 at 1; rewrite nth_upd_eq in P2 by exact Hi.
    apply Permutation_cons_inv with (a := x).
    transitivity (nth j g d :: upd g j x); [exact P2|exact P1].
  Qed.

  Definition par (i : nat) : nat := Nat.div2 (i - 1).
  Lemma par_lt i : 0 < i -> par i < i.
  Proof. intros Hi; unfold par; pose proof (Nat.div2_decr (i - 1) (i - 1)); lia. Qed.
  Lemma par_child i p : 0 < i -> par i = p -> i = 2 * p + 1 \/ i = 2 * p + 2.
  Proof.
    unfold par; intros Hi <-.
    pose proof (Nat.div2_odd (i - 1)) as Hodd.
    destruct (Nat.odd (i - 1)); cbn [Nat.b2n] in Hodd; lia.
  Qed.
  Lemma par_l p : par (2 * p + 1) = p.
  Proof. unfold par. replace (2 * p + 1 - 1) with (2 * p) by lia. apply Nat.div2_double. Qed.
  Lemma par_r p : par (2 * p + 2) = p.
  Proof. unfold par. replace (2 * p + 2 - 1) with (S (2 * p)) by lia. apply Nat.div2_succ_double. Qed.

  (** heap order on a list *)
  Definition heap (d : A) (h : list A) : Prop :=
    forall i, 0 < i -> i < length h -> hle (nth (par i) h d) (nth i h d).

  (** heap order except possibly between [pos] and its parent *)
  Definition almost (d : A) (h : list A) (pos : nat) : Prop :=
    (forall i, 0 < i -> i < length h -> i <> pos -> hle (nth (par i) h d) (nth i h d)) /\
    (0 < pos -> forall c, 0 < c -> c < length h -> par c = pos ->
       hle (nth (par pos) h d) (nth c h d)).

  Lemma siftdown_ok d fuel : forall h pos new,
    pos < length h -> pos < fuel ->
    almost d (upd h pos new) pos ->
    heap d (siftdown lt fuel h pos new) /\
    Permutation (siftdown lt fuel h pos new) (upd h pos new).
  Proof.
    induction fuel as [|f IH]; intros h pos new Hpos Hfuel [Hal Hgr]; [lia|].
    cbn [siftdown].
    destruct (Nat.ltb_spec 0 pos) as [Hp|Hp].
    - fold (par pos). pose proof (par_lt pos Hp) as Hpp.
      destruct (lt new (nth (par pos) h new)) eqn:Elt.
      + set (parent := nth (par pos) h new) in *.
        set (h1 := upd h pos parent).
        assert (Hl1 : length h1 = length h) by apply length_upd.
        rewrite length_upd in Hal, Hgr.
        assert (Hnp : nth (par pos) h d = parent) by (unfold parent; apply nth_indep; lia).
        destruct (IH h1 (par pos) new) as [Hh Hperm]; [lia|lia| |].
        * unfold h1.
          split; rewrite !length_upd.
          -- intros i Hi Hil Hne.
             destruct (Nat.eq_dec i pos) as [->|Hip].
             ++ (* the old parent value under the new item *)
                rewrite nth_upd_eq by (rewrite length_upd; lia).
                rewrite (nth_upd_neq _ (par pos) pos) by lia.
                rewrite nth_upd_eq by lia.
                unfold hle; apply lt_asym; exact Elt.
             ++ destruct (Nat.eq_dec (par i) (par pos)) as [Epp|Epp].
                ** (* sibling of pos *)
                   rewrite Epp, nth_upd_eq by (rewrite length_upd; lia).
                   rewrite (nth_upd_neq _ (par pos) i) by lia.
                   rewrite (nth_upd_neq _ pos i) by lia.
                   specialize (Hal i Hi Hil Hip).
                   rewrite Epp, (nth_upd_neq _ pos (par pos)), (nth_upd_neq _ pos i) in Hal by lia.
                   rewrite Hnp in Hal.
                   eapply hle_trans; [|exact Hal]. unfold hle; apply lt_asym; exact Elt.
                ** destruct (Nat.eq_dec (par i) pos) as [Eip|Eip].
                   --- (* children of pos now hang under the old parent *)
                       rewrite Eip.
                       rewrite (nth_upd_neq _ (par pos) pos) by lia.
                       rewrite nth_upd_eq by lia.
                       rewrite (nth_upd_neq _ (par pos) i) by lia.
                       rewrite (nth_upd_neq _ pos i) by lia.
                       specialize (Hgr Hp i Hi Hil Eip).
                       rewrite (nth_upd_neq _ pos (par pos)), (nth_upd_neq _ pos i) in Hgr by lia.
                       rewrite Hnp in Hgr; exact Hgr.
                   --- pose proof (par_lt i Hi).
                       rewrite (nth_upd_neq _ (par pos) (par i)) by lia.
                       rewrite (nth_upd_neq _ pos (par i)) by lia.
                       rewrite (nth_upd_neq _ (par pos) i) by lia.
                       rewrite (nth_upd_neq _ pos i) by lia.
                       specialize (Hal i Hi Hil Hip).
                       rewrite (nth_upd_neq _ pos (par i)), (nth_upd_neq _ pos i) in Hal by lia.
                       exact Hal.
          -- intros Hp0 c Hc Hcl Epc.
             pose proof (par_lt (par pos) Hp0) as Hppp.
             rewrite (nth_upd_neq _ (par pos) (par (par pos))) by lia.
             rewrite (nth_upd_neq _ pos (par (par pos))) by lia.
             assert (Hpar : hle (nth (par (par pos)) h d) parent).
             { specialize (Hal (par pos) Hp0 ltac:(lia) ltac:(lia)).
               rewrite (nth_upd_neq _ pos (par (par pos))), (nth_upd_neq _ pos (par pos)) in Hal by lia.
               rewrite Hnp in Hal; exact Hal. }
             destruct (Nat.eq_dec c pos) as [->|Hcp].
             ++ rewrite (nth_upd_neq _ (par pos) pos) by lia.
                rewrite nth_upd_eq by lia. exact Hpar.
             ++ pose proof (par_lt c Hc).
                rewrite (nth_upd_neq _ (par pos) c) by lia.
                rewrite (nth_upd_neq _ pos c) by lia.
                specialize (Hal c Hc Hcl Hcp).
                rewrite Epc, (nth_upd_neq _ pos (par pos)), (nth_upd_neq _ pos c) in Hal by lia.
                rewrite Hnp in Hal.
                eapply hle_trans; [exact Hpar|exact Hal].
        * split; [exact Hh|].
          rewrite Hperm. unfold h1, parent. apply perm_hole; lia.
      + split; [|reflexivity].
        intros i Hi Hil.
        destruct (Nat.eq_dec i pos) as [->|Hip]; [|apply Hal; assumption].
        rewrite (nth_upd_neq _ pos (par pos)) by lia.
        rewrite nth_upd_eq by lia.
        unfold hle. rewrite (nth_indep h d new) by lia. exact Elt.
    - split; [|reflexivity].
      intros i Hi Hil. apply Hal; [assumption..|lia].
  Qed.

  Lemma heappush_ok d h x :
    heap d h -> heap d (heappush lt h x) /\ Permutation (heappush lt h x) (x :: h).
  Proof.
    intros Hh. unfold heappush.
    assert (Eu : upd (h ++ [x]) (length h) x = h ++ [x]).
    { clear; induction h as [|y h IH]; cbn [app upd length]; [reflexivity|rewrite IH; reflexivity]. }
    destruct (siftdown_ok d (S (length h)) (h ++ [x]) (length h) x) as [H1 H2].
    - rewrite app_length; cbn [length]; lia.
    - lia.
    - rewrite Eu; split; rewrite app_length; cbn [length].
      + intros i Hi Hil Hne. pose proof (par_lt i Hi).
        rewrite !app_nth1 by lia. apply Hh; lia.
      + intros Hp c Hc Hcl Hpc. pose proof (par_lt c Hc). lia.
    - split; [exact H1|]. rewrite H2, Eu. symmetry; apply Permutation_cons_append.
  Qed.

  (** invariant of the [_siftup] loop: heap order except around the hole [pos] *)
  Definition holed (d : A) (h : list A) (pos : nat) : Prop :=
    (forall i, 0 < i -> i < length h -> i <> pos -> par i <> pos -> hle (nth (par i) h d) (nth i h d)) /\
    (0 < pos -> forall c, 0 < c -> c < length h -> par c = pos ->
       hle (nth (par pos) h d) (nth c h d)).

  Lemma siftup_ok d fuel : forall h pos new,
    pos < length h -> length h <= fuel + pos ->
    holed d h pos ->
    heap d (siftup lt fuel h pos new) /\
    Permutation (siftup lt fuel h pos new) (upd h pos new).
  Proof.
    induction fuel as [|f IH]; intros h pos new Hpos Hfuel [Hal Hgr]; [lia|].
    cbn [siftup].
    destruct (Nat.ltb_spec (2 * pos + 1) (length h)) as [Hc|Hc].
    - set (c := if _ && _ then _ else _).
      assert (Hcase : (c = 2 * pos + 1 /\ (2 * pos + 2 < length h -> hle (nth (2 * pos + 1) h d) (nth (2 * pos + 2) h d)))
                   \/ (c = 2 * pos + 2 /\ 2 * pos + 2 < length h /\ hle (nth (2 * pos + 2) h d) (nth (2 * pos + 1) h d))).
      { unfold c. replace (2 * pos + 1 + 1) with (2 * pos + 2) by lia.
        destruct (Nat.ltb_spec (2 * pos + 2) (length h)) as [Hr|Hr]; cbn [andb].
        - rewrite (nth_indep h new d) by lia. rewrite (nth_indep h new d (n := 2*pos+2)) by lia.
          destruct (lt (nth (2 * pos + 1) h d) (nth (2 * pos + 2) h d)) eqn:E; cbn [negb].
          + left; split; [reflexivity|]. intros _; unfold hle; apply lt_asym; exact E.
          + right; split; [reflexivity|]. split; [exact Hr|]. exact E.
        - left; split; [reflexivity|lia]. }
      assert (Hcl : c < length h) by (destruct Hcase as [[-> _]|[-> [? _]]]; lia).
      assert (Hcp : par c = pos) by (destruct Hcase as [[-> _]|[-> _]]; [apply par_l|apply par_r]).
      assert (Hc0 : 0 < c) by (destruct Hcase as [[-> _]|[-> _]]; lia).
      assert (Hcge : pos < c) by (rewrite <- Hcp; apply par_lt; exact Hc0).
      assert (Hmin : forall k, 0 < k -> k < length h -> par k = pos -> hle (nth c h d) (nth k h d)).
      { intros k Hk Hkl Hkp. apply par_child in Hkp; [|exact Hk].
        destruct Hcase as [[-> Hle]|[-> [Hr Hle]]]; destruct Hkp as [->| ->]; auto using hle_refl. }
      clearbody c. clear Hcase.
      rewrite (nth_indep h new d) by lia.
      set (h1 := upd h pos (nth c h d)).
      assert (Hl1 : length h1 = length h) by apply length_upd.
      destruct (IH h1 c new) as [H1 H2]; [lia|lia| |].
      + split; rewrite Hl1.
        * intros i Hi Hil Hic Hpc. pose proof (par_lt i Hi).
          unfold h1.
          destruct (Nat.eq_dec i pos) as [->|Hip].
          -- rewrite (nth_upd_neq _ pos (par pos)) by lia. rewrite nth_upd_eq by lia.
             apply Hgr; assumption.
          -- rewrite (nth_upd_neq _ pos i) by lia.
             destruct (Nat.eq_dec (par i) pos) as [Epi|Epi].
             ++ rewrite Epi, nth_upd_eq by lia. apply Hmin; assumption.
             ++ rewrite (nth_upd_neq _ pos (par i)) by lia. apply Hal; assumption.
        * intros _ k Hk Hkl Hkc. pose proof (par_lt k Hk).
          unfold h1. rewrite Hcp, nth_upd_eq by lia.
          rewrite (nth_upd_neq _ pos k) by lia.
          rewrite <- Hkc. apply Hal; try assumption; lia.
      + split; [exact H1|]. rewrite H2. unfold h1. apply perm_hole; lia.
    - (* leaf *)
      destruct (siftdown_ok d (length h) (upd h pos new) pos new) as [H1 H2].
      + rewrite length_upd; exact Hpos.
      + exact Hpos.
      + rewrite upd_upd. split; rewrite length_upd.
        * intros i Hi Hil Hip. pose proof (par_lt i Hi).
          destruct (Nat.eq_dec (par i) pos) as [Epi|Epi].
          -- exfalso. apply par_child in Epi; [|exact Hi]. lia.
          -- rewrite !nth_upd_neq by lia. apply Hal; assumption.
        * intros Hp k Hk Hkl Hkp. exfalso. apply par_child in Hkp; [|exact Hk]. lia.
      + rewrite upd_upd in H2. split; [exact H1|exact H2].
  Qed.

  Lemma heappop_none h : heappop lt h = None <-> h = [].
  Proof.
    unfold heappop. destruct (rev h) as [|l r] eqn:E.
    - split; [intros _|reflexivity].
      apply (f_equal (@rev A)) in E. rewrite rev_involutive in E. exact E.
    - split; [destruct (rev r); discriminate|intros ->; discriminate].
  Qed.

  Lemma heap_root d h : heap d h -> forall i, i < length h -> hle (nth 0 h d) (nth i h d).
  Proof.
    intros Hh i. induction i as [i IH] using lt_wf_ind. intros Hi.
    destruct (Nat.eq_dec i 0) as [->|H0]; [apply hle_refl|].
    eapply hle_trans; [|apply Hh; lia].
    apply IH; [apply par_lt; lia|]. pose proof (par_lt i). lia.
  Qed.

  Lemma heappop_ok d h x h' :
    heap d h -> heappop lt h = Some (x, h') ->
    heap d h' /\ Permutation (x :: h') h /\ nth_error h 0 = Some x /\ (forall y, In y h -> hle x y).
  Proof.
    intros Hh Hpop. unfold heappop in Hpop.
    destruct (rev h) as [|lst r] eqn:E; [discriminate|].
    assert (Eh : h = rev r ++ [lst]).
    { apply (f_equal (@rev A)) in E. rewrite rev_involutive in E. rewrite E. reflexivity. }
    destruct (rev r) as [|top t] eqn:Er.
    - injection Hpop as <- <-. subst h. cbn [app].
      repeat split; [intros i ? Hi; cbn [length] in Hi; lia|reflexivity|].
      intros y [<-|[]]. apply hle_refl.
    - injection Hpop as <- <-.
      assert (Eh2 : h = top :: (t ++ [lst])) by exact Eh.
      assert (Hmin : forall y, In y h -> hle top y).
      { intros y Hy. destruct (In_nth h y d Hy) as (i & Hi & <-).
        pose proof (heap_root d h Hh i Hi) as Hr. rewrite Eh2 in Hr at 1. exact Hr. }
      destruct (siftup_ok d (length h) (lst :: t) 0 lst) as [H1 H2].
      + cbn [length]; lia.
      + subst h; cbn [length]; rewrite app_length; cbn [length]; lia.
      + split; [|lia].
        intros i Hi Hil Hi0 Hpi. pose proof (par_lt i Hi) as Hpl.
        cbn [length] in Hil.
        specialize (Hh i Hi ltac:(rewrite Eh2; cbn [length]; rewrite app_length; cbn [length]; lia)).
        rewrite Eh2 in Hh.
        destruct i as [|i]; [lia|]. destruct (par (S i)) as [|p] eqn:Ep; [lia|].
        cbn [nth] in Hh |- *.
        rewrite !app_nth1 in Hh by lia. exact Hh.
      + cbn [upd] in H2.
        repeat split; [exact H1| | |exact Hmin].
        * rewrite H2, Eh2. apply perm_skip, Permutation_cons_append.
        * rewrite Eh2; reflexivity.
  Qed.

End HeapProofs.
