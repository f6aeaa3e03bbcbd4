(** Stable sort: permutation, order, stability. *)
From Coq Require Import Permutation Sorted.
From Verif Require Import PyBase.

Section S.
  Context {A : Type} (key : A -> Z).
  Definition kle (x y : A) : Prop := (key x <= key y)%Z.

  Lemma insert_perm x l : Permutation (insert_by key x l) (x :: l).
  Proof.
    induction l as [|y l IH]; cbn [insert_by]; [reflexivity|].
    destruct (key x <=? key y)%Z; [reflexivity|]. rewrite IH. apply perm_swap.
  Qed.
  Lemma sort_perm l : Permutation (sort_by key l) l.
  Proof. induction l as [|x l IH]; cbn [sort_by]; [reflexivity|]. rewrite insert_perm, IH. reflexivity. Qed.

  Lemma insert_sorted x l : StronglySorted kle l -> StronglySorted kle (insert_by key x l).
  Proof.
    induction l as [|y l IH]; cbn [insert_by]; intros Hs; [repeat constructor|].
    inversion Hs as [|? ? Hl Hy]; subst.
    destruct (Z.leb_spec (key x) (key y)) as [Hle|Hgt].
    - constructor; [exact Hs|]. constructor; [exact Hle|].
      eapply Forall_impl; [|exact Hy]. unfold kle; intros z Hz; lia.
    - constructor; [apply IH; exact Hl|].
      apply Forall_forall. intros z Hz. rewrite insert_perm in Hz. destruct Hz as [<-|Hz].
      + unfold kle; lia.
      + rewrite Forall_forall in Hy. apply Hy; exact Hz.
  Qed.
  Lemma sort_sorted l : StronglySorted kle (sort_by key l).
  Proof. induction l as [|x l IH]; cbn [sort_by]; [constructor|]. apply insert_sorted; exact IH. Qed.

  Lemma insert_filter t x l : StronglySorted kle l ->
    filter (fun y => Z.eqb (key y) t) (insert_by key x l) =
    filter (fun y => Z.eqb (key y) t) (x :: l).
  Proof.
    induction l as [|y l IH]; cbn [insert_by]; intros Hs; [reflexivity|].
    inversion Hs as [|? ? Hl Hy]; subst.
    destruct (Z.leb_spec (key x) (key y)) as [Hle|Hgt]; [reflexivity|].
    cbn [filter]. rewrite IH by exact Hl. cbn [filter].
    destruct (Z.eqb_spec (key x) t); destruct (Z.eqb_spec (key y) t); try reflexivity. lia.
  Qed.
  Lemma sort_stable t l :
    filter (fun y => Z.eqb (key y) t) (sort_by key l) = filter (fun y => Z.eqb (key y) t) l.
  Proof.
    induction l as [|x l IH]; cbn [sort_by]; [reflexivity|].
    rewrite insert_filter by apply sort_sorted. cbn [filter]. rewrite IH. reflexivity.
  Qed.

  Lemma sort_nil l : sort_by key l = [] <-> l = [].
  Proof.
    split; [|intros ->; reflexivity]. intros E. pose proof (sort_perm l) as P. rewrite E in P.
    apply Permutation_nil; exact P.
  Qed.
  Lemma sort_length l : length (sort_by key l) = length l.
  Proof. apply Permutation_length, sort_perm. Qed.
End S.
