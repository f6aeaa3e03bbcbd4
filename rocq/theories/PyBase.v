(** Python run-time notions shared by the whole model: exceptions as values,
    decidable equality, insertion-ordered dictionaries, stable sorting.
    Nothing here is jqtrade code; it models the language. *)
From Coq Require Export List Arith ZArith NArith Bool Lia.
Export ListNotations.

(** Exception classes that the modelled code can raise.
    [UserExn n] stands for any exception raised by user strategy code. *)
Inductive exn : Type :=
| ValueError | KeyError | TypeError | IndexError | AttributeError
| OSError | FileNotFoundError | NotSerializable
| InvalidParam | InvalidCall | TaskError | ConfigError | TimeOut | ParserError
| QueueEmptyError | AnXinDMAError | AccessDenied | NoSuchProcess
| UserExn (n : nat).

(** Result of a Python computation: a value or a raised exception. *)
Inductive res (A : Type) : Type :=
| Ok (a : A)
| Err (e : exn).
Arguments Ok {A} a.
Arguments Err {A} e.

Lemma Ok_inj {A} (a b : A) : Ok a = Ok b -> a = b.
Proof. congruence. Qed.

Definition rbind {A B} (x : res A) (f : A -> res B) : res B :=
  match x with Ok a => f a | Err e => Err e end.
Notation "'do' x <- e ; f" := (rbind e (fun x => f))
  (at level 200, x pattern, e at level 100, f at level 200).

Definition is_ok {A} (x : res A) : bool := match x with Ok _ => true | Err _ => false end.

(** Python [==] on the key types used. *)
Class Eqb (A : Type) := {
  eqb : A -> A -> bool;
  eqb_spec : forall x y, reflect (x = y) (eqb x y)
}.

Global Instance Eqb_nat : Eqb nat := {| eqb := Nat.eqb; eqb_spec := Nat.eqb_spec |}.
Global Instance Eqb_N : Eqb N := {| eqb := N.eqb; eqb_spec := N.eqb_spec |}.
Global Instance Eqb_Z : Eqb Z := {| eqb := Z.eqb; eqb_spec := Z.eqb_spec |}.

Fixpoint list_eqb {A} `{Eqb A} (x y : list A) : bool :=
  match x, y with
  | [], [] => true
  | a :: x', b :: y' => eqb a b && list_eqb x' y'
  | _, _ => false
  end.

Lemma list_eqb_spec {A} `{Eqb A} (x y : list A) : reflect (x = y) (list_eqb x y).
Proof.
  revert y; induction x as [|a x IH]; intros [|b y]; cbn [list_eqb].
  - constructor; reflexivity.
  - constructor; discriminate.
  - constructor; discriminate.
  - destruct (eqb_spec a b) as [->|Hab]; cbn [andb].
    + destruct (IH y) as [->|Hxy]; constructor; [reflexivity|congruence].
    + constructor; congruence.
Qed.

Global Instance Eqb_list {A} `{Eqb A} : Eqb (list A) :=
  {| eqb := list_eqb; eqb_spec := list_eqb_spec |}.

Definition option_eqb {A} `{Eqb A} (x y : option A) : bool :=
  match x, y with
  | None, None => true
  | Some a, Some b => eqb a b
  | _, _ => false
  end.

Lemma option_eqb_spec {A} `{Eqb A} (x y : option A) : reflect (x = y) (option_eqb x y).
Proof.
  destruct x as [a|], y as [b|]; cbn [option_eqb]; try (constructor; congruence).
  destruct (eqb_spec a b); constructor; congruence.
Qed.

Global Instance Eqb_option {A} `{Eqb A} : Eqb (option A) :=
  {| eqb := option_eqb; eqb_spec := option_eqb_spec |}.

Lemma eqb_refl {A} `{Eqb A} (x : A) : eqb x x = true.
Proof. destruct (eqb_spec x x); congruence. Qed.

Lemma eqb_true {A} `{Eqb A} (x y : A) : eqb x y = true <-> x = y.
Proof. destruct (eqb_spec x y); split; congruence. Qed.

Lemma eqb_false {A} `{Eqb A} (x y : A) : eqb x y = false <-> x <> y.
Proof. destruct (eqb_spec x y); split; congruence. Qed.

Definition memb {A} `{Eqb A} (x : A) (l : list A) : bool := existsb (eqb x) l.

Lemma memb_In {A} `{Eqb A} (x : A) l : memb x l = true <-> In x l.
Proof.
  unfold memb; rewrite existsb_exists; split.
  - intros (y & Hy & E); apply eqb_true in E; subst; exact Hy.
  - intros Hx; exists x; split; [exact Hx|apply eqb_refl].
Qed.

(** Python [dict]: an insertion-ordered association list.  Assigning to an
    existing key keeps its position (Python >= 3.6). *)
Section Dict.
  Context {K V : Type} `{Eqb K}.

  Definition dict := list (K * V).

  Fixpoint dget (k : K) (d : dict) : option V :=
    match d with
    | [] => None
    | (k', v) :: d' => if eqb k k' then Some v else dget k d'
    end.

  Fixpoint dset (k : K) (v : V) (d : dict) : dict :=
    match d with
    | [] => [(k, v)]
    | (k', v') :: d' => if eqb k k' then (k', v) :: d' else (k', v') :: dset k v d'
    end.

  Fixpoint dpop (k : K) (d : dict) : dict :=
    match d with
    | [] => []
    | (k', v') :: d' => if eqb k k' then d' else (k', v') :: dpop k d'
    end.

  Definition dmem (k : K) (d : dict) : bool :=
    match dget k d with Some _ => true | None => false end.

  Definition dkeys (d : dict) : list K := map fst d.
  Definition dvals (d : dict) : list V := map snd d.

  Lemma dget_dset_same k v d : dget k (dset k v d) = Some v.
  Proof.
    induction d as [|[k' v'] d IH]; cbn [dset dget].
    - rewrite eqb_refl; reflexivity.
    - destruct (eqb k k') eqn:E; cbn [dget]; rewrite E; [reflexivity|exact IH].
  Qed.

  Lemma dget_dset_other k k' v d : k <> k' -> dget k (dset k' v d) = dget k d.
  Proof.
    intros Hne; induction d as [|[k2 v2] d IH]; cbn [dset dget].
    - destruct (eqb_spec k k'); [contradiction|reflexivity].
    - destruct (eqb_spec k' k2) as [->|Hk2]; cbn [dget].
      + destruct (eqb_spec k k2); [contradiction|reflexivity].
      + destruct (eqb_spec k k2); [reflexivity|exact IH].
  Qed.

  Lemma dget_dset k k' v d :
    dget k (dset k' v d) = if eqb k k' then Some v else dget k d.
  Proof.
    destruct (eqb_spec k k') as [->|Hne]; [apply dget_dset_same|apply dget_dset_other; exact Hne].
  Qed.

  Lemma dkeys_dset k v d :
    dkeys (dset k v d) = if dmem k d then dkeys d else dkeys d ++ [k].
  Proof.
    unfold dkeys, dmem; induction d as [|[k' v'] d IH]; cbn [dset dget map fst]; [reflexivity|].
    destruct (eqb k k') eqn:E; cbn [map fst]; [reflexivity|].
    rewrite IH; destruct (dget k d); reflexivity.
  Qed.

  Lemma dget_In k v d : dget k d = Some v -> In (k, v) d.
  Proof.
    induction d as [|[k' v'] d IH]; cbn [dget]; [discriminate|].
    destruct (eqb_spec k k') as [->|Hne]; intros E.
    - left; congruence.
    - right; apply IH; exact E.
  Qed.

  Lemma dget_key k v d : dget k d = Some v -> In k (dkeys d).
  Proof. intros E; apply dget_In in E; apply (in_map fst) in E; exact E. Qed.

  Lemma dget_None k d : dget k d = None <-> ~ In k (dkeys d).
  Proof.
    induction d as [|[k' v'] d IH]; cbn [dget dkeys map fst]; [split; [intros _ []|reflexivity]|].
    destruct (eqb_spec k k') as [->|Hne].
    - split; [discriminate|intros Hn; exfalso; apply Hn; left; reflexivity].
    - rewrite IH; split; intros Hn Hin.
      + destruct Hin as [->|Hin]; [congruence|exact (Hn Hin)].
      + apply Hn; right; exact Hin.
  Qed.

  Lemma dmem_In k d : dmem k d = true <-> In k (dkeys d).
  Proof.
    unfold dmem; destruct (dget k d) as [v|] eqn:E.
    - split; [intros _; eapply dget_key; exact E|reflexivity].
    - apply dget_None in E; split; [discriminate|contradiction].
  Qed.

  Lemma NoDup_dset k v d : NoDup (dkeys d) -> NoDup (dkeys (dset k v d)).
  Proof.
    intros Hnd; rewrite dkeys_dset; destruct (dmem k d) eqn:E; [exact Hnd|].
    assert (Hk : ~ In k (dkeys d)) by (intros Hin; apply dmem_In in Hin; congruence).
    revert Hnd Hk; generalize (dkeys d) as l; clear.
    induction l as [|a l IH]; cbn [app]; intros Hnd Hk.
    - constructor; [intros []|constructor].
    - inversion Hnd as [|? ? Ha Hl]; subst; constructor.
      + rewrite in_app_iff; intros [Hin|[<-|[]]]; [exact (Ha Hin)|apply Hk; left; reflexivity].
      + apply IH; [exact Hl|intros Hin; apply Hk; right; exact Hin].
  Qed.

  Lemma In_dget k v d : NoDup (dkeys d) -> In (k, v) d -> dget k d = Some v.
  Proof.
    induction d as [|[k' v'] d IH]; cbn [dkeys map fst dget]; intros Hnd Hin; [destruct Hin|].
    inversion Hnd as [|? ? Ha Hl]; subst.
    destruct Hin as [E|Hin].
    - injection E as -> ->; rewrite eqb_refl; reflexivity.
    - destruct (eqb_spec k k') as [->|Hne].
      + exfalso; apply Ha; apply (in_map fst) in Hin; exact Hin.
      + apply IH; assumption.
  Qed.

  Lemma dget_dpop k k' d :
    NoDup (dkeys d) -> dget k (dpop k' d) = if eqb k k' then None else dget k d.
  Proof.
    induction d as [|[k2 v2] d IH]; cbn [dkeys map fst dpop dget]; intros Hnd.
    - destruct (eqb k k'); reflexivity.
    - inversion Hnd as [|? ? Ha Hl]; subst.
      destruct (eqb_spec k' k2) as [->|Hne]; cbn [dget].
      + destruct (eqb_spec k k2) as [->|Hk]; [|reflexivity].
        apply dget_None; exact Ha.
      + destruct (eqb_spec k k2) as [->|Hk].
        * destruct (eqb_spec k2 k'); [congruence|reflexivity].
        * apply IH; exact Hl.
  Qed.

End Dict.
Arguments dict K V : clear implicits.

(** Python [list.sort(key=...)] / [sorted]: stable sorting by an integer key.
    Modelled by insertion sort, which is stable. *)
Section Sort.
  Context {A : Type} (key : A -> Z).

  Fixpoint insert_by (x : A) (l : list A) : list A :=
    match l with
    | [] => [x]
    | y :: l' => if (key x <=? key y)%Z then x :: y :: l' else y :: insert_by x l'
    end.

  (* right fold: earlier elements are inserted last, hence stay in front of equal keys *)
  Fixpoint sort_by (l : list A) : list A :=
    match l with
    | [] => []
    | x :: l' => insert_by x (sort_by l')
    end.
End Sort.
