(** Specification of the event bus (C18): the live registrations, as one list in
    registration order, and what a delivery looks like. *)
From Coq Require Import Permutation Sorted.
From Verif Require Import PyBase MBus.
Open Scope Z_scope.

Section S.
  Context {K C E : Type} `{Eqb K} `{Eqb C}.

  Record entry := En { en_cls : K; en_prio : Z; en_cb : C }.

  Definition same_reg (k : K) (c : C) (x : entry) : bool := eqb k (en_cls x) && eqb c (en_cb x).

  (** drop the oldest registration of [c] for [k] in every priority *)
  Fixpoint drop_oldest (k : K) (c : C) (seen : list Z) (l : list entry) : list entry :=
    match l with
    | [] => []
    | x :: l' =>
        if same_reg k c x && negb (memb (en_prio x) seen)
        then drop_oldest k c (en_prio x :: seen) l'
        else x :: drop_oldest k c seen l'
    end.

  Definition live_step (l : list entry) (o : bop K C) : list entry :=
    match o with
    | Reg k c p => l ++ [En k p c]
    | Unreg k c => drop_oldest k c [] l
    end.
  Definition live (ops : list (bop K C)) : list entry := fold_left live_step ops [].

  (** [r] delivers the registrations [l]: each once, higher priority first,
      registration order within a priority *)
  Definition delivers (l : list entry) (r : list C) : Prop :=
    exists L : list entry, r = map en_cb L /\ Permutation L l /\
      StronglySorted (fun a b => en_prio b <= en_prio a) L /\
      forall p, filter (fun x => Z.eqb (en_prio x) p) L = filter (fun x => Z.eqb (en_prio x) p) l.

  Definition of_class (k : K) (l : list entry) : list entry := filter (fun x => eqb k (en_cls x)) l.

  (** classes in the order of their first registration *)
  Fixpoint classes (ops : list (bop K C)) (seen : list K) : list K :=
    match ops with
    | [] => []
    | Reg k _ _ :: ops' => if memb k seen then classes ops' seen else k :: classes ops' (k :: seen)
    | Unreg _ _ :: ops' => classes ops' seen
    end.
End S.
Arguments entry : clear implicits.
