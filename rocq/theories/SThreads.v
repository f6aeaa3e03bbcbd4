(** Specification of queues shared by threads (C63): linearizability (Herlihy and Wing)
    with respect to the priority queue of SQueue. *)
From Verif Require Import PyBase MQueue MThreads SQueue.

Section S.
  Context {I : Type}.

  (** a call put into the sequential order: (thread, number), method, answer *)
  Definition lcall := (nat * nat * qop I * qout I)%type.
  Definition lc_id (c : lcall) : nat * nat := fst (fst c).
  Definition lc_op (c : lcall) : qop I := snd (fst c).
  Definition lc_out (c : lcall) : qout I := snd c.

  Definition precedes {A} (a b : A) (l : list A) : Prop := exists l1 l2 l3, l = l1 ++ a :: l2 ++ b :: l3.

  (** [lin] is a sequential order of calls that explains the calls and returns [h] *)
  Definition explains (lin : list lcall) (h : list (tev I)) : Prop :=
    NoDup (map lc_id lin) /\
    (* a priority queue would give these answers *)
    (exists b, spec_run [] (map lc_op lin) (map lc_out lin) b) /\
    (* every call that returned is there, with its answer *)
    (forall t i out, In (ERet t i out) h -> exists o, In (EInv t i o) h /\ In (t, i, o, out) lin) /\
    (* every call there was made *)
    (forall t i o out, In (t, i, o, out) lin -> In (EInv t i o) h) /\
    (* a call that returned before another was made comes first *)
    (forall t i o out t' i' o' out', In (t, i, o, out) lin -> In (t', i', o', out') lin ->
       precedes (ERet t i out) (EInv t' i' o') h -> precedes (t, i, o, out) (t', i', o', out') lin).

  Definition linearizable (h : list (tev I)) : Prop := exists lin, explains lin h.
End S.
