(** Specification of one delivery (C76). *)
From Verif Require Import PyBase MBus SBus.
Open Scope Z_scope.

(** [a] is [b] with some elements left out *)
Inductive subseq {A} : list A -> list A -> Prop :=
| ss_nil : subseq [] []
| ss_skip x a b : subseq a b -> subseq a (x :: b)
| ss_keep x a b : subseq a b -> subseq (x :: a) (x :: b).

Section S.
  Context {K C E W V : Type} `{Eqb K} `{Eqb C}.

  (** the callbacks [cs] called one after the other, up to the first exception;
      result: the callbacks called, the values returned, the exception, and the rest
      of the world afterwards *)
  Fixpoint in_turn (act : C -> E -> W -> list (bop K C) * W * res V) (e : E) (cs : list C) (s : W)
    : list C * list V * option exn * W :=
    match cs with
    | [] => ([], [], None, s)
    | c :: cs' =>
        match act c e s with
        | (_, s', Err x) => ([c], [], Some x, s')
        | (_, s', Ok v) => let '(done, vs, r, s2) := in_turn act e cs' s' in (c :: done, v :: vs, r, s2)
        end
    end.

  (** the change is for a class of [ks] that does not match the event *)
  Definition elsewhere (inst : E -> K -> bool) (e : E) (ks : list K) (o : bop K C) : Prop :=
    match o with Reg k _ _ | Unreg k _ => inst e k = false /\ In k ks end.

  Definition is_unreg (o : bop K C) : Prop := match o with Unreg _ _ => True | Reg _ _ _ => False end.
  Definition is_reg (o : bop K C) : Prop := match o with Reg _ _ _ => True | Unreg _ _ => False end.

  (** [c] is registered for a class matching [e] after the history [h] *)
  Definition registered (inst : E -> K -> bool) (e : E) (h : list (bop K C)) (c : C) : Prop :=
    exists k p, inst e k = true /\ In (En k p c) (live h).
End S.
