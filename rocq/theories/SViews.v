(** What C93 means by its words. *)
From Verif Require Import PyBase PyStr MOrder MAccount MViews.
Open Scope Z_scope.

(** a position with another closeable amount *)
Definition with_closeable (x : Z) (p : position) : position :=
  Pos (ps_code p) (ps_amount p) x (ps_avg p) (ps_side p) (ps_last p) (ps_value p).
(** what is left of [a] after closing orders for [xs] *)
Definition left_of (a : Z) (xs : list Z) : Z :=
  match xs with [] => a | _ => Z.max (a - fold_right Z.add 0 xs) 0 end.

Section Spec.
  Context {G : Type} (gt : gate G).
  (** the gate answers a balance sync with cash and positions *)
  Definition answers (g : G) : Prop := exists b c l g', g_sync_balance gt g = (Ok b, g') /\ b_cash b = Some c /\ b_pos b = Some l.
  (** the amounts of the closing orders for [c] that the gate took, up to the next answered sync *)
  Inductive closed_since (c : str) : list aop -> vacct * G -> list Z -> Prop :=
  | cs_end s : closed_since c [] s []
  | cs_sync ops v g : answers g -> closed_since c (ASyncBal :: ops) (v, g) []
  | cs_close ops s id now n st sd s' xs : 0 < n -> v_step gt (AOrder id now c (- n) st sd) s = (Some id, s') -> closed_since c ops s' xs ->
      closed_since c (AOrder id now c (- n) st sd :: ops) s (n :: xs)
  | cs_other op ops v g r s' xs : v_step gt op (v, g) = (r, s') ->
      (op = ASyncBal -> ~ answers g) ->
      (forall id now code n st sd, op = AOrder id now code n st sd -> code <> c \/ 0 <= n \/ r = None) ->
      closed_since c ops s' xs -> closed_since c (op :: ops) (v, g) xs.
End Spec.

(** states an account can be in *)
Inductive v_reach {G} (gt : gate G) : vacct * G -> Prop :=
| vr_init g : v_reach gt (vacct_new, g)
| vr_step op s r s' : v_reach gt s -> v_step gt op s = (r, s') -> v_reach gt s'.

(** the values, as [MAccount] has them *)
Definition deref_pos (h : list position) (r : nat) : position := nth r h (Pos [] 0 0 0 Long None None).
Definition values (h : list position) (d : dict str nat) : dict str position := map (fun kr => (fst kr, deref_pos h (snd kr))) d.
Definition erase (v : vacct) : acct := set_positions (values (v_heap v) (v_long v)) (values (v_heap v) (v_short v)) (v_base v).
