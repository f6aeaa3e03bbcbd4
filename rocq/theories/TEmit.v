(** C76: deliveries during which callbacks register or unregister. *)
From Verif Require Import PyBase MBus SBus MEmit SEmit LBus LEmit LEmit2.
Open Scope Z_scope.

(** The claim: whatever the callbacks do to the bus, emit calls exactly the callbacks
    registered for the event when it began, in the order of C18. *)
Definition delivers_as_begun : Prop :=
  forall (act : nat -> nat -> unit -> list (bop nat nat) * unit * res nat) inst fuel e h x,
    emit_live inst act fuel e (b_run h) tt = (x, EndDone) ->
    map snd (e_calls x) = calls inst e (b_run h).

(** False: a callback that unregisters itself makes emit skip the next one of the same
    priority, although nobody unregistered that one. *)
Definition c76_once (c : nat) (_ : nat) (_ : unit) : list (bop nat nat) * unit * res nat :=
  (if Nat.eqb c 1 then [Unreg 0%nat 1%nat] else [], tt, Ok c).
Definition c76_h : list (bop nat nat) := [Reg 0%nat 1%nat 0; Reg 0%nat 2%nat 0; Reg 0%nat 3%nat 0].
Theorem C76_refuted : ~ delivers_as_begun.
Proof.
  intros Hc.
  assert (Hx : exists x, emit_live Nat.eqb c76_once 5 0%nat (b_run c76_h) tt = (x, EndDone) /\ map snd (e_calls x) = [1; 3]%nat /\
    calls Nat.eqb 0%nat (b_run c76_h) = [1; 2; 3]%nat) by (eexists; split; [vm_compute; reflexivity|split; vm_compute; reflexivity]).
  destruct Hx as (x & H1 & H2 & H3). specialize (Hc _ _ _ _ _ _ H1). rewrite H2, H3 in Hc. discriminate.
Qed.
Print Assumptions C76_refuted.

(** A callback registered during the delivery may be called in the same delivery. *)
Theorem C76_added_refuted :
  exists (act : nat -> nat -> unit -> list (bop nat nat) * unit * res nat) h x,
    emit_live Nat.eqb act 5 0%nat (b_run h) tt = (x, EndDone) /\
    calls Nat.eqb 0%nat (b_run h) = [1%nat] /\ map snd (e_calls x) = [1; 2]%nat.
Proof.
  exists (fun c _ _ => (if Nat.eqb c 1 then [Reg 0%nat 2%nat 0] else [], tt, Ok c)), [Reg 0%nat 1%nat 0].
  eexists. split; [vm_compute; reflexivity|]. split; vm_compute; reflexivity.
Qed.
Print Assumptions C76_added_refuted.

(** Registering for a new class stops the delivery with RuntimeError: callback 2,
    registered before it began, is never called, and no callback raised. *)
Theorem C76_new_class_refuted :
  exists (act : nat -> nat -> unit -> list (bop nat nat) * unit * res nat) inst h x,
    emit_live inst act 5 0%nat (b_run h) tt = (x, EndChanged) /\
    calls inst 0%nat (b_run h) = [1; 2]%nat /\ map snd (e_calls x) = [1%nat] /\
    forall c e s, exists v, snd (act c e s) = Ok v.
Proof.
  exists (fun c _ _ => (if Nat.eqb c 1 then [Reg 9%nat 7%nat 0] else [], tt, Ok c)), (fun _ k => Nat.ltb k 2),
    [Reg 0%nat 1%nat 0; Reg 1%nat 2%nat 0].
  eexists. split; [vm_compute; reflexivity|]. split; [vm_compute; reflexivity|]. split; [vm_compute; reflexivity|].
  intros c e s. exists c. reflexivity.
Qed.
Print Assumptions C76_new_class_refuted.

(** A callback that registers itself again is called for ever: no number of calls is
    enough for the delivery to end. *)
Definition c76_again (c : nat) (_ : nat) (_ : unit) : list (bop nat nat) * unit * res nat :=
  ([Reg 0%nat c 0], tt, Ok c).
Lemma c76_again_list : forall fuel i n x, (i < n)%nat -> e_bus x = [(0%nat, [(0, repeat 1%nat n)])] ->
  snd (iter_list c76_again fuel 0%nat 0%nat 0 i x) = EndFuel.
Proof.
  induction fuel as [|f IH]; intros i n x Hi Hb; cbn [iter_list]; rewrite Hb.
  - replace (nth_error (now_at 0%nat 0 [(0%nat, [(0, repeat 1%nat n)])]) i) with (Some 1%nat); [reflexivity|].
    symmetry. apply (nth_error_repeat 1%nat Hi).
  - replace (nth_error (now_at 0%nat 0 [(0%nat, [(0, repeat 1%nat n)])]) i) with (Some 1%nat);
      [|symmetry; apply (nth_error_repeat 1%nat Hi)].
    unfold call1, c76_again. cbn [fold_left b_step]. apply (IH _ (S n)); [lia|]. cbn [e_bus]. rewrite Hb.
    change (repeat 1%nat (S n)) with ([1%nat] ++ repeat 1%nat n).
    replace ([1%nat] ++ repeat 1%nat n) with (repeat 1%nat n ++ [1%nat]); [reflexivity|].
    symmetry. apply (repeat_cons n 1%nat).
Qed.
Theorem C76_forever_refuted :
  forall fuel, snd (emit_live Nat.eqb c76_again fuel 0%nat (b_run [Reg 0%nat 1%nat 0]) tt) = EndFuel.
Proof.
  intros fuel. unfold emit_live. change (b_run [Reg 0%nat 1%nat 0]) with [(0%nat, [(0, [1%nat])])] at 2 3.
  cbn [dkeys map fst iter_classes].
  change (length (e_bus (Est (V := nat) (b_run [Reg 0%nat 1%nat 0]) tt [] []))) with 1%nat. cbn [Nat.eqb length negb].
  pose proof (c76_again_list fuel 0 1 (Est [(0%nat, [(0, [1%nat])])] tt [] []) (le_n 1) eq_refl) as Hl.
  change (b_run [Reg 0%nat 1%nat 0]) with [(0%nat, [(0, [1%nat])])].
  cbn.
  destruct (iter_list c76_again fuel 0%nat 0%nat 0 0 (Est [(0%nat, [(0, [1%nat])])] tt [] [])) as [y q] eqn:Ey.
  cbn [snd] in Hl. subst q. reflexivity.
Qed.
Print Assumptions C76_forever_refuted.

(** What holds for every behaviour: each call is of a callback that is registered for
    a class of the event at that moment. *)
Theorem C76_registered_partial :
  forall (K C E W V : Type) (HK : Eqb K) (HC : Eqb C) (inst : E -> K -> bool)
         (act : C -> E -> W -> list (bop K C) * W * res V) fuel e h s,
    Forall (fun bc => exists h', fst bc = b_run (h ++ h') /\ registered inst e (h ++ h') (snd bc))
           (e_calls (fst (emit_live inst act fuel e (b_run h) s))).
Proof. intros. exact (proj2 (emit_good inst act fuel e h s)). Qed.
Print Assumptions C76_registered_partial.

(** If the callbacks change only other classes that exist already: exactly the
    callbacks of the beginning, in order, stopping only at an exception of theirs. *)
Theorem C76_other_classes_partial :
  forall (K C E W V : Type) (HK : Eqb K) (HC : Eqb C) (inst : E -> K -> bool)
         (act : C -> E -> W -> list (bop K C) * W * res V) fuel e (h : list (bop K C)) s x q,
    (forall c s, Forall (elsewhere inst e (classes h [])) (fst (fst (act c e s)))) ->
    (length (calls inst e (b_run h)) <= fuel)%nat ->
    emit_live inst act fuel e (b_run h) s = (x, q) ->
    exists r, in_turn act e (calls inst e (b_run h)) s = (map snd (e_calls x), e_ret x, r, e_rest x) /\
      match r with None => q = EndDone | Some er => q = EndRaise er end.
Proof.
  intros K C E W V HK HC inst act fuel e h s x q Hel Hf Hx. rewrite <- (bi_keys _ _ _ (binv_ops h)) in Hel.
  destruct (emit_elsewhere inst act fuel e h s x q Hel Hf Hx) as (r & H1 & H2). exists r. split; [exact H1|].
  destruct r; exact H2.
Qed.
Print Assumptions C76_other_classes_partial.

(** If they only unregister: the delivery ends, never with RuntimeError, and calls
    callbacks of the beginning only, each at most once, in order. *)
Theorem C76_unregister_only_partial :
  forall (K C E W V : Type) (HK : Eqb K) (HC : Eqb C) (inst : E -> K -> bool)
         (act : C -> E -> W -> list (bop K C) * W * res V) fuel e (h : list (bop K C)) s x q,
    (forall c e s, Forall is_unreg (fst (fst (act c e s)))) ->
    (length (calls inst e (b_run h)) <= fuel)%nat ->
    emit_live inst act fuel e (b_run h) s = (x, q) ->
    subseq (map snd (e_calls x)) (calls inst e (b_run h)) /\ (q = EndDone \/ exists er, q = EndRaise er).
Proof.
  intros K C E W V HK HC inst act fuel e h s x q Hun Hf Hx.
  destruct (emit_unreg inst act Hun fuel e h s x q Hx) as (H1 & H2 & H3). split; [exact H1|]. specialize (H3 Hf).
  destruct q as [|er| |]; [left; reflexivity|right; exists er; reflexivity|contradiction|contradiction].
Qed.
Print Assumptions C76_unregister_only_partial.

(** If they only register: a delivery that returns has called every callback of the
    beginning, in order. *)
Theorem C76_register_only_partial :
  forall (K C E W V : Type) (HK : Eqb K) (HC : Eqb C) (inst : E -> K -> bool)
         (act : C -> E -> W -> list (bop K C) * W * res V) fuel e (h : list (bop K C)) s x,
    (forall c e s, Forall is_reg (fst (fst (act c e s)))) ->
    emit_live inst act fuel e (b_run h) s = (x, EndDone) ->
    subseq (calls inst e (b_run h)) (map snd (e_calls x)).
Proof. intros K C E W V HK HC inst act fuel e h s x Hre Hx. exact (emit_reg inst act Hre fuel e h s x Hx). Qed.
Print Assumptions C76_register_only_partial.

(** three behaviours meeting the hypotheses, and what they do *)
Example C76_demo :
  (forall c e s, Forall is_unreg (fst (fst (c76_once c e s)))) /\
  (exists x, emit_live Nat.eqb c76_once 3 0%nat (b_run c76_h) tt = (x, EndDone) /\ map snd (e_calls x) = [1; 3]%nat) /\
  (let act := fun (c : nat) (_ : nat) (s : nat) => ([Reg 1%nat c 5; Unreg 1%nat 4%nat], S s, if Nat.eqb c 2 then Err KeyError else Ok s) in
   let h := c76_h ++ [Reg 1%nat 4%nat 0] in
   (forall c s, Forall (elsewhere Nat.eqb 0%nat (classes h [])) (fst (fst (act c 0%nat s)))) /\
   exists x, emit_live Nat.eqb act 3 0%nat (b_run h) 10%nat = (x, EndRaise KeyError) /\
     map snd (e_calls x) = [1; 2]%nat /\ e_ret x = [10%nat] /\ calls Nat.eqb 1%nat (e_bus x) = [1; 2]%nat) /\
  (let act := fun (c : nat) (_ : nat) (_ : unit) => (if Nat.eqb c 1 then [Reg 0%nat 8%nat 3; Reg 0%nat 9%nat 0] else [], tt, Ok c) in
   (forall c e s, Forall is_reg (fst (fst (act c e s)))) /\
   exists x, emit_live Nat.eqb act 9 0%nat (b_run c76_h) tt = (x, EndDone) /\ map snd (e_calls x) = [1; 2; 3; 9]%nat).
Proof.
  split; [|split; [|split]].
  - intros c e s. unfold c76_once. destruct (Nat.eqb c 1); repeat constructor.
  - eexists. split; vm_compute; reflexivity.
  - cbn zeta. split; [intros c s; cbn [fst]; repeat (constructor; [split; [reflexivity|vm_compute; right; left; reflexivity]|]); constructor|].
    eexists. split; [vm_compute; reflexivity|]. split; [vm_compute; reflexivity|]. split; vm_compute; reflexivity.
  - cbn zeta. split; [intros c e s; destruct (Nat.eqb c 1); repeat constructor|]. eexists. split; vm_compute; reflexivity.
Qed.
