(** C93: a position the strategy holds on to shows what is left to close.

    The statement: a UserPosition object obtained from the portfolio always shows the
    account's present figures for that holding.  Proved: the account with Position objects
    behaves as the one with values (C109_same), and a position read anew shows its figures
    (C109_fresh); until the next answered balance sync a held long position shows the reported
    figures, with the closeable amount lowered by all closing orders for it that the gate took
    since (C119_held), and from that sync on it never changes again (C119_frozen); a held short
    position never changes (C119_short).  False in general (C93_refuted): after a sync the held
    object is out of date, and a strategy that keeps selling what it shows sells more than it
    has (C93_oversold_refuted). *)
From Coq Require Import Lia String.
From Verif Require Import PyBase PyStr MOrder MAccount MViews SViews LViews TAccount.
Open Scope Z_scope.

Theorem C109_same :
  forall G (gt : gate G) s ops rs v' g', v_reach gt s -> v_run gt ops s = (rs, (v', g')) ->
    a_run gt ops (erase (fst s), snd s) = (rs, (erase v', g')).
Proof. intros G gt [v g] ops rs v' g' R E. cbn [fst snd]. eapply run_ok; [apply (reach_ok gt (v, g) R)|exact E]. Qed.
Print Assumptions C109_same.
Theorem C109_fresh :
  forall G (gt : gate G) v g sd c, v_reach gt (v, g) ->
    shows (v_get sd c v) v = Some (match dget c (match sd with Long => a_long (erase v) | Short => a_short (erase v) end) with Some p => p | None => empty_pos c sd end).
Proof.
  intros G gt v g sd c R. destruct (reach_ok gt _ R) as [_ V]. cbn [fst] in V. unfold v_get.
  destruct sd; [change (a_long (erase v)) with (values (v_heap v) (v_long v))|change (a_short (erase v)) with (values (v_heap v) (v_short v))]; rewrite values_get.
  - destruct (dget c (v_long v)) as [r|] eqn:D; cbn [option_map shows]; [|reflexivity]. assert (L : (r < length (v_heap v))%nat) by (apply V, in_app_iff; left; eapply dget_ref, D).
    unfold deref_pos. apply nth_error_nth', L.
  - destruct (dget c (v_short v)) as [r|] eqn:D; cbn [option_map shows]; [|reflexivity]. assert (L : (r < length (v_heap v))%nat) by (apply V, in_app_iff; right; eapply dget_ref, D).
    unfold deref_pos. apply nth_error_nth', L.
Qed.
Print Assumptions C109_fresh.

Theorem C119_held :
  forall G (gt : gate G) v g c r p ops xs rs v' g', v_reach gt (v, g) -> v_get Long c v = VRef r -> shows (VRef r) v = Some p ->
    closed_since gt c ops (v, g) xs -> v_run gt ops (v, g) = (rs, (v', g')) ->
    shows (VRef r) v' = Some (with_closeable (left_of (ps_avail p) xs) p).
Proof.
  intros G gt v g c r p ops xs rs v' g' R D P C E. unfold v_get in D. destruct (dget c (v_long v)) as [x|] eqn:Dx; [|discriminate D]. injection D as ->.
  exact (held gt c ops (v, g) xs C r p rs v' g' (reach_ok gt _ R) Dx P E).
Qed.
Print Assumptions C119_held.
(** [closed_since] is defined for every history *)
Theorem C119_defined : forall G (gt : gate G) c ops s, exists xs, closed_since gt c ops s xs.
Proof.
  intros G gt c ops. induction ops as [|op ops IH]; intros [v g]; [exists []; constructor|].
  destruct (v_step gt op (v, g)) as [r s'] eqn:S. destruct (IH s') as [xs H].
  assert (O : (op = ASyncBal -> ~ answers gt g) -> (forall id now code n st sd, op = AOrder id now code n st sd -> code <> c \/ 0 <= n \/ r = None) ->
    exists xs, closed_since gt c (op :: ops) (v, g) xs) by (intros A B; exists xs; eapply cs_other; eassumption).
  destruct op as [id now code n st sd|id| | |g0]; try (apply O; discriminate).
  - destruct (eqb_spec code c) as [->|N]; [|apply O; [discriminate|intros * X; injection X as <- <- <- <- <- <-; auto]].
    destruct (Z_lt_le_dec n 0) as [L|L]; [|apply O; [discriminate|intros * X; injection X as <- <- <- <- <- <-; auto]].
    assert (Er : r = Some id \/ r = None).
    { cbn [v_step] in S. unfold v_order in S. destruct (g_order gt _ g) as [[u|e] gg]; injection S as <- <-; auto. }
    destruct Er as [->| ->]; [|apply O; [discriminate|auto]].
    assert (X : closed_since gt c (AOrder id now c (- - n) st sd :: ops) (v, g) (- n :: xs)); [|rewrite Z.opp_involutive in X; exists (- n :: xs); exact X].
    apply (cs_close gt c ops (v, g) id now (- n) st sd s' xs); [lia| |exact H]. rewrite Z.opp_involutive. exact S.
  - destruct (g_sync_balance gt g) as [[b|e] gg] eqn:Eg.
    + destruct (b_cash b) as [cc|] eqn:Ec; [destruct (b_pos b) as [l|] eqn:El|].
      * exists []. apply cs_sync. exists b, cc, l, gg. auto.
      * apply O; [|discriminate]. intros _ (b' & c' & l' & g' & X & Y & Z). rewrite Eg in X. injection X as <- <-. congruence.
      * apply O; [|discriminate]. intros _ (b' & c' & l' & g' & X & Y & Z). rewrite Eg in X. injection X as <- <-. congruence.
    + apply O; [|discriminate]. intros _ (b' & c' & l' & g' & X & Y & Z). congruence.
Qed.
Print Assumptions C119_defined.

Theorem C119_frozen :
  forall G (gt : gate G) v g w p ops rs v' g', v_reach gt (v, g) -> answers gt g -> shows w v = Some p ->
    v_run gt (ASyncBal :: ops) (v, g) = (rs, (v', g')) -> shows w v' = Some p.
Proof.
  intros G gt v g w p ops rs v' g' R A P E. destruct w as [r|q]; [|exact P]. cbn [shows] in *.
  assert (L : (r < length (v_heap v))%nat) by (apply nth_error_Some; congruence). cbn [v_run v_step] in E.
  destruct (v_sync_balance gt v g) as [v1 g1] eqn:S. destruct (v_run gt ops (v1, g1)) as [rs1 [v2 g2]] eqn:R1. injection E as <- <- <-.
  pose proof (reach_ok gt _ R) as O. cbn [fst] in O.
  assert (O1 : v_ok v1) by (eapply (step_ok gt ASyncBal); [exact O|cbn [v_step]; rewrite S; reflexivity]).
  pose proof (sync_detaches gt v g v1 g1 A S r L) as N1.
  assert (Q : nth_error (v_heap v1) r = nth_error (v_heap v) r /\ (r < length (v_heap v1))%nat).
  { destruct A as (b & c0 & l & g0 & Eg & Ec & El). unfold v_sync_balance in S. rewrite Eg, Ec, El in S. injection S as <- <-.
    match goal with |- context [v_add ?l ?w] => destruct (v_add_spec l w (clear_ok _ _)) as (_ & (l' & A2) & _) end. rewrite A2. cbn [v_heap]. rewrite app_length. split; [apply nth_error_app1, L|lia]. }
  destruct Q as [Q1 Q2]. rewrite (run_detached gt ops _ _ _ _ _ r O1 (fun X => N1 (proj2 (in_app_iff _ _ _) (or_introl X))) Q2 R1), Q1. exact P.
Qed.
Print Assumptions C119_frozen.
Theorem C119_short :
  forall G (gt : gate G) v g c r p ops rs v' g', v_reach gt (v, g) -> v_get Short c v = VRef r -> shows (VRef r) v = Some p ->
    v_run gt ops (v, g) = (rs, (v', g')) -> shows (VRef r) v' = Some p.
Proof.
  intros G gt v g c r p ops rs v' g' R D P E. unfold v_get in D. destruct (dget c (v_short v)) as [x|] eqn:Dx; [|discriminate D]. injection D as ->.
  pose proof (reach_ok gt _ R) as O. cbn [fst shows] in *. destruct O as [ND V]. assert (I : In r (map snd (v_short v))) by (eapply dget_ref, Dx).
  rewrite (run_detached gt ops v g rs v' g' r); [exact P|split; assumption| |apply V, in_app_iff; right; exact I|exact E].
  unfold refs in ND. apply nodup_app_iff in ND. destruct ND as (_ & _ & N). intro X. exact (N r X I).
Qed.
Print Assumptions C119_short.

(** ** The statement in full is false *)
Definition demo_mk (id : string) (n : Z) : aop (G := dgate) := AOrder (lit id) 0 (lit "600000.XSHG") n (Market (PNum (lit "0"))) Long.
Definition demo_start : vacct * dgate := snd (v_run demo [ASyncBal] (vacct_new, DGate [] [] demo_bal)).
Lemma demo_reach : v_reach demo demo_start.
Proof. eapply (vr_step demo ASyncBal (vacct_new, DGate [] [] demo_bal) None); [constructor|vm_compute; reflexivity]. Qed.
(** up to date at all times *)
Definition always_current : Prop :=
  forall G (gt : gate G) v g c r ops rs v' g', v_reach gt (v, g) -> v_get Long c v = VRef r -> v_run gt ops (v, g) = (rs, (v', g')) ->
    shows (VRef r) v' = shows (v_get Long c v') v'.
(** a copy of the figures at the time it was obtained *)
Definition always_copy : Prop :=
  forall G (gt : gate G) v g c r ops rs v' g', v_reach gt (v, g) -> v_get Long c v = VRef r -> v_run gt ops (v, g) = (rs, (v', g')) ->
    shows (VRef r) v' = shows (VRef r) v.
Theorem C93_refuted : ~ always_current /\ ~ always_copy.
Proof.
  split; intro H.
  - specialize (H _ demo (fst demo_start) (snd demo_start) (lit "600000.XSHG") 0%nat [ASyncBal; demo_mk "1" (-300)]). 
    specialize (H _ _ _ demo_reach eq_refl eq_refl). vm_compute in H. discriminate H.
  - specialize (H _ demo (fst demo_start) (snd demo_start) (lit "600000.XSHG") 0%nat [demo_mk "1" (-300)]).
    specialize (H _ _ _ demo_reach eq_refl eq_refl). vm_compute in H. discriminate H.
Qed.
Print Assumptions C93_refuted.
(** A strategy that sells what a position object shows, each time at most what it shows when
    sold, and has 900 closeable at every sync: it sells 1800 if it holds on to the object. *)
Theorem C93_oversold_refuted :
  exists r p, v_get Long (lit "600000.XSHG") (fst demo_start) = VRef r /\ shows (VRef r) (fst demo_start) = Some p /\ ps_avail p = 900 /\
    let s1 := snd (v_run demo [ASyncBal; demo_mk "1" (-900)] demo_start) in
    let s2 := snd (v_run demo [demo_mk "2" (-900)] s1) in
    option_map ps_avail (shows (VRef r) (fst s1)) = Some 900 /\
    map o_amount (dg_got (snd s2)) = [900; 900] /\ option_map ps_avail (shows (v_get Long (lit "600000.XSHG") (fst s1)) (fst s1)) = Some 0.
Proof. exists 0%nat. eexists. vm_compute. repeat split. Qed.
Print Assumptions C93_oversold_refuted.

(** ** A concrete case *)
Example C93_demo :
  closed_since demo (lit "600000.XSHG") [demo_mk "1" (-300); demo_mk "2" 400; demo_mk "3" (-200); ASyncBal; demo_mk "4" (-100)] demo_start [300; 200] /\
  option_map ps_avail (shows (VRef 0) (fst (snd (v_run demo [demo_mk "1" (-300); demo_mk "2" 400; demo_mk "3" (-200); ASyncBal; demo_mk "4" (-100)] demo_start)))) = Some 400 /\
  left_of 900 [300; 200] = 400.
Proof.
  split; [|vm_compute; split; reflexivity]. unfold demo_mk at 1.
  apply (cs_close demo (lit "600000.XSHG") _ _ _ 0 300 _ _ (snd (v_step demo (demo_mk "1" (-300)) demo_start))); [lia|vm_compute; reflexivity|].
  destruct (snd (v_step demo (demo_mk "1" (-300)) demo_start)) as [v1 g1] eqn:E1. vm_compute in E1. injection E1 as <- <-.
  eapply cs_other; [vm_compute; reflexivity|discriminate|intros * X; injection X as <- <- <- <- <- <-; right; left; lia|].
  unfold demo_mk at 1. eapply (cs_close demo (lit "600000.XSHG") _ _ _ 0 200 _ _ _ []); [lia|vm_compute; reflexivity|]. apply cs_sync. do 4 eexists. split; [vm_compute; reflexivity|split; reflexivity].
Qed.
