(** C79: tasks that share the broker's files. *)
From Coq Require Import String.
From Verif Require Import PyBase PyStr LStr MTime MDate MOrder MAccount MApi MGate SGate LGate LGate2 LGate3 LGate4 TGate.
Open Scope list_scope.
Open Scope Z_scope.

(** [b] is [a] with lines added or left out for which [P] does not hold *)
Inductive same_but (P : str -> Prop) : list str -> list str -> Prop :=
| sb_nil : same_but P [] []
| sb_left l a b : ~ P l -> same_but P a b -> same_but P (l :: a) b
| sb_right l a b : ~ P l -> same_but P a b -> same_but P a (l :: b)
| sb_both l a b : same_but P a b -> same_but P (l :: a) (l :: b).

(** The claim: what a task knows of its orders after a sync depends only on the lines
    about its own orders; [ut1], [ut2]: update files that differ in lines about no order
    of the task. *)
Definition own_lines_only : Prop :=
  forall go g d us1 us2 rt,
    ge_date (gs_env g) = d -> Forall whole us1 -> Forall whole us2 ->
    same_but (fun l => exists id, dget id (gs_orders g) <> None /\ update_for id l) us1 us2 ->
    gs_uoff g = 0%nat -> gs_roff g = 0%nat ->
    let f us := set_bfiles [(d, rt)] [(d, concat us)] g in
    forall id, dget id (gs_orders (snd (gate_sync_orders demo_ptime demo_f3 demo_f4 go (f us1)))) =
               dget id (gs_orders (snd (gate_sync_orders demo_ptime demo_f3 demo_f4 go (f us2)))).

(** False: a short line, whosever it is, keeps every task from reading on. *)
Theorem C79_short_refuted : ~ own_lines_only.
Proof.
  intros Hc. specialize (Hc demo_go (w_gate demo_w1) 19000 [nl "oops"; u_open; u_done] [u_open; u_done] []).
  assert (W : forall s, forallb (fun c => negb (c =? NL)%N) (removelast (nl s)) = true -> whole (nl s)).
  { intros s H. apply demo_line_whole; [exact H| |]; unfold nl; [destruct (lit s); discriminate|apply last_last]. }
  assert (H1 : Forall whole [nl "oops"; u_open; u_done]) by (repeat (constructor; [apply W; vm_compute; reflexivity|]); constructor).
  specialize (Hc eq_refl H1 (Forall_inv_tail H1)).
  assert (H2 : same_but (fun l => exists id, dget id (gs_orders (w_gate demo_w1)) <> None /\ update_for id l)
    [nl "oops"; u_open; u_done] [u_open; u_done]).
  { apply sb_left; [intros (id & _ & _ & H & _); vm_compute in H; discriminate|]. do 3 constructor. }
  specialize (Hc H2 eq_refl eq_refl (lit "77")). apply (f_equal (option_map (fun i => i_status i))) in Hc. vm_compute in Hc. discriminate.
Qed.
Print Assumptions C79_short_refuted.

(** False also for complete lines when ignore_error_line is off: a line about another
    task's order that has a comma in its text makes the sync of every task fail. *)
Definition u_long99 : str := nl "t,20220108,093200,UM0,8888,600000.SH,2,2,300,10,AT,300,10,3000,0,B1,c,99,done,x,y".
Theorem C79_strict_refuted :
  let go := GOpts (lit "8888") true (lit "UM0") (lit "DMA") false eol_posix in
  let sync u := gate_sync_orders demo_ptime demo_f3 demo_f4 go (with_files [] u (w_gate demo_w1)) in
  ~ update_for (lit "77") u_long99 /\ dkeys (gs_orders (w_gate demo_w1)) = [lit "77"] /\
  (exists l, fst (sync (u_open ++ u_done)) = Ok l) /\
  fst (sync (u_open ++ u_long99 ++ u_done)) = Err TypeError /\
  state_of "77" (snd (sync (u_open ++ u_done))) = Some (lit "filled", Some 300) /\
  state_of "77" (snd (sync (u_open ++ u_long99 ++ u_done))) = Some (lit "open", Some 0).
Proof.
  cbn zeta. split; [intros (_ & H & _); vm_compute in H; discriminate|]. split; [vm_compute; reflexivity|].
  split; [eexists; vm_compute; reflexivity|]. split; [vm_compute; reflexivity|]. split; vm_compute; reflexivity.
Qed.
Print Assumptions C79_strict_refuted.

Lemma all_on_same_but (T : str -> option (str * eff)) (id : str) (P : str -> Prop) (a b : list str) : (forall l, (exists e, T l = Some (id, e)) -> P l) -> same_but P a b ->
  forall i, all_on T id a i = all_on T id b i.
Proof.
  intros HT Hs. induction Hs as [|l a b Hl _ IH|l a b Hl _ IH|l a b _ IH]; intros i; [reflexivity| | |].
  - change (l :: a) with ([l] ++ a). rewrite all_on_app, (all_on_none T id [l]), IH; [reflexivity|].
    intros x e [<-|[]] Hx. apply Hl, HT. exists e. exact Hx.
  - change (l :: b) with ([l] ++ b). rewrite all_on_app, (all_on_none T id [l]), IH; [reflexivity|].
    intros x e [<-|[]] Hx. apply Hl, HT. exists e. exact Hx.
  - change (l :: a) with ([l] ++ a). change (l :: b) with ([l] ++ b). rewrite !all_on_app, IH. reflexivity.
Qed.

(** What holds (bad lines ignored, under the conditions of C36 on what is in the files):
    two states of the task, reached in any way with the same submitted orders [p], that
    see files differing only in lines about other orders, agree on every order after
    their next sync. *)
Theorem C79_own_lines_partial :
  forall ptime f3 f4 go d g1 g2 p rt1 ut1 rt2 ut2 rs1 us1 rs2 us2,
    go_ignore go = true -> hist ptime f3 f4 go d g1 p -> hist ptime f3 f4 go d g2 p ->
    dget d (gs_rfile g1) = Some rt1 -> dget d (gs_ufile g1) = Some ut1 ->
    calm 5 rt1 rs1 -> calm 19 ut1 us1 -> exclusive rs1 us1 ->
    dget d (gs_rfile g2) = Some rt2 -> dget d (gs_ufile g2) = Some ut2 ->
    calm 5 rt2 rs2 -> calm 19 ut2 us2 -> exclusive rs2 us2 ->
    same_but (fun l => exists id, dget id p <> None /\ reject_for id l) rs1 rs2 ->
    same_but (fun l => exists id, dget id p <> None /\ update_for id l) us1 us2 ->
    forall id, dget id (gs_orders (snd (gate_sync_orders ptime f3 f4 go g1))) =
               dget id (gs_orders (snd (gate_sync_orders ptime f3 f4 go g2))).
Proof.
  intros ptime f3 f4 go d g1 g2 p rt1 ut1 rt2 ut2 rs1 us1 rs2 us2 Hi Hh1 Hh2 R1 U1 C1 D1 X1 R2 U2 C2 D2 X2 Sr Su id.
  pose proof (hist_inv ptime f3 f4 go d g1 p Hi Hh1) as I1. pose proof (hist_inv ptime f3 f4 go d g2 p Hi Hh2) as I2.
  destruct (sync_reads ptime f3 f4 go d g1 p rt1 ut1 rs1 us1 Hi I1 R1 U1 C1 D1 X1) as (_ & _ & _ & _ & _ & G1 & _).
  destruct (sync_reads ptime f3 f4 go d g2 p rt2 ut2 rs2 us2 Hi I2 R2 U2 C2 D2 X2) as (_ & _ & _ & _ & _ & G2 & _).
  rewrite G1, G2. destruct (dget id p) as [i|] eqn:Ei; [|reflexivity]. cbn [option_map]. f_equal. unfold replay.
  assert (Hn : dget id p <> None) by (rewrite Ei; discriminate).
  assert (Tr : forall l, (exists e, rtarget l = Some (id, e)) -> exists id0, dget id0 p <> None /\ reject_for id0 l).
  { intros l Hl. exists id. split; [exact Hn|]. apply rtarget_iff. exact Hl. }
  assert (Tu : forall l, (exists e, utarget ptime f3 f4 l = Some (id, e)) -> exists id0, dget id0 p <> None /\ update_for id0 l).
  { intros l Hl. exists id. split; [exact Hn|]. apply (utarget_iff ptime f3 f4). exact Hl. }
  rewrite (all_on_same_but _ id _ rs1 rs2 Tr Sr). apply (all_on_same_but _ id _ us1 us2 Tu Su).
Qed.
Print Assumptions C79_own_lines_partial.

(** order 77 of one task beside lines about order 99 of another one, one of them with a
    comma too many *)
Example C79_demo :
  let us1 := [u_open; u_done] in
  let us2 := [u_else; u_open; u_long99; u_else; u_done] in
  let g us := with_files [] (concat us) (w_gate demo_w1) in
  same_but (fun l => exists id, dget id (gs_orders (w_gate demo_w1)) <> None /\ update_for id l) us1 us2 /\
  state_of "77" (demo_sync (g us1)) = Some (lit "filled", Some 300) /\
  state_of "77" (demo_sync (g us2)) = Some (lit "filled", Some 300) /\
  calm 19 (concat us1) us1 /\ calm 19 (concat us2) us2.
Proof.
  cbn zeta.
  assert (N1 : ~ exists id, dget id (gs_orders (w_gate demo_w1)) <> None /\ update_for id u_else).
  { intros (id & Hid & _ & _ & <-). apply Hid. vm_compute. reflexivity. }
  assert (N2 : ~ exists id, dget id (gs_orders (w_gate demo_w1)) <> None /\ update_for id u_long99).
  { intros (id & _ & _ & H & _). vm_compute in H. discriminate. }
  split. { apply sb_right; [exact N1|]. apply sb_both. apply sb_right; [exact N2|]. apply sb_right; [exact N1|]. apply sb_both. constructor. }
  split; [vm_compute; reflexivity|]. split; [vm_compute; reflexivity|].
  assert (R : forall s, forallb (fun c => negb (c =? NL)%N) (removelast (nl s)) = true -> Nat.leb 19 (commas (nl s)) = true -> readable 19 (nl s)).
  { intros s H Hc. split; [|right; apply Nat.leb_le; exact Hc].
    apply demo_line_whole; [exact H| |]; unfold nl; [destruct (lit s); discriminate|apply last_last]. }
  assert (P : pending 19 []).
  { split; [intros []|]. split; [|vm_compute; lia]. intros (r & H). vm_compute in H. discriminate. }
  split; exists []; (split; [rewrite app_nil_r; reflexivity|split; [|exact P]]);
    repeat (constructor; [apply R; vm_compute; reflexivity|]); constructor.
Qed.
