(** Lemmas for C65 and C66: order syncs. *)
From Verif Require Import PyBase PyStr LStr MTime MDate LDate MOrder MAccount MApi SAccount LAccount LAccount2 SSync.
Open Scope Z_scope.

(** ** C65 *)
Definition settled (i : oinfo) (a : acct) : Prop :=
  exists rem o, load i = Ok rem /\ local_order (i_id i) a = Some o /\ same rem o = true.
Lemma same_refl o : same o o = true.
Proof. apply same_iff. unfold changed. tauto. Qed.
Lemma settled_same i a : settled i a -> sync_one i a = Ok a.
Proof. intros (rem & o & L & E & S). unfold sync_one. rewrite L; cbn [rbind]. rewrite E, S. reflexivity. Qed.
Lemma sync_one_settled i a a' : sync_one i a = Ok a' -> settled i a'.
Proof.
  unfold sync_one. destruct (load i) as [rem|] eqn:L; cbn [rbind]; [|discriminate].
  destruct (local_order (i_id i) a) as [o|] eqn:E.
  - destruct (same rem o) eqn:S; intro H; apply Ok_inj in H; subst a'.
    + exists rem, o. auto.
    + exists rem, rem. split; [exact L|]. split; [|apply same_refl].
      assert (K : local_order (i_id i) (store (i_id i) rem a) = Some rem) by apply local_recorded, recorded_store_same.
      destruct (notice_for o rem); exact K.
  - intro H; apply Ok_inj in H; subst a'. exists rem, rem. split; [exact L|]. split; [apply local_recorded, recorded_store_same|apply same_refl].
Qed.
Lemma no_news_settled a i : no_news a i <-> settled i a.
Proof.
  split.
  - intros [L (o & R & A)]. apply loadable_iff in L as [rem L]. apply local_recorded in R.
    exists rem, o. split; [exact L|]. split; [exact R|]. apply same_iff. intro C. apply C.
    apply load_inv in L. destruct L as (B & _). destruct A as (A1 & A2 & A3 & A4 & A5 & A6 & A7), B as (B1 & B2 & B3 & B4 & B5 & B6 & B7).
    assert (S : o_status rem = o_status o).
    { assert (K : Ok (o_status rem) = Ok (o_status o)) by (rewrite <- !get_status_str; congruence). apply Ok_inj in K. exact K. }
    congruence.
  - intros (rem & o & L & E & S). split; [apply loadable_iff; eauto|]. exists o. split; [apply local_recorded, E|].
    apply load_inv in L. destruct L as (B & _). apply same_fields in S. destruct S as (E1 & E2 & E3 & E4 & E5 & E6 & E7).
    unfold agrees in *. rewrite <- E1, <- E2, <- E3, <- E4, <- E5, <- E6, <- E7. exact B.
Qed.
Lemma sync_all_settled l a : Forall (fun i => settled i a) l -> sync_all l a = set_synced a.
Proof.
  induction l as [|i l IH]; intro H; cbn [sync_all]; [reflexivity|]. inversion_clear H as [|? ? H1 H2].
  rewrite (settled_same i a H1). apply IH, H2.
Qed.
Lemma set_synced_local id a : local_order id (set_synced a) = local_order id a.
Proof. reflexivity. Qed.
Lemma sync_all_twice l : forall a, book_ok a -> NoDup (map i_id l) -> sync_all l (sync_all l a) = sync_all l a.
Proof.
  induction l as [|i l IH]; intros a HB HN; cbn [sync_all map] in *; [reflexivity|]. inversion_clear HN as [|? ? N1 N2].
  destruct (sync_one i a) as [a1|] eqn:E.
  - destruct (sync_one_ok _ _ _ E HB) as [B1 _]. rewrite settled_same; [apply IH; assumption|].
    destruct (sync_one_settled _ _ _ E) as (rem & o & L & R & S). exists rem, o. split; [exact L|]. split; [|exact S].
    rewrite sync_all_other by assumption. exact R.
  - rewrite E. reflexivity.
Qed.

(** ** C66 *)
Lemma final_text_status s : final_text (status_str s) = finished s.
Proof. destruct s; reflexivity. Qed.
Lemma final_notes_app id x y : final_notes id (x ++ y) = final_notes id x ++ final_notes id y.
Proof. apply flat_map_app. Qed.
Lemma finishes_app l1 : forall cur l2, finishes cur (l1 ++ l2) = finishes cur l1 ++ finishes (last l1 cur) l2.
Proof.
  induction l1 as [|x l IH]; intros cur l2; [reflexivity|]. cbn [app finishes]. rewrite IH, app_assoc. f_equal.
  f_equal. destruct l; [reflexivity|]. cbn [last]. clear. revert s. induction l as [|y l IH]; intro s; [reflexivity|]. cbn [last] in *. apply IH.
Qed.

Lemma note_final l rem : same rem l = false ->
  (match notice_for l rem with
   | Some NFilled | Some NCanceled | Some NRejected => [status_str (o_status rem)]
   | _ => []
   end) = finishes (status_str (o_status l)) [status_str (o_status rem)].
Proof.
  intros _. cbn [finishes]. rewrite !final_text_status. unfold notice_for.
  destruct (o_status l), (o_status rem); reflexivity.
Qed.
Lemma note_one i a rem id o : load i = Ok rem -> local_order id a = Some o ->
  final_notes id (note_of i a) = if str_eqb (i_id i) id then finishes (status_str (o_status o)) [i_status i] else [].
Proof.
  intros L E. unfold note_of. rewrite L. pose proof (load_inv i rem L) as (A & B & _). destruct A as (A1 & _).
  destruct (str_eqb_spec (i_id i) id) as [<-|Hn].
  - rewrite E. destruct (same rem o) eqn:S.
    + apply same_fields in S as (S1 & _). cbn [final_notes flat_map finishes]. rewrite <- S1, <- A1. destruct (final_text (status_str (o_status rem))); reflexivity.
    + rewrite <- A1, <- (note_final o rem S). destruct (notice_for o rem) as [[]|]; cbn; rewrite ?B, ?str_eqb_refl; reflexivity.
  - destruct (local_order (i_id i) a) as [l|]; [|reflexivity]. destruct (same rem l); [reflexivity|].
    destruct (notice_for l rem) as [[]|]; cbn; rewrite ?B; try reflexivity;
      rewrite (proj2 (str_eqb_neq (i_id i) id) Hn); reflexivity.
Qed.

Definition of_id (id : str) (l : list oinfo) : list str := map i_status (filter (fun i => str_eqb (i_id i) id) l).
Lemma sync_all_finals id l : forall a o, book_ok a -> Forall loadable l -> local_order id a = Some o ->
  exists o', local_order id (sync_all l a) = Some o' /\
    status_str (o_status o') = last (of_id id l) (status_str (o_status o)) /\
    final_notes id (a_log (sync_all l a)) = final_notes id (a_log a) ++ finishes (status_str (o_status o)) (of_id id l).
Proof.
  induction l as [|i l IH]; intros a o HB HL E; cbn [sync_all].
  - exists o. split; [exact E|]. split; [reflexivity|]. cbn. rewrite app_nil_r. reflexivity.
  - inversion_clear HL as [|? ? L1 L2]. destruct (sync_one_loads i a L1) as [a1 E1]. rewrite E1.
    destruct (sync_one_ok _ _ _ E1 HB) as [B1 _]. destruct (sync_one_spec _ _ _ HB E1) as [(o1 & R1 & Ag) Ot].
    apply loadable_iff in L1 as [rem L1]. pose proof (note_one i a rem id o L1 E) as Nt. pose proof (sync_one_log _ _ _ E1) as Lg.
    unfold of_id in *. cbn [filter]. destruct (str_eqb_spec (i_id i) id) as [<-|Hn].
    + destruct (IH a1 o1 B1 L2 R1) as (o' & X & Y & Z). exists o'. split; [exact X|].
      destruct Ag as (Ag & _). cbn [map]. rewrite Ag in Y, Z. split.
      * rewrite Y. cbn [last]. destruct (map i_status _) as [|x xs]; [reflexivity|].
        clear. revert x. induction xs as [|y xs IH]; intro x; [reflexivity|]. cbn [last] in *. apply IH.
      * rewrite Z, Lg, final_notes_app, Nt, <- app_assoc. f_equal. cbn [finishes]. rewrite app_nil_r. reflexivity.
    + rewrite <- (Ot id) in E by congruence. destruct (IH a1 o B1 L2 E) as (o' & X & Y & Z). exists o'. split; [exact X|]. split; [exact Y|].
      rewrite Z, Lg, final_notes_app, Nt, app_nil_r. reflexivity.
Qed.

Section Run.
  Context {G : Type} (gt : gate G).

  (** operations other than a sync say nothing about the end of an order *)
  Lemma step_quiet op a g id o : op <> ASyncOrd -> book_ok a -> not_placed id [op] -> local_order id a = Some o ->
    let a1 := fst (snd (a_step gt op (a, g))) in
    book_ok a1 /\ local_order id a1 = Some o /\ final_notes id (a_log a1) = final_notes id (a_log a).
  Proof.
    intros Hop HB HP E. cbv zeta. inversion_clear HP as [|? ? P1 _]. destruct op as [id' now code n st sd|id'| | |g']; cbn [a_step].
    - destruct (acc_order gt id' now code n st sd a g) as [[r a'] g'] eqn:EO. cbn [fst snd].
      destruct (acc_order_ok _ _ _ _ _ _ _ _ _ _ _ _ EO HB) as [B _].
      destruct (acc_order_book _ _ _ _ _ _ _ _ _ _ _ _ EO) as (S & L & _).
      split; [exact B|]. split.
      + rewrite (same_book_local _ _ id S), local_store_other by (congruence || assumption). exact E.
      + rewrite L, final_notes_app. cbn. apply app_nil_r.
    - rewrite acc_cancel_spec. cbn [fst snd]. destruct (dmem id' (a_orders a)).
      + split; [eapply same_book_ok; [|exact HB]; split; reflexivity|]. split; [exact E|].
        cbn [acc_log a_log]. rewrite final_notes_app. cbn. apply app_nil_r.
      + auto.
    - destruct (sync_balance_book gt a g) as [S L]. destruct (acc_sync_balance gt a g) as [a' g']. cbn [fst snd] in *.
      split; [eapply same_book_ok; eauto|]. split; [rewrite (same_book_local _ _ id S); exact E|]. rewrite L. reflexivity.
    - congruence.
    - auto.
  Qed.

  Lemma run_finals id ops : forall a g o, book_ok a -> local_order id a = Some o -> not_placed id ops ->
    Forall (Forall loadable) (reports gt ops (a, g)) ->
    let a' := fst (snd (a_run gt ops (a, g))) in
    final_notes id (a_log a') = final_notes id (a_log a) ++ finishes (status_str (o_status o)) (heard gt id ops (a, g)).
  Proof.
    induction ops as [|op ops IH]; intros a g o HB E HP HL; cbv zeta.
    - cbn. rewrite app_nil_r. reflexivity.
    - inversion_clear HP as [|? ? P1 P2]. unfold heard in *. cbn [reports] in *. cbn [a_run].
      destruct (a_step gt op (a, g)) as [r [a1 g1]] eqn:ES. cbn [snd] in *.
      specialize (IH a1 g1). destruct (a_run gt ops (a1, g1)) as [rs s2] eqn:ER. cbn [fst snd] in *. cbv zeta in IH.
      apply Forall_app in HL as [HL1 HL2].
      assert (Q : op = ASyncOrd \/ op <> ASyncOrd) by (destruct op; (left; reflexivity) || (right; discriminate)).
      destruct Q as [->|Hop].
      + cbn [a_step] in ES. unfold acc_sync_orders in ES. destruct (g_sync_orders gt g) as [[l|] g2]; cbn [fst] in *;
          injection ES as <- <- <-.
        * inversion_clear HL1 as [|? ? L1 _]. destruct (sync_all_finals id l a o HB L1 E) as (o' & X & Y & Z).
          destruct (sync_all_ok l a HB) as [B1 _]. rewrite (IH o' B1 X P2 HL2), Z, <- app_assoc. f_equal.
          cbn [app concat]. rewrite filter_app, map_app, finishes_app, Y. reflexivity.
        * cbn [app]. apply IH; assumption.
      + destruct (step_quiet op a g id o Hop HB (Forall_cons _ P1 (Forall_nil _)) E) as (B1 & E1 & Q). rewrite ES in B1, E1, Q. cbn [fst snd] in *.
        rewrite <- Q. destruct op; try (cbn [app]; apply IH; assumption). congruence.
  Qed.
End Run.

Lemma finishes_final cur l : final_text cur = true -> Forall (fun y => final_text y = true) l -> finishes cur l = [].
Proof.
  revert cur; induction l as [|x l IH]; intros cur Hc H; [reflexivity|]. inversion_clear H as [|? ? H1 H2].
  cbn [finishes]. rewrite H1, Hc. cbn. apply IH; assumption.
Qed.
Lemma finishes_once cur l : final_text cur = false -> never_back l ->
  finishes cur l = match find final_text l with Some x => [x] | None => [] end.
Proof.
  revert cur; induction l as [|x l IH]; intros cur Hc H; [reflexivity|]. cbn [finishes find]. rewrite Hc. cbn [negb].
  destruct (final_text x) eqn:Ex; cbn [andb app].
  - rewrite finishes_final; [reflexivity|exact Ex|]. apply (H [] x l); [reflexivity|exact Ex].
  - apply IH; [exact Ex|]. intros pre y post E Hy. apply (H (x :: pre) y post); [rewrite E; reflexivity|exact Hy].
Qed.

(** decision procedures, for examples *)
Fixpoint back_check (l : list str) : bool :=
  match l with [] => true | x :: l' => (negb (final_text x) || forallb final_text l') && back_check l' end.
Lemma back_check_ok l : back_check l = true -> never_back l.
Proof.
  induction l as [|y l IH]; intros H pre x post E Hx; [destruct pre; discriminate|].
  cbn [back_check] in H. apply andb_prop in H as [H1 H2]. destruct pre as [|z pre]; injection E as -> ->.
  - rewrite Hx in H1. cbn in H1. apply Forall_forall. apply forallb_forall, H1.
  - apply (IH H2 pre x post); [reflexivity|exact Hx].
Qed.
Definition loads (i : oinfo) : bool := match load i with Ok _ => true | Err _ => false end.
Lemma forall_loadable ls : forallb (forallb loads) ls = true -> Forall (Forall loadable) ls.
Proof.
  intro H. apply Forall_forall. intros l Hl. apply Forall_forall. intros i Hi.
  pose proof (proj1 (forallb_forall _ _) (proj1 (forallb_forall _ _) H l Hl) i Hi) as K. unfold loads in K.
  apply loadable_iff. destruct (load i) as [o|]; [eauto|discriminate].
Qed.
