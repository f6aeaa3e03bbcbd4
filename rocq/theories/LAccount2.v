(** Lemmas about order submission, cancels, queries and synchronisation. *)
From Verif Require Import PyBase PyStr LStr MTime MDate LDate MOrder MAccount MApi SAccount LAccount.
Open Scope Z_scope.

(** ** heap and book *)

Lemma nth_snoc {A} (l : list A) x : nth_error (l ++ [x]) (length l) = Some x.
Proof. rewrite nth_error_app2, Nat.sub_diag by lia. reflexivity. Qed.
Lemma nth_app_l {A} (l m : list A) n x : nth_error l n = Some x -> nth_error (l ++ m) n = Some x.
Proof. intro H. rewrite nth_error_app1; [exact H|]. apply nth_error_Some. congruence. Qed.

Lemma local_recorded a id o : local_order id a = Some o <-> recorded a id o.
Proof.
  unfold local_order, recorded, deref. destruct (dget id (a_orders a)) as [r|]; split.
  - intro H; exists r; auto.
  - intros [r' [H1 H2]]; congruence.
  - discriminate.
  - intros [r' [H1 _]]; discriminate.
Qed.

Lemma recorded_store_same id o a : recorded (store id o a) id o.
Proof.
  exists (length (a_heap a)). cbn [store a_orders a_heap]. split; [apply dget_dset_same|apply nth_snoc].
Qed.
Lemma local_store_other id id' o a : id <> id' -> book_ok a -> local_order id (store id' o a) = local_order id a.
Proof.
  intros Hn [_ HB]. unfold local_order, deref; cbn [store a_orders a_heap]. rewrite dget_dset_other by exact Hn.
  destruct (dget id (a_orders a)) as [r|] eqn:E; [|reflexivity].
  destruct (HB _ _ E) as (o' & Ho & _). rewrite Ho. apply nth_app_l, Ho.
Qed.

(** the parts of an account that decide its orders *)
Definition same_book (a b : acct) : Prop := a_heap a = a_heap b /\ a_orders a = a_orders b.
Lemma same_book_ok a b : same_book a b -> book_ok a -> book_ok b.
Proof. intros [H1 H2] [B1 B2]. unfold book_ok. rewrite <- H1, <- H2. auto. Qed.
Lemma same_book_refl a : same_book a a.
Proof. split; reflexivity. Qed.
Lemma same_book_trans a b c : same_book a b -> same_book b c -> same_book a c.
Proof. intros [A B] [C D]; split; congruence. Qed.
Lemma same_book_local a b id : same_book a b -> local_order id b = local_order id a.
Proof. intros [A B]. unfold local_order, deref. rewrite A, B. reflexivity. Qed.

Lemma store_ok id o a : book_ok a -> o_id o = id -> style_price (o_style o) = o_price o -> book_ok (store id o a).
Proof.
  intros [B1 B2] Hi Hp. split; cbn [store a_orders a_heap]; [apply NoDup_dset, B1|].
  intros k r H. rewrite dget_dset in H. destruct (eqb k id) eqn:E.
  - apply eqb_true in E. injection H as <-. exists o. rewrite nth_snoc. subst; auto.
  - destruct (B2 _ _ H) as (o' & Ho & Hr). exists o'. split; [apply nth_app_l, Ho|exact Hr].
Qed.

(** book growth: the heap only grows and no id is lost *)
Definition grows (a b : acct) : Prop :=
  (exists h, a_heap b = a_heap a ++ h) /\ (forall id, dmem id (a_orders a) = true -> dmem id (a_orders b) = true).
Lemma grows_refl a : grows a a.
Proof. split; [exists []; rewrite app_nil_r; reflexivity|auto]. Qed.
Lemma grows_trans a b c : grows a b -> grows b c -> grows a c.
Proof.
  intros [[h1 A] A'] [[h2 B] B']. split; [exists (h1 ++ h2); rewrite B, A, app_assoc; reflexivity|auto].
Qed.
Lemma grows_same a b : same_book a b -> grows a b.
Proof.
  intros [A B]. split; [exists []; rewrite app_nil_r; auto|]. intros id; rewrite B; auto.
Qed.
Lemma grows_store id o a : grows a (store id o a).
Proof.
  split; [exists [o]; reflexivity|]. intros k H. cbn [store a_orders].
  apply dmem_In. apply dmem_In in H. rewrite dkeys_dset.
  destruct (dmem id (a_orders a)); [exact H|apply in_or_app; auto].
Qed.
Lemma grows_deref a b r o : grows a b -> deref a r = Some o -> deref b r = Some o.
Proof. intros [[h H] _] Hd. unfold deref in *. rewrite H. apply nth_app_l, Hd. Qed.

Section Acc.
  Context {G : Type} (gt : gate G).

  Lemma order_created_book o a : same_book a (acc_order_created o a).
  Proof.
    unfold acc_order_created. destruct (o_side o); [destruct (dget _ (a_long a))|destruct (dget _ (a_short a))]; split; reflexivity.
  Qed.
  Lemma order_created_log o a : a_log (acc_order_created o a) = a_log a.
  Proof.
    unfold acc_order_created. destruct (o_side o); [destruct (dget _ (a_long a))|destruct (dget _ (a_short a))]; reflexivity.
  Qed.
  Lemma new_order_id id now code n st sd : o_id (new_order id now code n st sd) = id.
  Proof. reflexivity. Qed.

  Lemma new_order_for id now code n st sd : n <> 0 -> order_for id now code n st (new_order id now code n st sd).
  Proof.
    intro Hn. unfold order_for, new_order; cbn. repeat split; try reflexivity.
    - destruct (Z.ltb_spec n 0); [discriminate|lia].
    - intro; destruct (Z.ltb_spec n 0); [lia|reflexivity].
  Qed.

  Lemma acc_order_book id now code n st sd a g r a' g' :
    acc_order gt id now code n st sd a g = (r, a', g') ->
    same_book (store id (new_order id now code n st sd) a) a' /\
    a_log a' = a_log a ++ [EvOrder (new_order id now code n st sd)] /\
    g' = snd (g_order gt (new_order id now code n st sd) g) /\
    r = (match fst (g_order gt (new_order id now code n st sd) g) with Ok _ => Some id | Err _ => None end).
  Proof.
    unfold acc_order. destruct (g_order gt _ g) as [[u|e] g1]; intro H; injection H as <- <- <-; cbn [fst snd].
    - split; [|split; [|auto]].
      + eapply same_book_trans; [|apply order_created_book]. split; reflexivity.
      + rewrite order_created_log. reflexivity.
    - repeat split; reflexivity.
  Qed.

  Lemma acc_order_ok id now code n st sd a g r a' g' :
    acc_order gt id now code n st sd a g = (r, a', g') -> book_ok a -> book_ok a' /\ grows a a'.
  Proof.
    intros H HB. destruct (acc_order_book _ _ _ _ _ _ _ _ _ _ _ H) as [S _]. split.
    - eapply same_book_ok; [exact S|]. apply store_ok; auto.
    - eapply grows_trans; [apply grows_store|apply grows_same, S].
  Qed.

  (** ** cancels *)
  Lemma acc_cancel_spec id a g :
    let k := dmem id (a_orders a) in
    acc_cancel gt id a g =
      (if k then acc_log (EvCancel id) a else a, if k then snd (g_cancel gt id g) else g).
  Proof. cbn. unfold acc_cancel. destruct (dmem id (a_orders a)); reflexivity. Qed.

  (** ** balance *)
  Lemma add_positions_frame l a :
    same_book a (add_positions l a) /\ a_log (add_positions l a) = a_log a /\
    a_synced (add_positions l a) = a_synced a /\
    a_total (add_positions l a) = a_total a /\ a_cash (add_positions l a) = a_cash a /\ a_locked (add_positions l a) = a_locked a.
  Proof.
    revert a; induction l as [|p l IH]; intro a; cbn [add_positions]; [repeat split|].
    destruct (pos_of p) as [q|]; [|repeat split].
    set (a1 := match ps_side q with Long => _ | Short => _ end).
    destruct (IH a1) as (A & B & C & D & E & F).
    assert (X : same_book a a1 /\ a_log a1 = a_log a /\ a_synced a1 = a_synced a /\ a_total a1 = a_total a /\
                a_cash a1 = a_cash a /\ a_locked a1 = a_locked a)
      by (subst a1; destruct (ps_side q); repeat split).
    destruct X as (X1 & X2 & X3 & X4 & X5 & X6).
    rewrite B, C, D, E, F. split; [eapply same_book_trans; eauto|auto].
  Qed.
  Lemma sync_balance_book a g : same_book a (fst (acc_sync_balance gt a g)) /\
    a_log (fst (acc_sync_balance gt a g)) = a_log a.
  Proof.
    unfold acc_sync_balance. destruct (g_sync_balance gt g) as [[b|] g']; [|repeat split].
    destruct (b_cash b) as [c|]; [|repeat split]. destruct (b_pos b) as [l|]; [|repeat split]. cbn [fst].
    match goal with |- same_book _ (add_positions l ?x) /\ _ => destruct (add_positions_frame l x) as (A & B & _) end.
    split; [|exact B]. eapply same_book_trans; [|exact A]. split; reflexivity.
  Qed.

  (** ** order sync *)
  Lemma sync_one_ok i a a' : sync_one i a = Ok a' -> book_ok a -> book_ok a' /\ grows a a'.
  Proof.
    unfold sync_one. destruct (load i) as [rem|] eqn:L; cbn [rbind]; [|discriminate].
    apply load_inv in L. destruct L as (Hag & Hid & Hp & _).
    intros H HB. destruct (local_order (i_id i) a) as [l|].
    - destruct (same rem l); apply Ok_inj in H; subst a'; [split; [exact HB|apply grows_refl]|].
      assert (S : same_book (store (i_id i) rem a)
                   (match notice_for l rem with Some k => acc_log (EvNotice k rem) (store (i_id i) rem a)
                    | None => store (i_id i) rem a end))
        by (destruct (notice_for l rem); split; reflexivity).
      split; [eapply same_book_ok; [exact S|apply store_ok; auto]|].
      eapply grows_trans; [apply grows_store|apply grows_same, S].
    - apply Ok_inj in H; subst a'. split; [apply store_ok; auto|apply grows_store].
  Qed.
  Lemma sync_all_ok l a : book_ok a -> book_ok (sync_all l a) /\ grows a (sync_all l a).
  Proof.
    revert a; induction l as [|i l IH]; intros a HB; cbn [sync_all].
    - split; [exact HB|apply grows_same; split; reflexivity].
    - destruct (sync_one i a) as [a1|] eqn:E; [|split; [exact HB|apply grows_refl]].
      destruct (sync_one_ok _ _ _ E HB) as [B1 B2]. destruct (IH a1 B1) as [C1 C2].
      split; [exact C1|eapply grows_trans; eauto].
  Qed.
  Lemma sync_orders_ok a g : book_ok a -> book_ok (fst (acc_sync_orders gt a g)) /\ grows a (fst (acc_sync_orders gt a g)).
  Proof.
    intro HB. unfold acc_sync_orders. destruct (g_sync_orders gt g) as [[l|] g']; [apply sync_all_ok, HB|].
    split; [exact HB|apply grows_refl].
  Qed.

  (** one report: what becomes of the book *)
  Lemma sync_one_spec i a a' : book_ok a -> sync_one i a = Ok a' ->
    (exists o, local_order (i_id i) a' = Some o /\ agrees i o) /\
    (forall id, id <> i_id i -> local_order id a' = local_order id a).
  Proof.
    intros HB H. unfold sync_one in H. destruct (load i) as [rem|] eqn:L; cbn [rbind] in H; [|discriminate].
    apply load_inv in L. destruct L as (Hag & Hid & Hp & _).
    destruct (local_order (i_id i) a) as [l|] eqn:El.
    - destruct (same rem l) eqn:Es; apply Ok_inj in H; subst a'.
      + split; [|auto]. exists l. split; [exact El|]. apply same_fields in Es.
        destruct Es as (E1 & E2 & E3 & E4 & E5 & E6 & E7). unfold agrees in *.
        rewrite <- E1, <- E2, <- E3, <- E4, <- E5, <- E6, <- E7. exact Hag.
      + set (b := match notice_for l rem with Some k => _ | None => _ end).
        assert (S : same_book (store (i_id i) rem a) b) by (subst b; destruct (notice_for l rem); split; reflexivity).
        split.
        * exists rem. split; [|exact Hag]. rewrite (same_book_local _ _ _ S). apply local_recorded, recorded_store_same.
        * intros id Hn. rewrite (same_book_local _ _ _ S). apply local_store_other; assumption.
    - apply Ok_inj in H; subst a'. split.
      + exists rem. split; [apply local_recorded, recorded_store_same|exact Hag].
      + intros id Hn. apply local_store_other; assumption.
  Qed.
  Lemma sync_one_loads i a : loadable i -> exists a', sync_one i a = Ok a'.
  Proof.
    intros H0. apply loadable_iff in H0 as [o H]. unfold sync_one. rewrite H; cbn [rbind].
    destruct (local_order (i_id i) a) as [l|]; [destruct (same o l)|]; eauto.
  Qed.

  Lemma sync_all_other l a id : book_ok a -> ~ In id (map i_id l) ->
    local_order id (sync_all l a) = local_order id a.
  Proof.
    revert a; induction l as [|i l IH]; intros a HB Hn; cbn [sync_all].
    - reflexivity.
    - destruct (sync_one i a) as [a1|] eqn:E; [|reflexivity].
      destruct (sync_one_ok _ _ _ E HB) as [B1 _]. destruct (sync_one_spec _ _ _ HB E) as [_ S2].
      cbn in Hn. rewrite IH by tauto. apply S2. intro; apply Hn; auto.
  Qed.

  Lemma sync_all_agrees pre i post a : book_ok a -> Forall loadable (pre ++ i :: post) ->
    ~ In (i_id i) (map i_id post) ->
    exists o, local_order (i_id i) (sync_all (pre ++ i :: post) a) = Some o /\ agrees i o.
  Proof.
    revert a; induction pre as [|j pre IH]; intros a HB HL Hn; cbn [app sync_all].
    - inversion_clear HL. destruct (sync_one_loads i a H) as [a1 E]. rewrite E.
      destruct (sync_one_ok _ _ _ E HB) as [B1 _]. destruct (sync_one_spec _ _ _ HB E) as [[o [S1 S2]] _].
      exists o. split; [|exact S2]. rewrite sync_all_other by assumption. exact S1.
    - inversion_clear HL. destruct (sync_one_loads j a H) as [a1 E]. rewrite E.
      destruct (sync_one_ok _ _ _ E HB) as [B1 _]. apply IH; assumption.
  Qed.
  Lemma sync_all_completes l a : Forall loadable l -> a_synced (sync_all l a) = true.
  Proof.
    revert a; induction l as [|i l IH]; intros a HL; cbn [sync_all]; [reflexivity|].
    inversion_clear HL. destruct (sync_one_loads i a H) as [a1 E]. rewrite E. apply IH; assumption.
  Qed.

  (** ** notices *)
  Lemma notice_for_ok l rem k : notice_for l rem = Some k ->
    kind_of k (o_status rem) /\ ~ final_status (o_status l).
  Proof.
    unfold notice_for. intro H.
    assert (X : forall s, finished s = false -> ~ final_status s).
    { intros s; destruct s; cbn; intro Hs; try discriminate Hs; intro Q;
        repeat (destruct Q as [Q|Q]; [discriminate|]); exact Q. }
    destruct (o_status l) eqn:El, (o_status rem) eqn:Er; cbn in H; try discriminate H;
      injection H as <-; split; cbn; auto; apply X; reflexivity.
  Qed.
  Lemma notice_for_some l rem : changed l rem -> ~ final_status (o_status l) ->
    (o_status rem = Sfilling \/
     (o_status l <> o_status rem /\ In (o_status rem) [Sfilled; Scanceling; Spartly_canceled; Scanceled; Srejected]) \/
     (o_status l = Snew /\ o_status rem = Sopen)) ->
    exists k, notice_for l rem = Some k.
  Proof.
    intros _ Hf H. unfold notice_for, final_status in *.
    destruct (o_status l) eqn:El, (o_status rem) eqn:Er; cbn; eauto; exfalso; cbn in *;
      (apply Hf; tauto) || (destruct H as [H|[[H1 H2]|[H1 H2]]]; try discriminate; try congruence;
        repeat (destruct H2 as [H2|H2]; [discriminate|]); auto).
  Qed.

  (** the notice logged for the report [i] in state [a] *)
  Definition note_of (i : oinfo) (a : acct) : list aevent :=
    match load i, local_order (i_id i) a with
    | Ok rem, Some l => if same rem l then [] else match notice_for l rem with Some k => [EvNotice k rem] | None => [] end
    | _, _ => []
    end.
  Lemma sync_one_log i a a' : sync_one i a = Ok a' -> a_log a' = a_log a ++ note_of i a.
  Proof.
    unfold sync_one, note_of. destruct (load i) as [rem|]; cbn [rbind]; [|discriminate].
    destruct (local_order (i_id i) a) as [l|]; [destruct (same rem l)|]; intro H; apply Ok_inj in H; subst a'.
    - symmetry; apply app_nil_r.
    - destruct (notice_for l rem); cbn; [reflexivity|symmetry; apply app_nil_r].
    - cbn. symmetry; apply app_nil_r.
  Qed.
End Acc.
