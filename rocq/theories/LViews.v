(** Lemmas for C93. *)
From Verif Require Import PyBase PyStr MOrder MAccount MViews SViews.
From Coq Require Import Lia Permutation.
Open Scope Z_scope.

Lemma set_nth_length {A} n (x : A) l : length (set_nth n x l) = length l.
Proof. revert n. induction l as [|y l IH]; intros [|n]; cbn; auto. Qed.
Lemma set_nth_same {A} n (x : A) l : (n < length l)%nat -> nth_error (set_nth n x l) n = Some x.
Proof. revert n. induction l as [|y l IH]; intros [|n]; cbn; try lia; auto. intro. apply IH. lia. Qed.
Lemma set_nth_other {A} n m (x : A) l : m <> n -> nth_error (set_nth n x l) m = nth_error l m.
Proof. revert n m. induction l as [|y l IH]; intros [|n] [|m]; cbn; auto; try congruence. Qed.

Definition refs (v : vacct) : list nat := map snd (v_long v) ++ map snd (v_short v).
Record v_ok (v : vacct) : Prop := {
  ok_nodup : NoDup (refs v);
  ok_valid : forall r, In r (refs v) -> (r < length (v_heap v))%nat
}.

Lemma dset_vals {V} k (x : V) (d : dict str V) : forall y, In y (map snd (dset k x d)) -> y = x \/ In y (map snd d).
Proof.
  induction d as [|[k' v'] d IH]; intros y; cbn [dset map snd In].
  - intuition.
  - destruct (eqb k k'); cbn [map snd In]; [intuition|]. intros [H|H]; [auto|]. destruct (IH y H); auto.
Qed.
Lemma dset_nodup {V} k (x : V) (d : dict str V) : NoDup (map snd d) -> ~ In x (map snd d) -> NoDup (map snd (dset k x d)).
Proof.
  induction d as [|[k' v'] d IH]; cbn [dset map snd]; intros ND H.
  - constructor; [intros []|constructor].
  - apply NoDup_cons_iff in ND. destruct ND as [N1 N2]. destruct (eqb k k'); cbn [map snd].
    + constructor; [intro; apply H; right; assumption|exact N2].
    + constructor; [|apply IH; [exact N2|intro; apply H; right; assumption]]. intro X. apply dset_vals in X. destruct X as [->|X]; [apply H; left; reflexivity|contradiction].
Qed.
Lemma nodup_app_iff {A} (a b : list A) : NoDup (a ++ b) <-> NoDup a /\ NoDup b /\ forall x, In x a -> ~ In x b.
Proof.
  induction a as [|x a IH]; cbn [app].
  - split; [intro; repeat split; [constructor|assumption|intros ? []]|tauto].
  - rewrite !NoDup_cons_iff, IH, in_app_iff. cbn [In]. split.
    + intros (H1 & H2 & H3 & H4). repeat split; auto. intros y [<-|Y]; [auto|apply H4, Y].
    + intros ((H1 & H2) & H3 & H4). repeat split; auto. intros [X|X]; [auto|]. exact (H4 x (or_introl eq_refl) X).
Qed.

Lemma values_grow h q d : (forall r, In r (map snd d) -> (r < length h)%nat) -> values (h ++ [q]) d = values h d.
Proof.
  intro H. unfold values. apply map_ext_in. intros [k r] I. cbn [fst snd]. f_equal. unfold deref_pos. apply app_nth1, H. apply in_map_iff. exists (k, r). auto.
Qed.
Lemma values_dset h k r d : values h (dset k r d) = dset k (deref_pos h r) (values h d).
Proof.
  induction d as [|[k' r'] d IH]; [reflexivity|]. unfold values in *. cbn [dset map fst snd]. destruct (eqb k k'); cbn [map fst snd]; [reflexivity|]. f_equal. exact IH.
Qed.
Lemma values_get h k d : dget k (values h d) = option_map (deref_pos h) (dget k d).
Proof. induction d as [|[k' r'] d IH]; [reflexivity|]. unfold values in *. cbn [map dget fst snd]. destruct (eqb k k'); [reflexivity|exact IH]. Qed.
Lemma deref_set h r p x : (r < length h)%nat -> deref_pos (set_nth r p h) x = if Nat.eqb x r then p else deref_pos h x.
Proof.
  intro H. unfold deref_pos. destruct (Nat.eqb_spec x r) as [->|N].
  - rewrite (nth_error_nth _ _ _ (set_nth_same r p h H)). reflexivity.
  - pose proof (set_nth_other r x p h N) as E. destruct (nth_error h x) as [q|] eqn:Q.
    + rewrite (nth_error_nth _ _ _ E), (nth_error_nth _ _ _ Q). reflexivity.
    + apply nth_error_None in Q, E. rewrite !nth_overflow by assumption. reflexivity.
Qed.
Lemma values_other h r p d : (r < length h)%nat -> ~ In r (map snd d) -> values (set_nth r p h) d = values h d.
Proof.
  intros H N. unfold values. apply map_ext_in. intros [k x] I. cbn [fst snd]. f_equal. rewrite deref_set by exact H.
  destruct (Nat.eqb_spec x r) as [->|]; [|reflexivity]. exfalso. apply N. apply in_map_iff. exists (k, r). auto.
Qed.
Lemma values_touch h k r p d : (r < length h)%nat -> NoDup (map snd d) -> dget k d = Some r -> values (set_nth r p h) d = dset k p (values h d).
Proof.
  intro H. induction d as [|[k' x] d IH]; cbn [dget map snd]; [discriminate|]. intros ND E. apply NoDup_cons_iff in ND. destruct ND as [N1 N2].
  change (values (set_nth r p h) ((k', x) :: d)) with ((k', deref_pos (set_nth r p h) x) :: values (set_nth r p h) d).
  change (values h ((k', x) :: d)) with ((k', deref_pos h x) :: values h d). cbn [dset].
  rewrite deref_set by exact H. destruct (eqb k k').
  - injection E as ->. rewrite Nat.eqb_refl, values_other by assumption. reflexivity.
  - assert (In r (map snd d)) by (apply dget_In in E; apply in_map_iff; exists (k, r); auto).
    destruct (Nat.eqb_spec x r) as [->|]; [contradiction|]. rewrite (IH N2 E). reflexivity.
Qed.

Lemma dget_ref k r (d : dict str nat) : dget k d = Some r -> In r (map snd d).
Proof. intro E. apply dget_In in E. apply in_map_iff. exists (k, r). auto. Qed.

Lemma new_ok b : v_ok (VAcct b [] [] []).
Proof. split; [constructor|intros r []]. Qed.
Lemma on_base_ok a v : v_ok v -> v_ok (on_base a v).
Proof. intros [H1 H2]. split; assumption. Qed.
Lemma clear_ok b h : v_ok (VAcct b h [] []).
Proof. split; [constructor|intros r []]. Qed.

Definition grown (v v' : vacct) : Prop := exists l, v_heap v' = v_heap v ++ l.
Lemma v_add_spec l : forall v, v_ok v ->
  v_ok (v_add l v) /\ grown v (v_add l v) /\ v_base (v_add l v) = v_base v /\
  (forall r, In r (refs (v_add l v)) -> In r (refs v) \/ (length (v_heap v) <= r)%nat) /\
  erase (v_add l v) = add_positions l (erase v).
Proof.
  induction l as [|p l IH]; intros v Hv; cbn [v_add add_positions].
  - split; [exact Hv|]. split; [exists []; rewrite app_nil_r; reflexivity|]. auto.
  - destruct (pos_of p) as [q|e].
    2: { split; [exact Hv|]. split; [exists []; rewrite app_nil_r; reflexivity|]. auto. }
    destruct Hv as [ND V].
    assert (Fr : ~ In (length (v_heap v)) (refs v)) by (intro X; apply V in X; lia).
    set (v1 := match ps_side q with
               | Long => VAcct (v_base v) (v_heap v ++ [q]) (dset (ps_code q) (length (v_heap v)) (v_long v)) (v_short v)
               | Short => VAcct (v_base v) (v_heap v ++ [q]) (v_long v) (dset (ps_code q) (length (v_heap v)) (v_short v)) end).
    assert (R1 : forall r, In r (refs v1) -> r = length (v_heap v) \/ In r (refs v)).
    { intros r. unfold v1, refs. destruct (ps_side q); cbn [v_long v_short]; rewrite !in_app_iff; intros [X|X]; auto; apply dset_vals in X; tauto. }
    assert (Hl : v_heap v1 = v_heap v ++ [q]) by (unfold v1; destruct (ps_side q); reflexivity).
    assert (Hb : v_base v1 = v_base v) by (unfold v1; destruct (ps_side q); reflexivity).
    assert (O1 : v_ok v1).
    { split.
      - unfold refs in ND, Fr. apply nodup_app_iff in ND. destruct ND as (N1 & N2 & N3). rewrite in_app_iff in Fr. unfold v1, refs. destruct (ps_side q); cbn [v_long v_short]; apply nodup_app_iff.
        + split; [apply dset_nodup; tauto|]. split; [exact N2|]. intros r X. apply dset_vals in X. destruct X as [->|X]; [tauto|auto].
        + split; [exact N1|]. split; [apply dset_nodup; tauto|]. intros r X Y. apply dset_vals in Y. destruct Y as [->|Y]; [tauto|exact (N3 r X Y)].
      - intros r X. rewrite Hl, app_length. cbn. destruct (R1 r X) as [->|Y]; [lia|]. apply V in Y. lia. }
    assert (E1 : erase v1 = match ps_side q with
               | Long => set_positions (dset (ps_code q) q (a_long (erase v))) (a_short (erase v)) (erase v)
               | Short => set_positions (a_long (erase v)) (dset (ps_code q) q (a_short (erase v))) (erase v) end).
    { assert (Q : deref_pos (v_heap v ++ [q]) (length (v_heap v)) = q) by (unfold deref_pos; rewrite app_nth2, Nat.sub_diag by lia; reflexivity).
      assert (VL : forall r, In r (map snd (v_long v)) -> (r < length (v_heap v))%nat) by (intros; apply V; unfold refs; apply in_app_iff; auto).
      assert (VS : forall r, In r (map snd (v_short v)) -> (r < length (v_heap v))%nat) by (intros; apply V; unfold refs; apply in_app_iff; auto).
      unfold v1, erase. destruct (ps_side q); cbn [v_long v_short v_heap v_base]; rewrite values_dset, Q, !values_grow by assumption; destruct (v_base v); reflexivity. }
    destruct (IH v1 O1) as (I1 & (l' & I2) & I3 & I4 & I5). split; [exact I1|]. split; [exists (q :: l'); rewrite I2, Hl, <- app_assoc; reflexivity|].
    split; [congruence|]. split; [|rewrite I5, E1; reflexivity].
    intros r X. destruct (I4 r X) as [Y|Y]; [destruct (R1 r Y) as [->|Z]; auto|right; rewrite Hl, app_length in Y; cbn in Y; lia].
Qed.

Section Gate.
  Context {G : Type} (gt : gate G).

  Lemma touch_ok r o v : v_ok v -> v_ok (touch r o v).
  Proof. intros [H1 H2]. unfold touch. destruct (nth_error (v_heap v) r); [|split; assumption]. split; [exact H1|]. cbn [v_heap]. rewrite set_nth_length. exact H2. Qed.
  Lemma created_ok o v : v_ok v -> v_ok (v_order_created o v).
  Proof. intro H. unfold v_order_created. destruct (dget _ _); [apply touch_ok|]; exact H. Qed.

  Lemma values_eq (l s : dict str position) a : a_long (set_positions l s a) = l /\ a_short (set_positions l s a) = s.
  Proof. split; reflexivity. Qed.
  Lemma created_erase o v : v_ok v -> erase (v_order_created o v) = acc_order_created o (erase v).
  Proof.
    intros [ND V]. unfold refs in ND. apply nodup_app_iff in ND. destruct ND as (N1 & N2 & N3).
    unfold v_order_created, acc_order_created. change (a_long (erase v)) with (values (v_heap v) (v_long v)). change (a_short (erase v)) with (values (v_heap v) (v_short v)).
    destruct (o_side o); rewrite values_get.
    - destruct (dget (o_code o) (v_long v)) as [r|] eqn:E; [|reflexivity]. cbn [option_map].
      assert (I : In r (map snd (v_long v))) by (eapply dget_ref, E).
      assert (L : (r < length (v_heap v))%nat) by (apply V; unfold refs; apply in_app_iff; auto).
      unfold touch. destruct (nth_error (v_heap v) r) as [p|] eqn:P; [|apply nth_error_None in P; lia].
      unfold erase. cbn [v_base v_heap v_long v_short]. rewrite (values_touch _ _ _ _ _ L N1 E), values_other by (auto; apply N3, I).
      replace (deref_pos (v_heap v) r) with p by (symmetry; apply nth_error_nth, P). destruct (v_base v); reflexivity.
    - destruct (dget (o_code o) (v_short v)) as [r|] eqn:E; [|reflexivity]. cbn [option_map].
      assert (I : In r (map snd (v_short v))) by (eapply dget_ref, E).
      assert (L : (r < length (v_heap v))%nat) by (apply V; unfold refs; apply in_app_iff; auto).
      unfold touch. destruct (nth_error (v_heap v) r) as [p|] eqn:P; [|apply nth_error_None in P; lia].
      unfold erase. cbn [v_base v_heap v_long v_short]. rewrite (values_touch _ _ _ _ _ L N2 E), values_other by (auto; intro X; exact (N3 r X I)).
      replace (deref_pos (v_heap v) r) with p by (symmetry; apply nth_error_nth, P). destruct (v_base v); reflexivity.
  Qed.

  (** orders are synced without looking at positions *)
  Lemma local_pos id l s a : local_order id (set_positions l s a) = local_order id a.
  Proof. reflexivity. Qed.
  Lemma sync_one_pos i l s a : sync_one i (set_positions l s a) = match sync_one i a with Ok a' => Ok (set_positions l s a') | Err e => Err e end.
  Proof.
    unfold sync_one. rewrite local_pos. destruct (load i) as [o|]; cbn [rbind]; [|reflexivity]. destruct (local_order (i_id i) a) as [loc|]; [|reflexivity].
    destruct (same o loc); [reflexivity|]. destruct (notice_for loc o); reflexivity.
  Qed.
  Lemma sync_all_pos l s li : forall a, sync_all li (set_positions l s a) = set_positions l s (sync_all li a).
  Proof. induction li as [|i li IH]; intro a; [reflexivity|]. cbn [sync_all]. rewrite sync_one_pos. destruct (sync_one i a); [apply IH|reflexivity]. Qed.

  Lemma step_ok op v g r v' g' : v_ok v -> v_step gt op (v, g) = (r, (v', g')) -> v_ok v'.
  Proof.
    intros H. destruct op as [id now code n st sd|id| | |g0]; cbn [v_step].
    - unfold v_order. destruct (g_order gt _ g) as [[u|e] g1]; intro E; injection E as <- <- <-; [apply created_ok, on_base_ok, H|apply on_base_ok, H].
    - destruct (acc_cancel gt id (v_base v) g) as [a g1]. intro E. injection E as <- <- <-. apply on_base_ok, H.
    - unfold v_sync_balance. destruct (g_sync_balance gt g) as [[b|e] g1]; [destruct (b_cash b), (b_pos b)|]; intro E; injection E as <- <- <-; try exact H.
      apply v_add_spec, clear_ok.
    - destruct (acc_sync_orders gt (v_base v) g) as [a g1]. intro E. injection E as <- <- <-. apply on_base_ok, H.
    - intro E. injection E as <- <- <-. exact H.
  Qed.
  Lemma step_erase op v g r v' g' : v_ok v -> v_step gt op (v, g) = (r, (v', g')) -> a_step gt op (erase v, g) = (r, (erase v', g')).
  Proof.
    intros H. destruct op as [id now code n st sd|id| | |g0]; cbn [v_step a_step].
    - unfold v_order, acc_order. destruct (g_order gt _ g) as [[u|e] g1]; intro E; injection E as <- <- <-; [|reflexivity].
      rewrite created_erase by (apply on_base_ok, H). reflexivity.
    - unfold acc_cancel. change (a_orders (erase v)) with (a_orders (v_base v)). destruct (dmem id (a_orders (v_base v))); intro E; injection E as <- <- <-; reflexivity.
    - unfold v_sync_balance, acc_sync_balance. destruct (g_sync_balance gt g) as [[b|e] g1]; [destruct (b_cash b), (b_pos b)|]; intro E; injection E as <- <- <-; try reflexivity.
      destruct (v_add_spec l _ (clear_ok (set_cash (or_old (c_total c) (a_total (v_base v))) (or_old (c_avail c) (a_cash (v_base v))) (or_old (c_locked c) (a_locked (v_base v))) (v_base v)) (v_heap v)))
        as (_ & _ & _ & _ & ->). reflexivity.
    - unfold acc_sync_orders. destruct (g_sync_orders gt g) as [[l|e] g1]; intro E; injection E as <- <- <-; [|reflexivity].
      unfold erase. cbn [on_base v_base v_heap v_long v_short]. rewrite sync_all_pos. reflexivity.
    - intro E. injection E as <- <- <-. reflexivity.
  Qed.
  Lemma run_ok ops : forall v g rs v' g', v_ok v -> v_run gt ops (v, g) = (rs, (v', g')) -> v_ok v' /\ a_run gt ops (erase v, g) = (rs, (erase v', g')).
  Proof.
    induction ops as [|op ops IH]; intros v g rs v' g' H; cbn [v_run a_run].
    - intro E. injection E as <- <- <-. auto.
    - destruct (v_step gt op (v, g)) as [r [v1 g1]] eqn:S. destruct (v_run gt ops (v1, g1)) as [rs1 [v2 g2]] eqn:R. intro E. injection E as <- <- <-.
      rewrite (step_erase _ _ _ _ _ _ H S). destruct (IH _ _ _ _ _ (step_ok _ _ _ _ _ _ H S) R) as [A B]. rewrite B. auto.
  Qed.
  Lemma reach_ok s : v_reach gt s -> v_ok (fst s).
  Proof. induction 1 as [g|op [v g] r [v' g'] _ IH S]; [apply new_ok|]. cbn [fst] in *. eapply step_ok; eassumption. Qed.

  (** ** one object *)
  Lemma created_heap o v r : v_ok v ->
    nth_error (v_heap (v_order_created o v)) r =
      if match dget (o_code o) (match o_side o with Long => v_long v | Short => v_short v end) with Some x => Nat.eqb r x | None => false end
      then option_map (pos_order_created o) (nth_error (v_heap v) r) else nth_error (v_heap v) r.
  Proof.
    intros [_ V]. unfold v_order_created. destruct (dget (o_code o) _) as [x|] eqn:E; [|reflexivity].
    assert (L : (x < length (v_heap v))%nat) by (apply V; unfold refs; apply in_app_iff; apply dget_ref in E; destruct (o_side o); auto).
    unfold touch. destruct (nth_error (v_heap v) x) as [p|] eqn:P; [|apply nth_error_None in P; lia]. cbn [v_heap].
    destruct (Nat.eqb_spec r x) as [->|N]; [rewrite P; apply set_nth_same, L|apply set_nth_other, N].
  Qed.
  Lemma created_dicts o v : v_long (v_order_created o v) = v_long v /\ v_short (v_order_created o v) = v_short v /\ length (v_heap (v_order_created o v)) = length (v_heap v).
  Proof. unfold v_order_created. destruct (dget _ _); [|auto]. unfold touch. destruct (nth_error _ _); [|auto]. cbn. rewrite set_nth_length. auto. Qed.

  (** an object no dict refers to stays as it is, and is never referred to again *)
  Lemma step_detached op v g res v' g' r : v_ok v -> ~ In r (map snd (v_long v)) -> (r < length (v_heap v))%nat -> v_step gt op (v, g) = (res, (v', g')) ->
    nth_error (v_heap v') r = nth_error (v_heap v) r /\ ~ In r (map snd (v_long v')) /\ (r < length (v_heap v'))%nat.
  Proof.
    intros H N L. destruct op as [id now code n st sd|id| | |g0]; cbn [v_step].
    - unfold v_order. destruct (g_order gt _ g) as [[u|e] g1]; intro E; injection E as <- <- <-; [|auto].
      rewrite created_heap by (apply on_base_ok, H). destruct (created_dicts (new_order id now code n st sd) (on_base (acc_log (EvOrder (new_order id now code n st sd)) (store id (new_order id now code n st sd) (v_base v))) v)) as (-> & _ & ->).
      cbn [on_base v_long v_short v_heap new_order o_side o_code]. destruct (dget code (v_long v)) as [x|] eqn:D; [|auto].
      destruct (Nat.eqb_spec r x) as [->|]; [|auto]. exfalso. apply N. eapply dget_ref, D.
    - destruct (acc_cancel gt id (v_base v) g) as [a g1]. intro E. injection E as <- <- <-. auto.
    - unfold v_sync_balance. destruct (g_sync_balance gt g) as [[b|e] g1]; [destruct (b_cash b), (b_pos b)|]; intro E; injection E as <- <- <-; auto.
      match goal with |- context [v_add ?l ?w] => destruct (v_add_spec l w (clear_ok _ _)) as (A1 & (l' & A2) & _ & A4 & _) end. rewrite A2. cbn [v_heap] in *. split; [apply nth_error_app1, L|].
      split; [|rewrite app_length; lia]. intro X. destruct (A4 r) as [Y|Y]; [unfold refs; apply in_app_iff; left; exact X|exact Y|lia].
    - destruct (acc_sync_orders gt (v_base v) g) as [a g1]. intro E. injection E as <- <- <-. auto.
    - intro E. injection E as <- <- <-. auto.
  Qed.
  Lemma run_detached ops : forall v g rs v' g' r, v_ok v -> ~ In r (map snd (v_long v)) -> (r < length (v_heap v))%nat -> v_run gt ops (v, g) = (rs, (v', g')) ->
    nth_error (v_heap v') r = nth_error (v_heap v) r.
  Proof.
    induction ops as [|op ops IH]; intros v g rs v' g' r H N L; cbn [v_run].
    - intro E. injection E as <- <- <-. reflexivity.
    - destruct (v_step gt op (v, g)) as [x [v1 g1]] eqn:S. destruct (v_run gt ops (v1, g1)) as [rs1 [v2 g2]] eqn:R. intro E. injection E as <- <- <-.
      destruct (step_detached _ _ _ _ _ _ _ H N L S) as (A & B & C). rewrite <- A. eapply IH; [eapply step_ok; eassumption|exact B|exact C|exact R].
  Qed.

  (** an answered sync makes all new objects *)
  Lemma sync_detaches v g v' g' : answers gt g -> v_sync_balance gt v g = (v', g') -> forall r, (r < length (v_heap v))%nat -> ~ In r (refs v').
  Proof.
    intros (b & c & l & g1 & E & Ec & El). unfold v_sync_balance. rewrite E, Ec, El. intro X. injection X as <- <-. intros r L.
    match goal with |- context [v_add ?l ?w] => destruct (v_add_spec l w (clear_ok _ _)) as (_ & _ & _ & A4 & _) end. intro Y. destruct (A4 r Y) as [[]|Z]. cbn in Z. lia.
  Qed.

  Lemma left_step a x xs : 0 < x -> (forall y, In y xs -> 0 < y) -> left_of a (x :: xs) = left_of (Z.max (a - x) 0) xs.
  Proof.
    intros Hx Hs. assert (S : 0 <= fold_right Z.add 0 xs).
    { clear Hx. induction xs as [|y xs IH]; [cbn; lia|]. cbn [fold_right]. pose proof (Hs y (or_introl eq_refl)). assert (0 <= fold_right Z.add 0 xs) by (apply IH; intros z Z; apply Hs; right; exact Z). lia. }
    unfold left_of. cbn [fold_right]. destruct xs as [|y xs]; cbn [fold_right] in *; lia.
  Qed.
  Lemma closed_pos c ops s xs : closed_since gt c ops s xs -> forall y, In y xs -> 0 < y.
  Proof. induction 1; intros y Y; try contradiction; auto. destruct Y as [<-|Y]; auto. Qed.

  Lemma held c ops s xs : closed_since gt c ops s xs -> forall r p rs v' g', v_ok (fst s) -> dget c (v_long (fst s)) = Some r ->
    nth_error (v_heap (fst s)) r = Some p -> v_run gt ops s = (rs, (v', g')) ->
    nth_error (v_heap v') r = Some (with_closeable (left_of (ps_avail p) xs) p).
  Proof.
    induction 1 as [s|ops v g Ha|ops s id now n st sd s' xs Hn Hs Hc IH|op ops v g rr s' xs Hs Hsync Hord Hc IH]; intros r p rs v' g' Hv D P R.
    - cbn [v_run] in R. injection R as <- ->. cbn [fst] in P. rewrite P. destruct p; reflexivity.
    - cbn [v_run v_step] in R. destruct (v_sync_balance gt v g) as [v1 g1] eqn:S. destruct (v_run gt ops (v1, g1)) as [rs1 [v2 g2]] eqn:R1. injection R as <- <- <-.
      cbn [fst] in *. assert (L : (r < length (v_heap v))%nat) by (apply nth_error_Some; congruence).
      assert (O1 : v_ok v1) by (eapply (step_ok ASyncBal); [exact Hv|cbn [v_step]; rewrite S; reflexivity]).
      assert (N1 : ~ In r (refs v1)) by (eapply sync_detaches; eassumption).
      assert (G1 : nth_error (v_heap v1) r = nth_error (v_heap v) r /\ (r < length (v_heap v1))%nat).
      { destruct Ha as (b & c0 & l & g0 & E & Ec & El). unfold v_sync_balance in S. rewrite E, Ec, El in S. injection S as <- <-.
        match goal with |- context [v_add ?l ?w] => destruct (v_add_spec l w (clear_ok _ _)) as (_ & (l' & A2) & _) end. rewrite A2. cbn [v_heap]. rewrite app_length. split; [apply nth_error_app1, L|lia]. }
      destruct G1 as [G1 G2]. rewrite (run_detached _ _ _ _ _ _ r O1 (fun X => N1 (proj2 (in_app_iff _ _ _) (or_introl X))) G2 R1), G1, P. destruct p; reflexivity.
    - destruct s as [v g], s' as [v1 g1]. cbn [fst] in *. cbn [v_run] in R. rewrite Hs in R. destruct (v_run gt ops (v1, g1)) as [rs1 [v2 g2]] eqn:R1. injection R as <- <- <-.
      pose proof (step_ok _ _ _ _ _ _ Hv Hs) as O1. cbn [v_step] in Hs. unfold v_order in Hs. destruct (g_order gt _ g) as [[u|e] gg]; [|discriminate Hs].
      injection Hs as Ev _. set (o := new_order id now c (- n) st sd) in *.
      set (w := on_base (acc_log (EvOrder o) (store id o (v_base v))) v) in *.
      assert (Ow : v_ok w) by (apply on_base_ok, Hv).
      assert (P1 : nth_error (v_heap v1) r = Some (with_closeable (Z.max (ps_avail p - n) 0) p)).
      { rewrite <- Ev, created_heap by exact Ow. change (o_side o) with Long. change (o_code o) with c. change (v_long w) with (v_long v). change (v_heap w) with (v_heap v). cbv beta iota.
        rewrite D, Nat.eqb_refl, P. cbn [option_map]. unfold pos_order_created. replace (o_action o) with Close by (unfold o, new_order; cbn [o_action]; rewrite (proj2 (Z.ltb_lt (- n) 0)) by lia; reflexivity).
        replace (o_amount o) with n by (unfold o, new_order; cbn [o_amount]; lia). reflexivity. }
      assert (D1 : dget c (v_long v1) = Some r) by (rewrite <- Ev; destruct (created_dicts o w) as (-> & _); exact D).
      rewrite (IH _ _ _ _ _ O1 D1 P1 eq_refl), left_step by (auto; eapply closed_pos, Hc). destruct p; reflexivity.
    - destruct s' as [v1 g1]. cbn [fst] in *. cbn [v_run] in R. rewrite Hs in R. destruct (v_run gt ops (v1, g1)) as [rs1 [v2 g2]] eqn:R1. injection R as <- <- <-.
      pose proof (step_ok _ _ _ _ _ _ Hv Hs) as O1.
      assert (Q : dget c (v_long v1) = Some r /\ nth_error (v_heap v1) r = Some p).
      { destruct op as [id now code n st sd|id| | |g0]; cbn [v_step] in Hs.
        - specialize (Hord _ _ _ _ _ _ eq_refl). unfold v_order in Hs. destruct (g_order gt _ g) as [[u|e] gg].
          + injection Hs as <- <- <-. match goal with |- context [v_order_created ?o ?w] => destruct (created_dicts o w) as (-> & _); rewrite (created_heap o w r) by (apply on_base_ok, Hv) end.
            cbn [on_base v_long v_short v_heap new_order o_side o_code]. split; [exact D|]. destruct (dget code (v_long v)) as [x|] eqn:X; [|exact P].
            destruct (Nat.eqb_spec r x) as [<-|]; [|exact P]. destruct Hord as [N|[N|N]]; [|rewrite P; cbn [option_map]; unfold pos_order_created, new_order; cbn [o_action]; rewrite (proj2 (Z.ltb_ge n 0)) by lia; reflexivity|discriminate N].
            exfalso. destruct Hv as [ND _]. unfold refs in ND. apply nodup_app_iff in ND. destruct ND as (ND & _). clear - ND D X N.
            induction (v_long v) as [|[k y] d IHd]; cbn [dget map snd] in *; [discriminate|]. apply NoDup_cons_iff in ND. destruct ND as [N1 N2].
            destruct (eqb_spec c k) as [->|Nc], (eqb_spec code k) as [->|Nk]; try congruence.
            * injection D as ->. apply N1. eapply dget_ref, X.
            * injection X as ->. apply N1. eapply dget_ref, D.
            * apply IHd; assumption.
          + injection Hs as <- <- <-. auto.
        - destruct (acc_cancel gt id (v_base v) g) as [a gg]. injection Hs as <- <- <-. auto.
        - unfold v_sync_balance in Hs. destruct (g_sync_balance gt g) as [[b|e] gg] eqn:Eg; [destruct (b_cash b) as [cc|] eqn:Ec, (b_pos b) as [ll|] eqn:El|]; injection Hs as <- <- <-; auto.
          exfalso. apply (Hsync eq_refl). exists b, cc, ll, gg. auto.
        - destruct (acc_sync_orders gt (v_base v) g) as [a gg]. injection Hs as <- <- <-. auto.
        - injection Hs as <- <- <-. auto. }
      destruct Q as [D1 P1]. exact (IH _ _ _ _ _ O1 D1 P1 eq_refl).
  Qed.
End Gate.
