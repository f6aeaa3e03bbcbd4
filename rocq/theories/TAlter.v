(** C157: trade gates that change the Order objects they are given. *)
From Coq Require Import String.
From Verif Require Import PyBase PyStr MOrder MAccount MAlter.
Open Scope list_scope.
Open Scope Z_scope.

(** ** what is meant *)
(** the gate that answers the same and leaves the objects alone *)
Definition quiet {G} (m : mgate G) : gate G :=
  Gate G (fun o g => let '(r, _, g') := mg_order m o g in (r, g')) (fun id g => let '(r, _, g') := mg_cancel m id g in (r, g'))
    (fun g => let '(r, _, g') := mg_sync_orders m g in (r, g')) (fun g => let '(r, _, g') := mg_sync_balance m g in (r, g')).
Definition quiet_op {G} (op : mop) : aop (G := G) :=
  match op with MOrd id now c n st sd => AOrder id now c n st sd | MCan id => ACancel id | MBal => ASyncBal | MSync => ASyncOrd | MEnv _ g => AEnv g end.
(** what is bought or sold *)
Definition terms (o : order) : str * Z * action * side := (o_code o, o_amount o, o_action o, o_side o).
(** order() leaves what is bought or sold as it is *)
Definition keeps_terms {G} (m : mgate G) : Prop := forall o g r t g', mg_order m o g = (r, t, g') -> forall k, terms (t k o) = terms o.
(** no call changes the status of an order *)
Definition still (t : touch) : Prop := forall k o, o_status (t k o) = o_status o.
Definition keeps_status {G} (m : mgate G) : Prop :=
  (forall o g, still (snd (fst (mg_order m o g)))) /\ (forall id g, still (snd (fst (mg_cancel m id g)))) /\
  (forall g, still (snd (fst (mg_sync_orders m g)))) /\ (forall g, still (snd (fst (mg_sync_balance m g)))).
Definition still_op {G} (op : mop (G := G)) : Prop := match op with MEnv t _ => still t | _ => True end.
(** the gate's calls, and all that is told but partial fills *)
Definition is_call (e : aevent) : bool := match e with EvNotice _ _ => false | _ => true end.
Definition but_filling (e : aevent) : bool := match e with EvNotice NFilling _ => false | _ => true end.

(** ** lemmas *)
Lemma mapi_nth {A B} (f : nat -> A -> B) : forall l n r, nth_error (mapi f n l) r = option_map (f (n + r)%nat) (nth_error l r).
Proof.
  induction l as [|x l IH]; intros n [|r]; cbn [mapi nth_error option_map]; try reflexivity.
  - rewrite Nat.add_0_r. reflexivity.
  - rewrite IH. replace (S n + r)%nat with (n + S r)%nat by lia. reflexivity.
Qed.
Lemma mapi_length {A B} (f : nat -> A -> B) : forall l n, List.length (mapi f n l) = List.length l.
Proof. induction l as [|x l IH]; intro n; cbn; [reflexivity|]. rewrite IH. reflexivity. Qed.
Lemma index_new r : forall l, Forall (fun x => (x < r)%nat) l -> index_of r (l ++ [r]) = Some (List.length l).
Proof.
  induction l as [|x l IH]; intro F; cbn [app index_of List.length]; [rewrite Nat.eqb_refl; reflexivity|]. apply Forall_cons_iff in F as [Hx F].
  destruct (Nat.eqb_spec x r); [lia|]. rewrite IH by exact F. reflexivity.
Qed.
Definition wf (a : acct) : Prop := forall id r, dget id (a_orders a) = Some r -> (r < List.length (a_heap a))%nat.
Lemma local_none a id : wf a -> (local_order id a = None <-> ~ In id (dkeys (a_orders a))).
Proof.
  intro W. unfold local_order. destruct (dget id (a_orders a)) as [r|] eqn:E.
  - unfold deref. split; [intro H; apply nth_error_None in H; apply W in E; lia|intro H; exfalso; apply H; eapply dget_key; exact E].
  - split; [intros _; apply dget_None; exact E|reflexivity].
Qed.
Lemma store_wf id o a : wf a -> wf (store id o a).
Proof.
  intros W k r. cbn [store a_orders a_heap]. rewrite app_length. cbn [List.length]. rewrite dget_dset. destruct (eqb_spec k id).
  - intro H; injection H as <-. lia.
  - intro H. apply W in H. lia.
Qed.
Lemma store_local id o a k : wf a -> local_order k (store id o a) = if str_eqb k id then Some o else local_order k a.
Proof.
  intro W. unfold local_order. cbn [store a_orders]. rewrite dget_dset. change (eqb k id) with (str_eqb k id). destruct (str_eqb k id).
  - unfold deref. cbn [store a_heap]. rewrite nth_error_app2 by lia. rewrite Nat.sub_diag. reflexivity.
  - destruct (dget k (a_orders a)) as [r|] eqn:E; [|reflexivity]. unfold deref. cbn [store a_heap]. rewrite nth_error_app1 by (eapply W; exact E). reflexivity.
Qed.
Lemma touch_local t gv a k : option_map o_status (local_order k (touch_acct t gv a)) = 
  match dget k (a_orders a) with Some r => option_map (fun o => o_status (touch_at t gv r o)) (deref a r) | None => None end.
Proof. unfold local_order, deref. cbn [touch_acct a_orders a_heap]. destruct (dget k (a_orders a)); [|reflexivity]. rewrite mapi_nth. cbn [Nat.add]. destruct (nth_error (a_heap a) n); reflexivity. Qed.
Lemma touch_still t gv a k : still t -> option_map o_status (local_order k (touch_acct t gv a)) = option_map o_status (local_order k a).
Proof.
  intro S. rewrite touch_local. unfold local_order. destruct (dget k (a_orders a)) as [r|]; [|reflexivity]. destruct (deref a r) as [o|]; [|reflexivity]. cbn [option_map].
  unfold touch_at. destruct (index_of r gv); [rewrite S|]; reflexivity.
Qed.
Lemma touch_wf t gv a : wf a -> wf (touch_acct t gv a).
Proof. intros W k r H. cbn [touch_acct a_heap a_orders] in *. rewrite mapi_length. eapply W, H. Qed.
Lemma keys_alike {V W} k (v : V) (w : W) (d : dict str V) (e : dict str W) : dkeys d = dkeys e -> dkeys (dset k v d) = dkeys (dset k w e).
Proof.
  revert e. induction d as [|[x y] d IH]; intros [|[x' y'] e] H; try discriminate H; [reflexivity|]. cbn [dkeys map fst] in H. injection H as <- H.
  cbn [dset]. destruct (eqb k x); cbn [dkeys map fst]; f_equal; [exact H|apply IH; exact H].
Qed.
Lemma keys_present {V} k (v : V) (d : dict str V) : In k (dkeys d) -> dkeys (dset k v d) = dkeys d.
Proof.
  induction d as [|[x y] d IH]; intro H; [destruct H|]. cbn [dset]. destruct (eqb_spec k x) as [->|N]; [reflexivity|]. cbn [dkeys map fst] in *. f_equal. apply IH. destruct H; [congruence|assumption].
Qed.
Lemma same_status a b : same a b = true -> o_status a = o_status b.
Proof. unfold same. rewrite !andb_true_iff. intros [[[[[[H _] _] _] _] _] _]. destruct (eqb_spec (o_status a) (o_status b)); [assumption|discriminate H]. Qed.
Lemma notice_status l l' r : o_status l = o_status l' -> notice_for l r = notice_for l' r.
Proof. unfold notice_for. intros ->. reflexivity. Qed.
Lemma notice_same l r k : o_status r = o_status l -> notice_for l r = Some k -> k = NFilling.
Proof. unfold notice_for. intros ->. destruct (o_status l); cbn; intro H; try discriminate H; injection H as <-; reflexivity. Qed.
Section Alike.
  Context (ST : Prop).
  (** the account with a gate that changes objects, and the one with the quiet gate *)
  Definition alike (a b : acct) : Prop :=
    (wf a /\ wf b /\ dkeys (a_orders a) = dkeys (a_orders b)) /\
    (a_long a = a_long b /\ a_short a = a_short b /\ a_total a = a_total b /\ a_cash a = a_cash b /\ a_locked a = a_locked b /\ a_synced a = a_synced b) /\
    filter is_call (a_log a) = filter is_call (a_log b) /\
    (ST -> (forall id, option_map o_status (local_order id a) = option_map o_status (local_order id b)) /\ filter but_filling (a_log a) = filter but_filling (a_log b)).
  Lemma alike_new : alike acct_new acct_new.
  Proof. repeat split; intros id r H; discriminate H. Qed.
  Lemma alike_store id o a b : alike a b -> alike (store id o a) (store id o b).
  Proof.
    intros ((W1 & W2 & K) & P & L & S). split; [|split; [exact P|split; [exact L|]]].
    - split; [apply store_wf, W1|]. split; [apply store_wf, W2|]. apply keys_alike, K.
    - intro H. destruct (S H) as [S1 S2]. split; [|exact S2]. intro k. rewrite !store_local by assumption. destruct (str_eqb k id); [reflexivity|apply S1].
  Qed.
  Lemma alike_right id o a b l : alike a b -> local_order id a = Some l -> o_status o = o_status l -> alike a (store id o b).
  Proof.
    intros ((W1 & W2 & K) & P & L & S) E Es. split; [|split; [exact P|split; [exact L|]]].
    - split; [exact W1|]. split; [apply store_wf, W2|]. cbn [store a_orders]. rewrite keys_present; [exact K|]. rewrite <- K.
      destruct (in_dec (list_eq_dec N.eq_dec) id (dkeys (a_orders a))) as [I|I]; [exact I|]. apply (local_none a id W1) in I. congruence.
    - intro H. destruct (S H) as [S1 S2]. split; [|exact S2]. intro k. rewrite store_local by exact W2. destruct (eqb_spec k id) as [->|N]; [|].
      + change (str_eqb id id) with (eqb id id). destruct (eqb_spec id id); [|congruence]. rewrite E. cbn. congruence.
      + change (str_eqb k id) with (eqb k id). destruct (eqb_spec k id); [congruence|]. apply S1.
  Qed.
  Lemma alike_left id o a b l : alike a b -> local_order id b = Some l -> o_status o = o_status l -> alike (store id o a) b.
  Proof.
    intros ((W1 & W2 & K) & P & L & S) E Es. split; [|split; [exact P|split; [exact L|]]].
    - split; [apply store_wf, W1|]. split; [exact W2|]. cbn [store a_orders]. rewrite keys_present; [exact K|]. rewrite K.
      destruct (in_dec (list_eq_dec N.eq_dec) id (dkeys (a_orders b))) as [I|I]; [exact I|]. apply (local_none b id W2) in I. congruence.
    - intro H. destruct (S H) as [S1 S2]. split; [|exact S2]. intro k. rewrite store_local by exact W1. change (str_eqb k id) with (eqb k id). destruct (eqb_spec k id) as [->|N]; [|apply S1].
      rewrite E. cbn. congruence.
  Qed.
  Lemma alike_log e a b : alike a b -> alike (acc_log e a) (acc_log e b).
  Proof.
    intros (W & P & L & S). split; [exact W|]. split; [exact P|]. cbn [acc_log a_log]. rewrite !filter_app, L. split; [reflexivity|].
    intro H. destruct (S H) as [S1 S2]. rewrite ?filter_app, S2. split; [exact S1|reflexivity].
  Qed.
  Lemma alike_log_left e a b : is_call e = false -> (ST -> but_filling e = false) -> alike a b -> alike (acc_log e a) b.
  Proof.
    intros C F (W & P & L & S). split; [exact W|]. split; [exact P|]. cbn [acc_log a_log]. rewrite !filter_app, L. cbn [filter]. rewrite C, app_nil_r. split; [reflexivity|].
    intro H. destruct (S H) as [S1 S2]. rewrite ?filter_app, S2. cbn [filter]. rewrite (F H), app_nil_r. split; [exact S1|reflexivity].
  Qed.
  Lemma alike_sym a b : alike a b -> alike b a.
  Proof.
    intros ((W1 & W2 & K) & (P1 & P2 & P3 & P4 & P5 & P6) & L & S). split; [auto|]. split; [repeat split; symmetry; assumption|]. split; [symmetry; exact L|]. intro H. destruct (S H) as [S1 S2]. split; [intro k; symmetry; apply S1|symmetry; exact S2].
  Qed.
  Lemma alike_log_right e a b : is_call e = false -> (ST -> but_filling e = false) -> alike a b -> alike a (acc_log e b).
  Proof. intros C F H. apply alike_sym, alike_log_left; auto. apply alike_sym, H. Qed.
  Lemma alike_synced a b : alike a b -> alike (set_synced a) (set_synced b).
  Proof. intros (W & (P1 & P2 & P3 & P4 & P5 & P6) & L & S). repeat split; try assumption; try apply W; apply S; assumption. Qed.
  Lemma alike_pos l s a b : alike a b -> alike (set_positions l s a) (set_positions l s b).
  Proof. intros (W & (P1 & P2 & P3 & P4 & P5 & P6) & L & S). repeat split; try assumption; try apply W; apply S; assumption. Qed.
  Lemma alike_cash t c k a b : alike a b -> alike (set_cash t c k a) (set_cash t c k b).
  Proof. intros (W & (P1 & P2 & P3 & P4 & P5 & P6) & L & S). repeat split; try assumption; try apply W; apply S; assumption. Qed.
  Lemma alike_touch t gv a b : (ST -> still t) -> alike a b -> alike (touch_acct t gv a) b.
  Proof.
    intros T ((W1 & W2 & K) & P & L & S). split; [|split; [exact P|split; [exact L|]]].
    - split; [apply touch_wf, W1|]. split; [exact W2|exact K].
    - intro H. destruct (S H) as [S1 S2]. split; [|exact S2]. intro k. rewrite touch_still by auto. apply S1.
  Qed.
  Lemma alike_one i a b : alike a b -> match sync_one i a, sync_one i b with Ok a', Ok b' => alike a' b' | Err x, Err y => x = y | _, _ => False end.
  Proof.
    intro H. unfold sync_one. destruct (load i) as [rem|x]; cbn [rbind]; [|reflexivity]. pose proof H as ((W1 & W2 & K) & _ & _ & S).
    destruct (local_order (i_id i) a) as [l|] eqn:E1; destruct (local_order (i_id i) b) as [l'|] eqn:E2.
    - assert (Q : ST -> o_status l = o_status l') by (intro X; destruct (S X) as [S1 _]; specialize (S1 (i_id i)); rewrite E1, E2 in S1; injection S1; auto).
      destruct (same rem l) eqn:M1; destruct (same rem l') eqn:M2.
      + exact H.
      + apply same_status in M1. pose proof (alike_right (i_id i) rem a b l H E1 M1) as A. destruct (notice_for l' rem) as [k|] eqn:N; [|exact A].
        apply alike_log_right; [reflexivity| |exact A]. intro X. rewrite (notice_same l' rem k) by (try rewrite <- (Q X); assumption). reflexivity.
      + apply same_status in M2. pose proof (alike_left (i_id i) rem a b l' H E2 M2) as A. destruct (notice_for l rem) as [k|] eqn:N; [|exact A].
        apply alike_log_left; [reflexivity| |exact A]. intro X. rewrite (notice_same l rem k) by (try rewrite (Q X); assumption). reflexivity.
      + pose proof (alike_store (i_id i) rem a b H) as A. destruct (notice_for l rem) as [k|] eqn:N; destruct (notice_for l' rem) as [k'|] eqn:N'.
        * assert (D : ST -> k = k') by (intro X; rewrite (notice_status l l' rem (Q X)) in N; congruence). apply alike_sym.
          destruct A as (Wa & P & L & Sa). split; [destruct Wa as (u & v & w); repeat split; auto|]. split; [destruct P as (p1&p2&p3&p4&p5&p6); repeat split; auto|].
          cbn [acc_log a_log]. rewrite !filter_app, L. split; [reflexivity|]. intro X. destruct (Sa X) as [s1 s2]. split; [intro q; symmetry; apply s1|]. rewrite ?filter_app, s2, (D X). reflexivity.
        * apply alike_log_left; [reflexivity| |exact A]. intro X. rewrite (notice_status l l' rem (Q X)) in N. congruence.
        * apply alike_log_right; [reflexivity| |exact A]. intro X. rewrite (notice_status l l' rem (Q X)) in N. congruence.
        * exact A.
    - exfalso. apply (local_none b (i_id i) W2) in E2. rewrite <- K in E2. apply (local_none a (i_id i) W1) in E2. congruence.
    - exfalso. apply (local_none a (i_id i) W1) in E1. rewrite K in E1. apply (local_none b (i_id i) W2) in E1. congruence.
    - apply alike_store, H.
  Qed.
  Lemma alike_all l : forall a b, alike a b -> alike (sync_all l a) (sync_all l b).
  Proof.
    induction l as [|i l IH]; intros a b H; cbn [sync_all]; [apply alike_synced, H|]. pose proof (alike_one i a b H) as X.
    destruct (sync_one i a), (sync_one i b); [apply IH, X|destruct X|destruct X|exact H].
  Qed.
  Lemma alike_add l : forall a b, alike a b -> alike (add_positions l a) (add_positions l b).
  Proof.
    induction l as [|p l IH]; intros a b H; cbn [add_positions]; [exact H|]. destruct (MAccount.pos_of p) as [q|]; [|exact H]. apply IH.
    destruct H as (W & (P1 & P2 & P) & LS). rewrite P1, P2. destruct (ps_side q); apply alike_pos; (split; [exact W|]); (split; [split; [exact P1|split; [exact P2|exact P]]|exact LS]).
  Qed.
  Lemma alike_created o o' a b : terms o = terms o' -> alike a b -> alike (acc_order_created o a) (acc_order_created o' b).
  Proof.
    intros T H. injection T as T1 T2 T3 T4. unfold acc_order_created. pose proof H as (_ & (P1 & P2 & _) & _). rewrite T1, T4, P1, P2.
    assert (Pc : forall p, pos_order_created o p = pos_order_created o' p) by (intro p; unfold pos_order_created; rewrite T2, T3; reflexivity).
    destruct (o_side o'); [destruct (dget (o_code o') (a_long b))|destruct (dget (o_code o') (a_short b))]; try exact H; rewrite Pc; apply alike_pos, H.
  Qed.
  Context {G : Type} (m : mgate G) (HT : keeps_terms m) (HS : ST -> keeps_status m).
  Lemma step_alike op s b g : (ST -> still_op op) -> alike (ma s) b ->
    exists s' b' g', m_step m op (s, g) = (fst (a_step (quiet m) (quiet_op op) (b, g)), (s', g')) /\ snd (a_step (quiet m) (quiet_op op) (b, g)) = (b', g') /\ alike (ma s') b'.
  Proof.
    intros So H. destruct op as [id now c n st sd|id| | |t g']; cbn [m_step quiet_op a_step].
    - unfold m_order, acc_order. set (o := new_order id now c n st sd). cbn [quiet g_order]. destruct (mg_order m o g) as [[r t] g'] eqn:E.
      assert (A : alike (touch_acct t (ma_given s ++ [List.length (a_heap (ma s))]) (acc_log (EvOrder o) (store id o (ma s)))) (acc_log (EvOrder o) (store id o b))).
      { apply alike_touch; [|apply alike_log, alike_store, H]. intro X. destruct (HS X) as (S1 & _). specialize (S1 o g). rewrite E in S1. exact S1. }
      destruct r as [u|x]; cbn [fst snd]; [|do 3 eexists; split; [reflexivity|split; [reflexivity|exact A]]].
      do 3 eexists; split; [reflexivity|split; [reflexivity|]]. cbn [ma].
      assert (D : exists o', deref (touch_acct t (ma_given s ++ [List.length (a_heap (ma s))]) (acc_log (EvOrder o) (store id o (ma s)))) (List.length (a_heap (ma s))) = Some o' /\ terms o' = terms o).
      { unfold deref. cbn [touch_acct a_heap acc_log store]. rewrite mapi_nth, nth_error_app2 by lia. rewrite Nat.sub_diag. cbn [nth_error option_map]. eexists. split; [reflexivity|].
        unfold touch_at. destruct (index_of _ _); [apply (HT o g _ _ _ E)|reflexivity]. }
      destruct D as (o' & -> & T). apply alike_created; assumption.
    - unfold m_cancel, acc_cancel. assert (D : dmem id (a_orders (ma s)) = dmem id (a_orders b)).
      { destruct H as ((_ & _ & K) & _). destruct (dmem id (a_orders b)) eqn:E; [apply dmem_In; apply dmem_In in E; rewrite K; exact E|].
        destruct (dmem id (a_orders (ma s))) eqn:E'; [|reflexivity]. apply dmem_In in E'. rewrite K in E'. apply dmem_In in E'. congruence. }
      rewrite D. destruct (dmem id (a_orders b)); [|do 3 eexists; split; [reflexivity|split; [reflexivity|exact H]]]. cbn [quiet g_cancel].
      destruct (mg_cancel m id g) as [[r t] g'] eqn:E. do 3 eexists; split; [reflexivity|split; [reflexivity|]]. cbn [ma]. apply alike_touch; [|apply alike_log, H].
      intro X. destruct (HS X) as (_ & S1 & _). specialize (S1 id g). rewrite E in S1. exact S1.
    - unfold m_sync_balance, acc_sync_balance. cbn [quiet g_sync_balance]. destruct (mg_sync_balance m g) as [[r t] g'] eqn:E.
      assert (A : alike (touch_acct t (ma_given s) (ma s)) b).
      { apply alike_touch; [|exact H]. intro X. destruct (HS X) as (_ & _ & _ & S1). specialize (S1 g). rewrite E in S1. exact S1. }
      destruct r as [bi|x]; [|do 3 eexists; split; [reflexivity|split; [reflexivity|exact A]]].
      destruct (b_cash bi) as [c|]; [|do 3 eexists; split; [reflexivity|split; [reflexivity|exact A]]].
      destruct (b_pos bi) as [l|]; [|do 3 eexists; split; [reflexivity|split; [reflexivity|exact A]]].
      do 3 eexists; split; [reflexivity|split; [reflexivity|]]. cbn [ma]. apply alike_add, alike_pos. pose proof A as (_ & (_ & _ & -> & -> & -> & _) & _). apply alike_cash, A.
    - unfold m_sync_orders, acc_sync_orders. cbn [quiet g_sync_orders]. destruct (mg_sync_orders m g) as [[r t] g'] eqn:E.
      assert (A : alike (touch_acct t (ma_given s) (ma s)) b).
      { apply alike_touch; [|exact H]. intro X. destruct (HS X) as (_ & _ & S1 & _). specialize (S1 g). rewrite E in S1. exact S1. }
      destruct r as [l|x]; do 3 eexists; (split; [reflexivity|split; [reflexivity|]]); cbn [ma]; [apply alike_all, A|exact A].
    - do 3 eexists; split; [reflexivity|split; [reflexivity|]]. cbn [ma]. apply alike_touch; [exact So|exact H].
  Qed.
  Lemma run_alike : forall ops s b g, (ST -> Forall still_op ops) -> alike (ma s) b ->
    exists s' b' g', m_run m ops (s, g) = (fst (a_run (quiet m) (map quiet_op ops) (b, g)), (s', g')) /\ snd (a_run (quiet m) (map quiet_op ops) (b, g)) = (b', g') /\ alike (ma s') b'.
  Proof.
    induction ops as [|op ops IH]; intros s b g So H; [do 3 eexists; split; [reflexivity|split; [reflexivity|exact H]]|]. cbn [m_run map a_run].
    destruct (step_alike op s b g) as (s1 & b1 & g1 & E1 & E2 & A); [intro X; apply So, Forall_inv in X; exact X|exact H|]. rewrite E1.
    destruct (a_step (quiet m) (quiet_op op) (b, g)) as [r [b1' g1']] eqn:E. cbn [fst snd] in *. injection E2 as -> ->.
    destruct (IH s1 b1 g1) as (s2 & b2 & g2 & F1 & F2 & A2); [intro X; apply So, Forall_inv_tail in X; exact X|exact A|]. rewrite F1.
    destruct (a_run (quiet m) (map quiet_op ops) (b1, g1)) as [rs [b2' g2']] eqn:F. cbn [fst snd] in *. injection F2 as -> ->.
    do 3 eexists; split; [reflexivity|split; [reflexivity|exact A2]].
  Qed.
End Alike.

(** ** C157 *)
(** A gate that leaves what is bought or sold alone while order() runs: whatever else it does
    to the objects, and whenever, the strategy gets the same ids, the same orders are known, and the positions, the money
    and the calls made to the gate are those of a gate that changes nothing. *)
Theorem C157_effects : forall G (m : mgate G) ops g, keeps_terms m ->
  let x := m_run m ops (macct_new, g) in let y := a_run (quiet m) (map quiet_op ops) (acct_new, g) in
  fst x = fst y /\ snd (snd x) = snd (snd y) /\
  dkeys (a_orders (ma (fst (snd x)))) = dkeys (a_orders (fst (snd y))) /\
  a_long (ma (fst (snd x))) = a_long (fst (snd y)) /\ a_short (ma (fst (snd x))) = a_short (fst (snd y)) /\
  a_total (ma (fst (snd x))) = a_total (fst (snd y)) /\ a_cash (ma (fst (snd x))) = a_cash (fst (snd y)) /\ a_locked (ma (fst (snd x))) = a_locked (fst (snd y)) /\
  filter is_call (a_log (ma (fst (snd x)))) = filter is_call (a_log (fst (snd y))).
Proof.
  intros G m ops g HT x y. destruct (run_alike False m HT (fun X : False => match X with end) ops macct_new acct_new g) as (s & b & g' & E1 & E2 & A); [tauto|apply alike_new|].
  unfold x, y. rewrite E1. destruct (a_run (quiet m) (map quiet_op ops) (acct_new, g)) as [rs [b' g'']]. cbn [fst snd] in *. injection E2 as -> ->.
  destruct A as ((_ & _ & K) & (P1 & P2 & P3 & P4 & P5 & _) & L & _). repeat (split; [first [reflexivity|assumption]|]). exact L.
Qed.
Print Assumptions C157_effects.
(** If besides no status is changed, the orders have the same statuses, and all is told that
    a gate that changes nothing would have told, but for partial fills. *)
Theorem C157_told_partial : forall G (m : mgate G) ops g, keeps_terms m -> keeps_status m -> Forall still_op ops ->
  let x := snd (m_run m ops (macct_new, g)) in let y := snd (a_run (quiet m) (map quiet_op ops) (acct_new, g)) in
  (forall id, option_map o_status (local_order id (ma (fst x))) = option_map o_status (local_order id (fst y))) /\
  filter but_filling (a_log (ma (fst x))) = filter but_filling (a_log (fst y)).
Proof.
  intros G m ops g HT HS So x y. destruct (run_alike True m HT (fun _ => HS) ops macct_new acct_new g (fun _ => So) (alike_new True)) as (s & b & g' & E1 & E2 & A).
  unfold x, y. rewrite E1. destruct (a_run (quiet m) (map quiet_op ops) (acct_new, g)) as [rs [b' g'']]. cbn [fst snd] in *. injection E2 as -> ->.
  destruct A as (_ & _ & _ & S). apply S. exact I.
Qed.
Print Assumptions C157_told_partial.

(** After an order sync that could read all its reports, with distinct ids, each reported order is in the book with the
    reported figures, whatever the gate did to the objects. *)
Lemma same_refl o : same o o = true.
Proof. unfold same. rewrite !Z.eqb_refl. destruct (eqb_spec (o_status o) (o_status o)); [|congruence]. destruct (eqb_spec (o_confirm o) (o_confirm o)); [|congruence]. destruct (eqb_spec (o_avg o) (o_avg o)); [reflexivity|congruence]. Qed.
Lemma one_wf i a a' : wf a -> sync_one i a = Ok a' -> wf a'.
Proof.
  intros W H. unfold sync_one in H. destruct (load i) as [rem|]; [|discriminate H]. cbn [rbind] in H. destruct (local_order (i_id i) a) as [l|].
  - destruct (same rem l); [injection H as <-; exact W|]. injection H as <-. destruct (notice_for l rem); apply (store_wf (i_id i) rem a W).
  - injection H as <-. apply store_wf, W.
Qed.
Lemma one_local i a a' k : wf a -> sync_one i a = Ok a' -> exists rem, load i = Ok rem /\
  (if str_eqb k (i_id i) then exists l, local_order k a' = Some l /\ same rem l = true else local_order k a' = local_order k a).
Proof.
  intros W H. unfold sync_one in H. destruct (load i) as [rem|]; [|discriminate H]. exists rem. split; [reflexivity|]. cbn [rbind] in H.
  destruct (eqb_spec k (i_id i)) as [->|N].
  - change (str_eqb (i_id i) (i_id i)) with (eqb (i_id i) (i_id i)). destruct (eqb_spec (i_id i) (i_id i)) as [_|]; [|congruence].
    destruct (local_order (i_id i) a) as [l|] eqn:E.
    + destruct (same rem l) eqn:M; [injection H as <-; eauto|]. injection H as <-. exists rem. split; [|apply same_refl].
      assert (X : local_order (i_id i) (store (i_id i) rem a) = Some rem) by (rewrite store_local by exact W; change (str_eqb (i_id i) (i_id i)) with (eqb (i_id i) (i_id i)); destruct (eqb_spec (i_id i) (i_id i)); [reflexivity|congruence]).
      destruct (notice_for l rem); exact X.
    + injection H as <-. exists rem. split; [|apply same_refl]. rewrite store_local by exact W. change (str_eqb (i_id i) (i_id i)) with (eqb (i_id i) (i_id i)). destruct (eqb_spec (i_id i) (i_id i)); [reflexivity|congruence].
  - change (str_eqb k (i_id i)) with (eqb k (i_id i)). destruct (eqb_spec k (i_id i)) as [|_]; [congruence|].
    assert (X : local_order k (store (i_id i) rem a) = local_order k a) by (rewrite store_local by exact W; change (str_eqb k (i_id i)) with (eqb k (i_id i)); destruct (eqb_spec k (i_id i)); [congruence|reflexivity]).
    destruct (local_order (i_id i) a) as [l|]; [|injection H as <-; exact X]. destruct (same rem l); [injection H as <-; reflexivity|]. injection H as <-. destruct (notice_for l rem); exact X.
Qed.
Lemma one_ok i a : (exists rem, load i = Ok rem) -> exists a', sync_one i a = Ok a'.
Proof. intros (rem & E). unfold sync_one. rewrite E. cbn [rbind]. destruct (local_order (i_id i) a); [destruct (same rem o)|]; eauto. Qed.
Lemma all_local l : forall a, wf a -> Forall (fun i => exists rem, load i = Ok rem) l -> NoDup (map i_id l) ->
  (forall k, ~ In k (map i_id l) -> local_order k (sync_all l a) = local_order k a) /\
  (forall i, In i l -> exists rem o, load i = Ok rem /\ local_order (i_id i) (sync_all l a) = Some o /\ same rem o = true).
Proof.
  induction l as [|j l IH]; intros a W F N; [split; [reflexivity|intros i []]|]. apply Forall_cons_iff in F as [Fj F]. cbn [map] in N. apply NoDup_cons_iff in N as [Nj N].
  destruct (one_ok j a Fj) as (a' & E). cbn [sync_all map]. rewrite E. pose proof (one_wf j a a' W E) as W'. destruct (IH a' W' F N) as [I1 I2]. split.
  - intros k Hk. rewrite I1 by (intro X; apply Hk; right; exact X). destruct (one_local j a a' k W E) as (rem & _ & X). change (str_eqb k (i_id j)) with (eqb k (i_id j)) in X.
    destruct (eqb_spec k (i_id j)) as [->|_]; [exfalso; apply Hk; left; reflexivity|exact X].
  - intros i [->|Hi]; [|apply I2, Hi]. destruct (one_local i a a' (i_id i) W E) as (rem & L & X). change (str_eqb (i_id i) (i_id i)) with (eqb (i_id i) (i_id i)) in X.
    destruct (eqb_spec (i_id i) (i_id i)) as [_|]; [|congruence]. destruct X as (o & X & S). exists rem, o. rewrite I1 by exact Nj. auto.
Qed.
Section Reach.
  Context {G : Type} (m : mgate G).
  Definition sound (s : macct) : Prop := wf (ma s) /\ Forall (fun r => (r < List.length (a_heap (ma s)))%nat) (ma_given s).
  Lemma all_heap l : forall a, wf a -> wf (sync_all l a) /\ (List.length (a_heap a) <= List.length (a_heap (sync_all l a)))%nat.
  Proof.
    induction l as [|i l IH]; intros a W; cbn [sync_all]; [split; [exact W|apply Nat.le_refl]|]. destruct (sync_one i a) as [a'|] eqn:E; [|split; [exact W|apply Nat.le_refl]].
    destruct (IH a' (one_wf i a a' W E)) as [I1 I2]. split; [exact I1|]. etransitivity; [|exact I2]. unfold sync_one in E. destruct (load i) as [rem|]; [|discriminate E]. cbn [rbind] in E.
    destruct (local_order (i_id i) a) as [o|]; [destruct (same rem o)|]; injection E as <-; [lia| |cbn [store a_heap]; rewrite app_length; lia].
    destruct (notice_for o rem); cbn [acc_log store a_heap]; rewrite app_length; lia.
  Qed.
  Lemma add_heap l : forall a, a_heap (add_positions l a) = a_heap a /\ a_orders (add_positions l a) = a_orders a.
  Proof.
    induction l as [|p l IH]; intro a; cbn [add_positions]; [auto|]. destruct (MAccount.pos_of p) as [q|]; [|auto].
    destruct (ps_side q); match goal with |- context [add_positions l ?x] => destruct (IH x) as [-> ->] end; auto.
  Qed.
  Lemma created_heap o a : a_heap (acc_order_created o a) = a_heap a /\ a_orders (acc_order_created o a) = a_orders a.
  Proof. unfold acc_order_created. destruct (o_side o); [destruct (dget (o_code o) (a_long a))|destruct (dget (o_code o) (a_short a))]; auto. Qed.
  Lemma sound_same s a : sound s -> a_heap a = a_heap (ma s) -> a_orders a = a_orders (ma s) -> sound (MAcct a (ma_given s)).
  Proof. intros [W F] H1 H2. split; cbn [ma ma_given]; [intros k r; rewrite H1, H2; apply W|rewrite H1; exact F]. Qed.
  Lemma sound_touch s t gv : sound s -> sound (MAcct (touch_acct t gv (ma s)) (ma_given s)).
  Proof. intros [W F]. split; [apply touch_wf, W|]. cbn [ma ma_given touch_acct a_heap]. rewrite mapi_length. exact F. Qed.
  Lemma sound_step op x : sound (fst x) -> sound (fst (snd (m_step m op x))).
  Proof.
    destruct x as [s g]. cbn [fst]. intro H. destruct op as [id now c n st sd|id| | |t g']; cbn [m_step].
    - unfold m_order. set (o := new_order id now c n st sd). destruct (mg_order m o g) as [[r t] g']. set (gv := ma_given s ++ [List.length (a_heap (ma s))]).
      set (a1 := touch_acct t gv (acc_log (EvOrder o) (store id o (ma s)))).
      assert (A : sound (MAcct a1 gv)).
      { destruct H as [W F]. split; cbn [ma ma_given]; [apply touch_wf; apply (store_wf id o _ W)|]. unfold a1. cbn [touch_acct a_heap acc_log store]. rewrite mapi_length, app_length. cbn [List.length].
        unfold gv. apply Forall_app. split; [eapply Forall_impl; [|exact F]; cbn; intros; lia|constructor; [lia|constructor]]. }
      destruct r; cbn [fst snd]; [|exact A]. destruct (deref a1 _); [|exact A]. destruct (created_heap o0 a1) as [E1 E2]. exact (sound_same (MAcct a1 gv) _ A E1 E2).
    - unfold m_cancel. destruct (dmem id (a_orders (ma s))); [|exact H]. destruct (mg_cancel m id g) as [[r t] g']. cbn [fst snd]. apply (sound_touch (MAcct (acc_log (EvCancel id) (ma s)) (ma_given s))). apply (sound_same s _ H); reflexivity.
    - unfold m_sync_balance. destruct (mg_sync_balance m g) as [[r t] g']. cbn [fst snd]. pose proof (sound_touch s t (ma_given s) H) as A. destruct r as [b|]; [|exact A]. destruct (b_cash b); [|exact A]. destruct (b_pos b) as [l|]; [|exact A].
      match goal with |- context [add_positions l ?z] => destruct (add_heap l z) as [E1 E2] end. exact (sound_same (MAcct (touch_acct t (ma_given s) (ma s)) (ma_given s)) _ A E1 E2).
    - unfold m_sync_orders. destruct (mg_sync_orders m g) as [[r t] g']. cbn [fst snd]. pose proof (sound_touch s t (ma_given s) H) as A. destruct r as [l|]; [|exact A]. destruct A as [W F]. cbn [ma ma_given] in W, F.
      destruct (all_heap l _ W) as [W' L]. split; [exact W'|]. cbn [ma ma_given]. eapply Forall_impl; [|exact F]. intros q Hq; eapply Nat.lt_le_trans; [exact Hq|exact L].
    - cbn [fst snd]. apply sound_touch, H.
  Qed.
  Lemma sound_run : forall ops x, sound (fst x) -> sound (fst (snd (m_run m ops x))).
  Proof.
    induction ops as [|op ops IH]; intros x H; [exact H|]. cbn [m_run]. pose proof (sound_step op x H) as A. destruct (m_step m op x) as [r x1]. specialize (IH x1 A). destruct (m_run m ops x1). exact IH.
  Qed.
  Lemma sound_new : sound macct_new.
  Proof. split; [intros k r H; discriminate H|constructor]. Qed.
End Reach.
Theorem C157_agrees : forall G (m : mgate G) ops g0 l t g',
  let x := snd (m_run m ops (macct_new, g0)) in
  mg_sync_orders m (snd x) = (Ok l, t, g') -> Forall (fun i => exists o, load i = Ok o) l -> NoDup (map i_id l) ->
  forall i, In i l -> exists told o, load i = Ok told /\ local_order (i_id i) (ma (fst (m_sync_orders m (fst x) (snd x)))) = Some o /\ same told o = true.
Proof.
  intros G m ops g0 l t g' x E F N i Hi. unfold m_sync_orders. rewrite E. cbn [fst ma]. refine (proj2 (all_local l _ _ F N) i Hi). apply touch_wf. apply (sound_run m ops (macct_new, g0) sound_new).
Qed.
Print Assumptions C157_agrees.

(** What an order takes from the position: what the object says when the gate has
    answered. *)
Definition less (o : order) (p : position) : position := match o_action o with Close => set_avail (Z.max (ps_avail p - o_amount o) 0) p | Open => p end.
Theorem C157_taken : forall G (m : mgate G) ops g0 id now c n st sd t g',
  let x := snd (m_run m ops (macct_new, g0)) in let o := new_order id now c n st sd in let s := ma (fst x) in
  mg_order m o (snd x) = (Ok tt, t, g') ->
  exists o' s', m_order m id now c n st sd (fst x) (snd x) = (Some id, s', g') /\ local_order id (ma s') = Some o' /\ o' = t (List.length (ma_given (fst x))) o /\
    forall k, dget k (a_long (ma s')) = (if str_eqb k (o_code o') then match o_side o' with Long => option_map (less o') (dget k (a_long s)) | Short => dget k (a_long s) end else dget k (a_long s)) /\
              dget k (a_short (ma s')) = (if str_eqb k (o_code o') then match o_side o' with Short => option_map (less o') (dget k (a_short s)) | Long => dget k (a_short s) end else dget k (a_short s)).
Proof.
  intros G m ops g0 id now c n st sd t g' x o s E. pose proof (sound_run m ops (macct_new, g0) sound_new) as [W F]. fold x in W, F. cbn [snd fst] in *.
  unfold m_order. fold o. rewrite E. set (gv := ma_given (fst x) ++ [List.length (a_heap (ma (fst x)))]). set (a1 := touch_acct t gv (acc_log (EvOrder o) (store id o (ma (fst x))))).
  assert (D : deref a1 (List.length (a_heap (ma (fst x)))) = Some (t (List.length (ma_given (fst x))) o)).
  { unfold deref, a1. cbn [touch_acct a_heap acc_log store]. rewrite mapi_nth, nth_error_app2 by lia. rewrite Nat.sub_diag. cbn [nth_error option_map Nat.add]. unfold touch_at, gv. rewrite index_new by exact F. reflexivity. }
  rewrite D. set (o' := t (List.length (ma_given (fst x))) o) in *. exists o'. eexists. split; [reflexivity|]. cbn [ma]. split.
  { destruct (created_heap o' a1) as [E1 E2]. unfold local_order, deref in *. rewrite E1, E2. unfold a1 at 1. cbn [touch_acct a_orders acc_log store]. rewrite dget_dset_same. exact D. }
  split; [reflexivity|]. assert (L : a_long a1 = a_long s /\ a_short a1 = a_short s) by (split; reflexivity). destruct L as [L1 L2]. clearbody a1 o'.
  intro k. unfold acc_order_created. rewrite L1, L2. change (str_eqb k (o_code o')) with (eqb k (o_code o')).
  destruct (o_side o'); [destruct (dget (o_code o') (a_long s)) as [p|] eqn:Ep|destruct (dget (o_code o') (a_short s)) as [p|] eqn:Ep]; cbn [set_positions a_long a_short]; rewrite ?L1, ?L2, ?dget_dset;
    destruct (eqb_spec k (o_code o')) as [->|Nk]; rewrite ?Ep; auto.
Qed.
Print Assumptions C157_taken.

(** A gate that notes the status in the object itself keeps the end of the order from being
    told. *)
Definition told_alike : Prop := forall G (m : mgate G) ops g, keeps_terms m -> Forall still_op ops ->
  filter but_filling (a_log (ma (fst (snd (m_run m ops (macct_new, g)))))) = filter but_filling (a_log (fst (snd (a_run (quiet m) (map quiet_op ops) (acct_new, g))))).
Definition al_fill (o : order) : order :=
  Order (o_code o) (o_price o) (o_amount o) (o_action o) (o_id o) Sfilled (o_style o) (o_create o) (o_entrust o) (o_side o) (o_confirm o) (o_amount o) 0 0 None 0 [].
Definition al_halve (o : order) : order :=
  Order (o_code o) (o_price o) (o_amount o / 2) (o_action o) (o_id o) (o_status o) (o_style o) (o_create o) (o_entrust o) (o_side o) (o_confirm o) (o_filled o) 0 0 None 0 [].
(** reports the orders it got as filled, and 400 shares *)
Definition al_gate (f : order -> order) : mgate (list oinfo) :=
  MGate _ (fun o g => (Ok tt, fun k x => if Nat.eqb k (List.length g) then f x else x, g ++ [json (al_fill o)])) (fun _ g => (Ok tt, untouched, g)) (fun g => (Ok g, untouched, g))
    (fun g => (Ok (BInfo (Some (Cash None None None)) (Some [PInfo (Some (lit "long")) (Some (lit "000001.XSHE")) (Some 400) (Some 400) (Some 10) None None])), untouched, g)).
Definition al_ops : list (mop (G := list oinfo)) := [MBal; MOrd (lit "1") 0 (lit "000001.XSHE") (-200) (Limit (PNum (lit "10"))) Long; MSync].
Lemma al_terms : keeps_terms (al_gate al_fill).
Proof. intros o g r t g' E k. cbn in E. injection E as <- <- <-. destruct (Nat.eqb k (List.length g)); reflexivity. Qed.
Theorem C157_told_refuted : ~ told_alike.
Proof.
  intro H. specialize (H _ (al_gate al_fill) al_ops [] al_terms). apply (f_equal (@List.length _)) in H; [|repeat constructor]. vm_compute in H. discriminate H.
Qed.
Print Assumptions C157_told_refuted.
(** A gate that changes the amount in the object makes the account take that amount from the
    position. *)
Definition taken_alike : Prop := forall G (m : mgate G) ops g,
  a_long (ma (fst (snd (m_run m ops (macct_new, g))))) = a_long (fst (snd (a_run (quiet m) (map quiet_op ops) (acct_new, g)))).
Theorem C157_taken_refuted : ~ taken_alike.
Proof. intro H. specialize (H _ (al_gate al_halve) al_ops []). vm_compute in H. discriminate H. Qed.
Print Assumptions C157_taken_refuted.
(** a gate that notes a confirmation number in the object *)
Definition al_confirm (o : order) : order :=
  Order (o_code o) (o_price o) (o_amount o) (o_action o) (o_id o) (o_status o) (o_style o) (o_create o) (o_entrust o) (o_side o) (Some (lit "7")) (o_filled o) 0 0 None 0 [].
Example C157_demo :
  keeps_terms (al_gate al_confirm) /\ keeps_status (al_gate al_confirm) /\ Forall still_op al_ops /\
  let s := ma (fst (snd (m_run (al_gate al_confirm) [nth 0 al_ops MBal; nth 1 al_ops MBal] (macct_new, [])))) in
  let s' := ma (fst (snd (m_run (al_gate al_confirm) al_ops (macct_new, [])))) in
  option_map o_confirm (local_order (lit "1") s) = Some (Some (lit "7")) /\ option_map ps_avail (dget (lit "000001.XSHE") (a_long s)) = Some 200 /\
  option_map o_status (local_order (lit "1") s') = Some Sfilled /\ List.length (a_log s') = 2%nat.
Proof.
  split; [intros o g r t g' E k; cbn in E; injection E as <- <- <-; destruct (Nat.eqb k (List.length g)); reflexivity|].
  split; [repeat split; intros; cbn; intros k x; try reflexivity; destruct (Nat.eqb k (List.length g)); reflexivity|]. split; [repeat constructor|]. vm_compute. repeat split.
Qed.
