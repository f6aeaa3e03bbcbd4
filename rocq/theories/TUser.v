(** C144: the attributes of the objects that strategies get. *)
From Coq Require Import String.
From Verif Require Import PyBase PyStr LStr MTime MOrder MAccount MApi SAccount LAccount LAccount2 LAccount3 LApi TAccount MDemo TDemo MUser.
Open Scope list_scope.
Open Scope Z_scope.

(** ** What README.md names *)
(** README.md:521-548 *)
Definition order_doc : list str :=
  map lit ["order_id"; "code"; "status"; "side"; "style"; "order_price"; "amount"; "filled_amount"; "canceled_amount"; "avg_price"; "deal_balance";
           "action"; "commission"; "err_msg"; "create_time"; "entrust_time"]%string.
(** README.md:580-591 *)
Definition pos_doc : list str :=
  map lit ["code"; "total_amount"; "locked_amount"; "closeable_amount"; "avg_cost"; "acc_avg_cost"; "side"; "last_price"; "price"; "position_value"; "value"]%string.
(** README.md:569-575 *)
Definition folio_doc : list str :=
  map lit ["total_value"; "available_cash"; "locked_cash"; "long_positions"; "positions"; "short_positions"]%string.

(** ** Lemmas *)
Lemma shown_recorded udigit G (w : world G) a id o n : ready w a -> book_ok a -> recorded a id o -> shown udigit id n w = order_attr o n.
Proof.
  intros Hw HB (r & E1 & E2). unfold shown. rewrite (all_orders udigit G w a Hw HB). cbn [rbind]. rewrite E1, (proj2 Hw). unfold deref. rewrite E2. reflexivity.
Qed.
Lemma shown_unknown udigit G (w : world G) a id n : ready w a -> book_ok a -> ~ known a id -> shown udigit id n w = Err KeyError.
Proof.
  intros Hw HB Hk. unfold shown. rewrite (all_orders udigit G w a Hw HB). cbn [rbind].
  destruct (dget id (a_orders a)) as [r|] eqn:E; [|reflexivity]. exfalso. apply Hk. destruct (proj2 HB id r E) as (o & E1 & _). exists o, r. auto.
Qed.
Lemma in_doc (l : list str) (n : str) : {In n l} + {~ In n l}.
Proof. apply in_dec. intros x y. destruct (eqb_spec x y); [left|right]; assumption. Qed.
Lemma dget_keys {A} n (d : dict str A) : ~ In n (dkeys d) -> dget n d = None.
Proof. intro H. destruct (dget n d) eqn:E; [|reflexivity]. exfalso. apply H. apply dget_In in E. apply in_map_iff. eexists. split; [|exact E]. reflexivity. Qed.

(** ** Orders *)

(** Every attribute that README.md names can be read of every order the account knows and is
    the figure the account has; no other name can be read; an id the account does not know is
    not among the orders. *)
Theorem C144_orders :
  forall udigit G (gt : gate G) (w : world G) a, ready w a -> reachable udigit gt a ->
    (forall id o, recorded a id o ->
       (forall n, In n order_doc <-> exists v, shown udigit id n w = Ok v) /\
       (forall n, ~ In n order_doc -> shown udigit id n w = Err AttributeError) /\
       shown udigit id (lit "order_id") w = Ok (VStr id) /\
       shown udigit id (lit "code") w = Ok (VStr (o_code o)) /\
       shown udigit id (lit "status") w = Ok (VStr (status_str (o_status o))) /\
       shown udigit id (lit "side") w = Ok (VStr (side_str (o_side o))) /\
       shown udigit id (lit "style") w = Ok (VStyle (o_style o)) /\
       shown udigit id (lit "order_price") w = Ok (VPrice (style_price (o_style o))) /\
       shown udigit id (lit "amount") w = Ok (VNum (o_amount o)) /\
       shown udigit id (lit "filled_amount") w = Ok (VNum (o_filled o)) /\
       shown udigit id (lit "canceled_amount") w = Ok (VNum (o_canceled o)) /\
       shown udigit id (lit "avg_price") w = Ok (match o_avg o with Some z => VNum z | None => VNone end) /\
       shown udigit id (lit "deal_balance") w = Ok (VNum (o_deal o)) /\
       shown udigit id (lit "action") w = Ok (VStr (action_str (o_action o))) /\
       shown udigit id (lit "commission") w = Ok (VNum (o_comm o)) /\
       shown udigit id (lit "err_msg") w = Ok (VStr (o_err o)) /\
       shown udigit id (lit "create_time") w = Ok (VTime (o_create o)) /\
       shown udigit id (lit "entrust_time") w = Ok (match o_entrust o with Some t => VTime t | None => VNone end)) /\
    (forall id n, ~ known a id -> shown udigit id n w = Err KeyError).
Proof.
  intros udigit G gt w a Hw HR. destruct (reachable_ok udigit gt a HR) as [HB _]. split; [|intros id n; apply (shown_unknown udigit G w a id n Hw HB)].
  intros id o Ho. assert (S : forall n, shown udigit id n w = order_attr o n) by (intro n; apply (shown_recorded udigit G w a id o n Hw HB Ho)).
  destruct Ho as (r & E1 & E2). destruct (proj2 HB id r E1) as (o' & E3 & E4 & E5). assert (o' = o) by congruence. subst o'.
  assert (N : forall n, ~ In n order_doc -> order_attr o n = Err AttributeError).
  { intros n H. unfold order_attr. rewrite dget_keys; [reflexivity|]. intro X. apply H. clear - X. cbn in X. cbn. tauto. }
  split.
  { intro n. rewrite S. split.
    - intro H. cbn in H. repeat destruct H as [<-|H]; try contradiction; eexists; reflexivity.
    - intros (v & E). destruct (in_doc order_doc n) as [H|H]; [exact H|]. rewrite (N n H) in E. discriminate E. }
  split; [intros n H; rewrite S; apply N, H|].
  rewrite !S. cbn. rewrite E4, E5. repeat split.
Qed.
Print Assumptions C144_orders.

(** What order() has just made is shown at once: under the id, with the code and style given,
    the amount without its sign, and the direction the sign stands for. *)
Theorem C144_placed :
  forall udigit G (gt : gate G) sep id now c n st sd code z sty s w a,
    order_args udigit sep c n st sd code z sty s -> ready w a -> reachable udigit gt a ->
    exists r w', api_order udigit gt id now c n st sd w = (Ok r, w') /\
      shown udigit id (lit "order_id") w' = Ok (VStr id) /\ shown udigit id (lit "code") w' = Ok (VStr code) /\
      shown udigit id (lit "amount") w' = Ok (VNum (Z.abs z)) /\ shown udigit id (lit "style") w' = Ok (VStyle sty) /\
      shown udigit id (lit "order_price") w' = Ok (VPrice (style_price sty)) /\ shown udigit id (lit "status") w' = Ok (VStr (lit "new")) /\
      shown udigit id (lit "action") w' = Ok (VStr (if 0 <? z then lit "open" else lit "close")) /\
      shown udigit id (lit "filled_amount") w' = Ok (VNum 0) /\ shown udigit id (lit "canceled_amount") w' = Ok (VNum 0) /\
      shown udigit id (lit "create_time") w' = Ok (VTime now).
Proof.
  intros udigit G gt sep id now c n st sd code z sty s w a Ha Hw HR. destruct (reachable_ok udigit gt a HR) as [HB _].
  destruct (order_accepted udigit gt sep id now c n st sd code z sty s w a Ha Hw) as (o & r & a' & g' & E & F & _ & _ & _ & _ & _ & R).
  exists r, (World true (Some a') g'). split; [exact E|].
  assert (HB' : book_ok a').
  { revert E. unfold api_order. destruct (order_args_checks udigit _ _ _ _ _ _ _ _ _ Ha) as (K1 & K2 & K3 & K4 & _). rewrite K1; cbn [rbind]. rewrite K2; cbn [rbind]. rewrite K3; cbn [rbind].
    rewrite K4; cbn [rbind]. rewrite (the_account_ready _ _ Hw); cbn [rbind]. destruct (acc_order gt id now code z sty s a (w_gate w)) as [[r0 a0] g0] eqn:Eo.
    intro X. injection X as _ _ <- _. exact (proj1 (acc_order_ok gt _ _ _ _ _ _ _ _ _ _ _ Eo HB)). }
  assert (S : forall m, shown udigit id m (World true (Some a') g') = order_attr o m) by (intro m; apply (shown_recorded udigit G (World true (Some a') g') a' id o m (conj eq_refl eq_refl) HB' R)).
  destruct F as (F1 & F2 & F3 & F4 & F5 & F6 & F7 & F8 & F9 & F10). rewrite !S. unfold order_attr.
  cbn [order_props dget]. cbn. rewrite F1, F2, F3, F5, F6, F7, F8, F9, F10.
  assert (Ea : action_str (o_action o) = if 0 <? z then lit "open" else lit "close").
  { destruct (Z.ltb_spec 0 z) as [H|H]; [rewrite (proj2 F4 H); reflexivity|]. destruct (o_action o); [|reflexivity]. pose proof (proj1 F4 eq_refl). lia. }
  rewrite Ea. repeat split.
Qed.
Print Assumptions C144_placed.

(** ** Positions and the portfolio *)
Theorem C144_positions_partial :
  forall udigit G (gt : gate G) (w : world G) a code, ready w a -> reachable udigit gt a ->
    let p := match dget code (a_long a) with Some p => p | None => Pos code 0 0 0 Long (Some 0) (Some 0) end in
    let num z := match z with Some z => VNum z | None => VNone end in
    pos_shown code (lit "total_amount") w = Ok (VNum (ps_amount p)) /\ pos_shown code (lit "closeable_amount") w = Ok (VNum (ps_avail p)) /\
    pos_shown code (lit "avg_cost") w = Ok (VNum (ps_avg p)) /\ pos_shown code (lit "acc_avg_cost") w = Ok (VNum (ps_avg p)) /\
    pos_shown code (lit "side") w = Ok (VStr (side_str (ps_side p))) /\
    pos_shown code (lit "last_price") w = Ok (num (ps_last p)) /\ pos_shown code (lit "price") w = Ok (num (ps_last p)) /\
    pos_shown code (lit "position_value") w = Ok (num (ps_value p)) /\ pos_shown code (lit "value") w = Ok (num (ps_value p)) /\
    pos_shown code (lit "security") w = Ok (VStr (ps_code p)) /\
    (forall n, In n pos_doc -> n <> lit "code" -> n <> lit "locked_amount" -> exists v, pos_shown code n w = Ok v) /\
    (forall n, ~ In n pos_doc -> n <> lit "security" -> pos_shown code n w = Err AttributeError).
Proof.
  intros udigit G gt w a code Hw HR p num. destruct (reachable_ok udigit gt a HR) as [_ HP].
  assert (S : forall n, pos_shown code n w = pos_attr p n).
  { intro n. unfold pos_shown, folio, api_portfolio. rewrite (the_account_ready _ _ Hw). cbn [rbind]. unfold folio_attr. cbn. unfold long_view. rewrite (view_same _ (proj1 HP)).
    unfold view_get, p, empty_pos. destruct (dget code (a_long a)); reflexivity. }
  rewrite !S. do 10 (split; [reflexivity|]). split.
  - intros n H N1 N2. rewrite S. cbn in H. repeat destruct H as [<-|H]; try contradiction; try (now destruct N1); try (now destruct N2); eexists; reflexivity.
  - intros n H N. rewrite S. unfold pos_attr. rewrite dget_keys; [reflexivity|]. intro X. clear - H N X. cbn in X, H. intuition.
Qed.
Print Assumptions C144_positions_partial.
(** README.md names two attributes of a position that cannot be read of any. *)
Theorem C144_documented_refuted :
  forall udigit G (gt : gate G) (w : world G) a code, ready w a -> reachable udigit gt a ->
    In (lit "code") pos_doc /\ In (lit "locked_amount") pos_doc /\
    pos_shown code (lit "code") w = Err AttributeError /\ pos_shown code (lit "locked_amount") w = Err AttributeError.
Proof.
  intros udigit G gt w a code Hw HR. split; [left; reflexivity|]. split; [right; right; left; reflexivity|].
  unfold pos_shown, folio, api_portfolio. rewrite (the_account_ready _ _ Hw). split; reflexivity.
Qed.
Print Assumptions C144_documented_refuted.
Theorem C144_folio :
  forall udigit G (gt : gate G) (w : world G) a, ready w a -> reachable udigit gt a ->
    folio (lit "total_value") w = Ok (VNum (a_total a)) /\ folio (lit "available_cash") w = Ok (VNum (a_cash a)) /\ folio (lit "locked_cash") w = Ok (VNum (a_locked a)) /\
    folio (lit "long_positions") w = Ok (VPositions Long (a_long a)) /\ folio (lit "positions") w = Ok (VPositions Long (a_long a)) /\
    folio (lit "short_positions") w = Ok (VPositions Short (a_short a)) /\
    (forall n, ~ In n folio_doc -> n <> lit "position_value" -> folio n w = Err AttributeError).
Proof.
  intros udigit G gt w a Hw HR. destruct (reachable_ok udigit gt a HR) as [_ [P1 P2]]. unfold folio, api_portfolio. rewrite (the_account_ready _ _ Hw). cbn [rbind].
  unfold folio_attr. cbn [folio_props]. split; [reflexivity|]. split; [reflexivity|]. split; [reflexivity|].
  split; [cbn; unfold long_view; rewrite (view_same _ P1); reflexivity|]. split; [cbn; unfold long_view; rewrite (view_same _ P1); reflexivity|].
  split; [cbn; unfold short_view; rewrite (view_same _ P2); reflexivity|].
  intros n H N. rewrite dget_keys; [reflexivity|]. intro X. clear - H N X. cbn in X, H. intuition.
Qed.
Print Assumptions C144_folio.

(** A strategy cannot assign to what it reads. *)
Theorem C144_read_only :
  forall n, (forall o v, order_attr o n = Ok v -> order_set n = Err AttributeError) /\ (forall p v, pos_attr p n = Ok v -> pos_set n = Err AttributeError).
Proof.
  intro n. unfold order_attr, pos_attr, order_set, pos_set, dmem. split; intros x v.
  - destruct (dget n order_props); [reflexivity|discriminate].
  - destruct (dget n pos_props); [reflexivity|discriminate].
Qed.
Print Assumptions C144_read_only.

(** ** The documented examples *)

(** README.md's loop over get_orders() cancels nothing: it raises at the first order. *)
Theorem C144_loop_refuted :
  forall udigit G (gt : gate G) (w : world G) a, ready w a -> reachable udigit gt a ->
    ((exists id, known a id) -> readme_cancel udigit w = (Err AttributeError, w)) /\
    ((forall id, ~ known a id) -> readme_cancel udigit w = (Ok tt, w)).
Proof.
  intros udigit G gt w a Hw HR. destruct (reachable_ok udigit gt a HR) as [HB _]. unfold readme_cancel. rewrite (all_orders udigit G w a Hw HB). split.
  - intros (id & o & r & E & _). destruct (a_orders a); [discriminate E|reflexivity].
  - intro H. destruct (a_orders a) as [|[k r] d] eqn:E; [reflexivity|]. exfalso. apply (H k).
    assert (Ek : dget k (a_orders a) = Some r) by (rewrite E; cbn [dget]; destruct (eqb_spec k k); congruence).
    destruct (proj2 HB k r Ek) as (o & E1 & _). exists o, r. auto.
Qed.
Print Assumptions C144_loop_refuted.
(** The portfolio has no [total_assert]; the examples that read it in process_initialize fail. *)
Theorem C144_examples_refuted : forall G (w : world G), exists e, demo_reads w = Err e.
Proof.
  intros G w. unfold demo_reads, folio, api_portfolio. destruct (the_account w) as [a|e]; cbn [rbind]; [|eexists; reflexivity].
  exists AttributeError. reflexivity.
Qed.
Print Assumptions C144_examples_refuted.

(** the account of [demo_w]: order 1 sells 300 of 600000.XSHG, of which 900 could be sold *)
Example C144_demo :
  shown no_udigit (lit "1") (lit "action") demo_w = Ok (VStr (lit "close")) /\ shown no_udigit (lit "1") (lit "order_price") demo_w = Ok (VPrice (PNum (lit "10.5"))) /\
  shown no_udigit (lit "2") (lit "side") demo_w = Ok (VStr (lit "long")) /\ shown no_udigit (lit "9") (lit "side") demo_w = Err KeyError /\
  shown no_udigit (lit "1") (lit "confirm_id") demo_w = Err AttributeError /\
  pos_shown (lit "600000.XSHG") (lit "closeable_amount") demo_w = Ok (VNum 600) /\ pos_shown (lit "000001.XSHE") (lit "value") demo_w = Ok (VNum 0) /\
  folio (lit "available_cash") demo_w = Ok (VNum 20) /\ readme_cancel no_udigit demo_w = (Err AttributeError, demo_w).
Proof. vm_compute. repeat split. Qed.
