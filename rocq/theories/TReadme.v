(** C143: the task with which README.md introduces the package. *)
From Coq Require Import String.
From Verif Require Import PyBase PyStr LStr MTime MDate MOrder MAccount MApi SAccount LAccount LAccount2 LAccount3 LApi MGate SGate LGate LGate4 TAccount TGate MDemo TDemo MReadme.
Open Scope list_scope.
Open Scope Z_scope.

(** ** Specification *)
(** what can be sold of a code, and whether there is an entry for it *)
Definition closeable (a : acct) (code : str) : Z := match dget code (a_long a) with Some p => ps_avail p | None => 0 end.
Definition held (a : acct) (code : str) : Prop := In code (dkeys (a_long a)).
(** the gate after it was given orders, and after cancels *)
Definition given {G} (gt : gate G) (os : list order) (g : G) : G := fold_left (fun g o => snd (g_order gt o g)) os g.
Definition cancelled {G} (gt : gate G) (ids : list str) (g : G) : G := fold_left (fun g id => snd (g_cancel gt id g)) ids g.
(** what order() returns *)
Definition answer {G} (gt : gate G) (o : order) (g : G) : option str := match fst (g_order gt o g) with Ok _ => Some (o_id o) | Err _ => None end.
(** the orders a run places *)
Definition sells_of (a : acct) (id : str) (now : Z) (l : list order) : Prop :=
  (closeable a (lit "000001.XSHE") <= 0 -> l = []) /\
  (0 < closeable a (lit "000001.XSHE") -> exists o, l = [o] /\ order_for id now (lit "000001.XSHE") (- closeable a (lit "000001.XSHE")) (Limit (PNum (lit "10"))) o).
Definition buys_of (a : acct) (id : str) (now : Z) (l : list order) : Prop :=
  (held a (lit "000002.XSHE") -> l = []) /\ (~ held a (lit "000002.XSHE") -> exists o, l = [o] /\ order_for id now (lit "000002.XSHE") 100 (Market (PNum (lit "0"))) o).

(** ** Lemmas *)
Lemma dset_end {A} k (v : A) : forall d : dict str A, dget k d = None -> dset k v d = d ++ [(k, v)].
Proof.
  induction d as [|[k' v'] d IH]; intro H; [reflexivity|]. cbn [dset dget app] in *. destruct (eqb_spec k k') as [->|N]; [discriminate H|]. rewrite IH by exact H. reflexivity.
Qed.
Lemma unknown_dget a id : book_ok a -> ~ known a id -> dget id (a_orders a) = None.
Proof.
  intros [_ HB] Hk. destruct (dget id (a_orders a)) as [r|] eqn:E; [|reflexivity]. exfalso. apply Hk. destruct (HB id r E) as (o & E1 & _).
  exists o, r. split; assumption.
Qed.
Lemma waits_same a b r : a_heap a = a_heap b -> waits a r = waits b r.
Proof. intro H. unfold waits, deref. rewrite H. reflexivity. Qed.
Lemma waiting_same a b : same_book a b -> waiting_ids a = waiting_ids b.
Proof. intros [H1 H2]. unfold waiting_ids. rewrite H2. f_equal. apply filter_ext. intros [k r]. apply waits_same, H1. Qed.
Lemma waiting_store a id o : book_ok a -> ~ known a id -> o_status o = Snew -> waiting_ids (store id o a) = waiting_ids a ++ [id].
Proof.
  intros HB Hk Ho. pose proof (unknown_dget a id HB Hk) as E. unfold waiting_ids, store. cbn [a_orders]. rewrite (dset_end _ _ _ E).
  rewrite filter_app, map_app. f_equal.
  - f_equal. apply filter_ext_in. intros [k r] Hin. cbn [snd]. apply (In_dget k r (a_orders a) (proj1 HB)) in Hin. destruct (proj2 HB k r Hin) as (o' & E1 & _).
    unfold waits, deref. cbn [a_heap]. rewrite nth_error_app1; [reflexivity|]. apply nth_error_Some. congruence.
  - cbn [filter snd]. unfold waits, deref. cbn [a_heap]. rewrite nth_error_app2 by lia. rewrite Nat.sub_diag. cbn [nth_error]. rewrite Ho. reflexivity.
Qed.
Lemma created_keys o a : dkeys (a_long (acc_order_created o a)) = dkeys (a_long a).
Proof.
  unfold acc_order_created. destruct (o_side o); [destruct (dget (o_code o) (a_long a)) eqn:E|destruct (dget (o_code o) (a_short a))]; try reflexivity.
  cbn [set_positions a_long]. rewrite dkeys_dset. unfold dmem. rewrite E. reflexivity.
Qed.
Lemma created_short o a : o_side o = Long -> a_short (acc_order_created o a) = a_short a.
Proof. intro H. unfold acc_order_created. rewrite H. destruct (dget (o_code o) (a_long a)); reflexivity. Qed.

Section Run.
  Context (udigit : N -> bool) {G : Type} (gt : gate G).

  (** orders placed one after the other *)
  Definition signed (o : order) : Z := match o_action o with Open => o_amount o | Close => - o_amount o end.
  Fixpoint ordered (l : list order) (a : acct) (g : G) (a' : acct) (g' : G) : Prop :=
    match l with
    | [] => a' = a /\ g' = g
    | o :: l' => exists r a1 g1, acc_order gt (o_id o) (o_create o) (o_code o) (signed o) (o_style o) Long a g = (r, a1, g1) /\ ordered l' a1 g1 a' g'
    end.
  Lemma ordered_app l m : forall a g a1 g1 a2 g2, ordered l a g a1 g1 -> ordered m a1 g1 a2 g2 -> ordered (l ++ m) a g a2 g2.
  Proof.
    induction l as [|o l IH]; intros a g a1 g1 a2 g2 H1 H2; cbn [app ordered] in *; [destruct H1 as [-> ->]; exact H2|].
    destruct H1 as (r & a0 & g0 & E & H1). exists r, a0, g0. split; [exact E|]. apply (IH a0 g0 a1 g1); assumption.
  Qed.

  Lemma items_is_batch a0 : forall l w a, ready w a -> a_heap a = a_heap a0 ->
    items_loop gt l w = batch_cancel gt (map fst (filter (fun kr => waits a0 (snd kr)) l)) w.
  Proof.
    induction l as [|[k r] l IH]; intros w a Hw Hh; [reflexivity|]. cbn [items_loop filter snd].
    assert (Ew : now_waits w r = waits a0 r) by (unfold now_waits; rewrite (proj2 Hw); apply waits_same, Hh).
    rewrite Ew. destruct (waits a0 r); [|apply (IH w a Hw Hh)]. cbn [map fst batch_cancel].
    pose proof (api_cancel_spec gt k w a Hw) as X. cbv zeta in X. rewrite X.
    apply (IH _ (if dmem k (a_orders a) then acc_log (EvCancel k) a else a)); [split; reflexivity|]. destruct (dmem k (a_orders a)); exact Hh.
  Qed.
  Lemma items_exact w a : ready w a -> book_ok a -> items_loop gt (a_orders a) w = (Ok tt, after gt a (w_gate w)).
  Proof.
    intros Hw HB. rewrite (items_is_batch a (a_orders a) w a Hw eq_refl).
    destruct (batch_cancel_spec gt (waiting_ids a) w a Hw) as (a' & E & ->). rewrite (waiting_known a HB) in E. exact E.
  Qed.

  (** placing one order *)
  Lemma place id now c code z st sty w a :
    check_code udigit c = Ok code -> z <> 0 -> check_style st = Ok sty -> ready w a -> book_ok a -> pos_ok a -> ~ known a id ->
    let o := new_order id now code z sty Long in
    exists a', api_order udigit gt id now c (AInt z) st (SdStr (lit "long")) w = (Ok (answer gt o (w_gate w)), World true (Some a') (snd (g_order gt o (w_gate w)))) /\
      order_for id now code z sty o /\ a_log a' = a_log a ++ [EvOrder o] /\ book_ok a' /\ pos_ok a' /\
      waiting_ids a' = waiting_ids a ++ [id] /\ dkeys (a_long a') = dkeys (a_long a) /\
      same_book (store id o a) a' /\ (answer gt o (w_gate w) <> None -> a_long a' = a_long (acc_order_created o a)) /\
      ordered [o] a (w_gate w) a' (snd (g_order gt o (w_gate w))).
  Proof.
    intros Hc Hz Hst Hw HB HP Hk o. unfold api_order. rewrite Hc. cbn [rbind check_amount amount_val].
    rewrite (proj2 (Z.eqb_neq z 0) Hz). cbn [rbind]. rewrite Hst. cbn [rbind].
    change (check_side (SdStr (lit "long"))) with (Ok Long). cbn [rbind]. rewrite (the_account_ready _ _ Hw). cbn [rbind].
    destruct (acc_order gt id now code z sty Long a (w_gate w)) as [[r a'] g'] eqn:E.
    destruct (acc_order_book gt _ _ _ _ _ _ _ _ _ _ _ E) as (SB & L & Hg & Hr). fold o in SB, L, Hg, Hr.
    exists a'. rewrite (proj1 Hw), Hr, Hg. split; [unfold answer; reflexivity|]. split; [apply new_order_for, Hz|]. split; [exact L|].
    destruct (acc_order_ok gt _ _ _ _ _ _ _ _ _ _ _ E HB) as [HB' _]. split; [exact HB'|].
    assert (D : dkeys (a_long a') = dkeys (a_long a) /\ a_short a' = a_short a /\ (answer gt o (w_gate w) <> None -> a_long a' = a_long (acc_order_created o a))).
    { unfold acc_order in E. fold o in E. unfold answer. destruct (g_order gt o (w_gate w)) as [[u|e] g1]; injection E as <- <- <-; cbn [fst].
      - split; [rewrite created_keys; reflexivity|]. split; [rewrite created_short by reflexivity; reflexivity|]. intros _.
        unfold acc_order_created. cbn [o_side o new_order]. cbn [acc_log store a_long]. destruct (dget (o_code _) (a_long a)); reflexivity.
      - split; [reflexivity|]. split; [reflexivity|]. congruence. }
    destruct D as (D1 & D2 & D3). split; [split; [rewrite D1; apply HP|rewrite D2; apply HP]|].
    split; [rewrite <- (waiting_same _ _ SB); apply waiting_store; [exact HB|exact Hk|reflexivity]|]. split; [exact D1|]. split; [exact SB|]. split; [exact D3|].
    assert (Es : signed o = z) by (unfold signed, o, new_order; cbn [o_action o_amount]; destruct (Z.ltb_spec z 0); lia).
    cbn [ordered]. exists r, a', g'. rewrite Es. split; [exact E|]. split; [reflexivity|symmetry; exact Hg].
  Qed.

  Lemma recorded_stored a a' id o : book_ok a -> ~ known a id -> same_book (store id o a) a' -> forall k x, recorded a' k x <-> recorded a k x \/ (k = id /\ x = o).
  Proof.
    intros HB Hk [S1 S2] k x. pose proof (unknown_dget a id HB Hk) as E. unfold recorded. rewrite <- S1, <- S2. cbn [store a_orders a_heap]. split.
    - intros (r & E1 & E2). destruct (eqb_spec k id) as [->|N].
      + rewrite dget_dset_same in E1. injection E1 as <-. rewrite nth_error_app2, Nat.sub_diag in E2 by lia. injection E2 as <-. right. auto.
      + rewrite dget_dset_other in E1 by congruence. left. exists r. split; [exact E1|]. destruct (proj2 HB k r E1) as (o' & E3 & _).
        rewrite nth_error_app1 in E2; [exact E2|]. apply nth_error_Some. congruence.
    - intros [(r & E1 & E2)|[-> ->]].
      + exists r. split; [rewrite dget_dset_other; [exact E1|intros ->; congruence]|]. rewrite nth_error_app1; [exact E2|]. apply nth_error_Some. congruence.
      + exists (length (a_heap a)). split; [apply dget_dset_same|]. rewrite nth_error_app2, Nat.sub_diag by lia. reflexivity.
  Qed.
End Run.

Section Parts.
  Context (udigit : N -> bool) {G : Type} (gt : gate G).
  Definition noted (k : str) (l : list order) (gw : G) (g : dict str (option str)) : dict str (option str) :=
    match l with [] => g | o :: _ => dset k (answer gt o gw) g end.
  Definition part (l : list order) (a a1 : acct) : Prop :=
    a_log a1 = a_log a ++ map EvOrder l /\ book_ok a1 /\ pos_ok a1 /\ waiting_ids a1 = waiting_ids a ++ map o_id l /\
    dkeys (a_long a1) = dkeys (a_long a) /\ (forall k x, recorded a1 k x <-> recorded a k x \/ (In x l /\ k = o_id x)).
  Lemma part_nil a : book_ok a -> pos_ok a -> part [] a a.
  Proof. intros HB HP. unfold part. cbn [map]. rewrite !app_nil_r. repeat split; auto; try apply HB; try apply HP. intros [H|[[] _]]. exact H. Qed.
  Lemma world_eta (w : world G) a : ready w a -> w = World true (Some a) (w_gate w).
  Proof. destruct w; intros [H1 H2]; cbn in *; subst; reflexivity. Qed.

  Lemma sell_ok id now g w a : ready w a -> book_ok a -> pos_ok a -> ~ known a id ->
    exists l a1, sells_of a id now l /\ part l a a1 /\
      sell_part udigit gt id now g w = (Ok (noted key1 l (w_gate w) g), World true (Some a1) (given gt l (w_gate w))) /\
      (forall o, In o l -> o_id o = id) /\ (l = [] -> a1 = a) /\
      (forall o, In o l -> answer gt o (w_gate w) <> None -> closeable a1 code1 = 0) /\ ordered gt l a (w_gate w) a1 (given gt l (w_gate w)).
  Proof.
    intros Hw HB HP Hk. unfold sell_part, api_portfolio. rewrite (the_account_ready _ _ Hw). cbn [rbind]. unfold long_view. rewrite (view_same _ (proj1 HP)).
    assert (Ec : ps_avail (fst (view_get Long code1 (a_long a))) = closeable a code1).
    { unfold view_get, closeable. destruct (dget code1 (a_long a)); reflexivity. }
    rewrite Ec. destruct (Z.ltb_spec 0 (closeable a code1)) as [Hc|Hc].
    - destruct (place udigit gt id now (CStr code1) code1 (- closeable a code1) (StStyle (Limit (PNum (lit "10")))) (Limit (PNum (lit "10"))) w a) as (a1 & E & F & L & HB1 & HP1 & W & D & SB & Av & Or);
        [reflexivity|lia|reflexivity|exact Hw|exact HB|exact HP|exact Hk|].
      set (o := new_order id now code1 (- closeable a code1) (Limit (PNum (lit "10"))) Long) in *.
      exists [o], a1. split; [split; [change (lit "000001.XSHE") with code1; lia|intros _; exists o; auto]|]. split.
      + split; [exact L|]. split; [exact HB1|]. split; [exact HP1|]. split; [exact W|]. split; [exact D|].
        intros k x. rewrite (recorded_stored a a1 id o HB Hk SB k x). cbn [In]. split; intros [X|X]; auto; right.
        * destruct X as [-> ->]. auto.
        * destruct X as [[<-|[]] ->]. auto.
      + split; [rewrite E; reflexivity|]. split; [intros o' [<-|[]]; reflexivity|]. split; [discriminate|]. split; [|exact Or].
        intros o' [<-|[]] Ha. unfold closeable. rewrite (Av Ha). unfold acc_order_created. cbn [o_side o new_order o_code].
        unfold closeable in Hc. destruct (dget code1 (a_long a)) as [p|] eqn:Ed; [|lia].
        cbn [set_positions a_long]. rewrite dget_dset_same. unfold pos_order_created. unfold o, new_order. cbn [o_action o_amount].
        unfold closeable. rewrite Ed. replace (- ps_avail p <? 0) with true by (symmetry; apply Z.ltb_lt; lia).
        unfold set_avail. cbn [ps_avail]. lia.
    - exists [], a. split; [split; [reflexivity|change (lit "000001.XSHE") with code1; lia]|]. split; [apply part_nil; assumption|]. split; [cbn; rewrite <- (world_eta w a Hw); reflexivity|].
      split; [intros o []|]. split; [reflexivity|]. split; [intros o []|]. split; reflexivity.
  Qed.
  Lemma buy_ok id now g w a : ready w a -> book_ok a -> pos_ok a -> ~ known a id ->
    exists l a1, buys_of a id now l /\ part l a a1 /\
      buy_part udigit gt id now g w = (Ok (noted key2 l (w_gate w) g), World true (Some a1) (given gt l (w_gate w))) /\
      (forall o, In o l -> o_id o = id) /\ closeable a1 code1 = closeable a code1 /\ ordered gt l a (w_gate w) a1 (given gt l (w_gate w)).
  Proof.
    intros Hw HB HP Hk. unfold buy_part, api_portfolio. rewrite (the_account_ready _ _ Hw). cbn [rbind]. unfold long_view. rewrite (view_same _ (proj1 HP)).
    assert (Eh : dmem code2 (a_long a) = true <-> held a code2) by apply dmem_In.
    destruct (dmem code2 (a_long a)) eqn:Em.
    - exists [], a. split; [split; [reflexivity|]|]. { intro H. destruct (H (proj1 Eh eq_refl)). }
      split; [apply part_nil; assumption|]. split; [cbn; rewrite <- (world_eta w a Hw); reflexivity|]. split; [intros o []|]. split; [reflexivity|]. split; reflexivity.
    - destruct (place udigit gt id now (CStr code2) code2 100 (StStyle (Market (PNum (lit "0")))) (Market (PNum (lit "0"))) w a) as (a1 & E & F & L & HB1 & HP1 & W & D & SB & Av & Or);
        [reflexivity|lia|reflexivity|exact Hw|exact HB|exact HP|exact Hk|].
      assert (El : a_long a1 = a_long a).
      { revert E. unfold api_order. change (check_code udigit (CStr code2)) with (Ok code2). cbn [rbind check_amount amount_val Z.eqb check_style].
        change (check_side (SdStr (lit "long"))) with (Ok Long). cbn [rbind]. rewrite (the_account_ready _ _ Hw). cbn [rbind].
        unfold acc_order. destruct (g_order gt _ (w_gate w)) as [[u|e] g1]; intro X; apply (f_equal (fun q => w_acc (snd q))) in X; cbn [snd w_acc] in X; injection X as <-; try reflexivity.
        - unfold acc_order_created. cbn [new_order o_side o_code acc_log store a_long]. destruct (dget code2 (a_long a)) eqn:Ed; [|reflexivity].
          exfalso. unfold dmem in Em. rewrite Ed in Em. discriminate Em. }
      set (o := new_order id now code2 100 (Market (PNum (lit "0"))) Long) in *.
      exists [o], a1. split; [split; [intro H; apply Eh in H; discriminate H|intros _; exists o; auto]|]. split.
      + split; [exact L|]. split; [exact HB1|]. split; [exact HP1|]. split; [exact W|]. split; [exact D|].
        intros k x. rewrite (recorded_stored a a1 id o HB Hk SB k x). cbn [In]. split; intros [X|X]; auto; right.
        * destruct X as [-> ->]. auto.
        * destruct X as [[<-|[]] ->]. auto.
      + split; [rewrite E; reflexivity|]. split; [intros o' [<-|[]]; reflexivity|]. split; [unfold closeable; rewrite El; reflexivity|exact Or].
  Qed.
End Parts.

Section Whole.
  Context (udigit : N -> bool) {G : Type} (gt : gate G).
  Lemma whole i1 i2 n1 n2 g w a : ready w a -> book_ok a -> pos_ok a -> ~ known a i1 -> ~ known a i2 -> i1 <> i2 ->
    exists sells buys a2, sells_of a i1 n1 sells /\ buys_of a i2 n2 buys /\ part (sells ++ buys) a a2 /\
      do_order udigit gt i1 i2 n1 n2 g w =
        (Ok (noted gt key2 buys (given gt sells (w_gate w)) (noted gt key1 sells (w_gate w) g)),
         World true (Some (logged (waiting_ids a ++ map o_id (sells ++ buys)) a2)) (cancelled gt (waiting_ids a ++ map o_id (sells ++ buys)) (given gt (sells ++ buys) (w_gate w)))) /\
      (forall o, In o sells -> answer gt o (w_gate w) <> None -> closeable a2 code1 = 0) /\ (sells = [] -> closeable a2 code1 = closeable a code1) /\
      (forall o, In o sells -> o_id o = i1) /\ (forall o, In o buys -> o_id o = i2) /\
      ordered gt (sells ++ buys) a (w_gate w) a2 (given gt (sells ++ buys) (w_gate w)).
  Proof.
    intros Hw HB HP K1 K2 Hne. destruct (sell_ok udigit gt i1 n1 g w a Hw HB HP K1) as (sells & a1 & S1 & (P1 & P2 & P3 & P4 & P5 & P6) & E1 & I1 & Z1 & Z2 & O1).
    set (g1 := noted gt key1 sells (w_gate w) g) in *. set (w1 := World true (Some a1) (given gt sells (w_gate w))) in *.
    assert (Hw1 : ready w1 a1) by (split; reflexivity).
    assert (K2' : ~ known a1 i2).
    { intros (x & Hx). apply P6 in Hx as [Hx|[Hx Ex]]; [apply K2; exists x; exact Hx|]. apply I1 in Hx. congruence. }
    destruct (buy_ok udigit gt i2 n2 g1 w1 a1 Hw1 P2 P3 K2') as (buys & a2 & B1 & (Q1 & Q2 & Q3 & Q4 & Q5 & Q6) & E2 & I2 & C2 & O2).
    set (w2 := World true (Some a2) (given gt buys (w_gate w1))) in *.
    exists sells, buys, a2. split; [exact S1|]. split; [unfold buys_of, held in *; rewrite <- P5; exact B1|]. split.
    - split; [rewrite Q1, P1, map_app, app_assoc; reflexivity|]. split; [exact Q2|]. split; [exact Q3|]. split; [rewrite Q4, P4, map_app, app_assoc; reflexivity|].
      split; [congruence|]. intros k x. rewrite Q6, P6, in_app_iff. tauto.
    - split; [|split; [|split; [|split; [assumption|split; [assumption|]]]]].
      + unfold do_order. rewrite E1, E2. rewrite (all_orders udigit G w2 a2 (conj eq_refl eq_refl) Q2). rewrite (items_exact gt w2 a2 (conj eq_refl eq_refl) Q2).
        unfold after. rewrite Q4, P4, <- app_assoc, <- map_app. unfold cancelled, given. cbn [w2 w1 w_gate]. unfold given. rewrite !fold_left_app. reflexivity.
      + intros o Ho Ha. rewrite C2. apply (Z2 o Ho Ha).
      + intro E. rewrite C2, (Z1 E). reflexivity.
      + apply (ordered_app gt sells buys _ _ a1 (given gt sells (w_gate w))); [exact O1|]. unfold given at 2. rewrite fold_left_app. exact O2.
  Qed.
End Whole.

(** ** Theorems *)

(** What one run does, for every gate: it never raises; it offers all that can be closed of
    000001.XSHE at 10 and buys 100 of 000002.XSHE unless there is an entry for it; then it
    cancels, once each, the orders that were waiting and those it has just placed. *)
Theorem C143_exact :
  forall udigit G (gt : gate G) i1 i2 n1 n2 g w a,
    ready w a -> reachable udigit gt a -> ~ known a i1 -> ~ known a i2 -> i1 <> i2 ->
    exists sells buys ids gv a',
      sells_of a i1 n1 sells /\ buys_of a i2 n2 buys /\
      do_order udigit gt i1 i2 n1 n2 g w = (Ok gv, World true (Some a') (cancelled gt ids (given gt (sells ++ buys) (w_gate w)))) /\
      a_log a' = a_log a ++ map EvOrder (sells ++ buys) ++ map EvCancel ids /\
      NoDup ids /\ (forall id, In id ids <-> waiting a id \/ exists o, In o (sells ++ buys) /\ id = o_id o) /\
      (forall id o, recorded a' id o <-> recorded a id o \/ (In o (sells ++ buys) /\ id = o_id o)) /\
      (sells = [] -> dget (lit "order_id_000001") gv = dget (lit "order_id_000001") g) /\ (forall o, sells = [o] -> dget (lit "order_id_000001") gv = Some (answer gt o (w_gate w))) /\
      (buys = [] -> dget (lit "order_id_000002") gv = dget (lit "order_id_000002") g) /\ (forall o, buys = [o] -> dget (lit "order_id_000002") gv = Some (answer gt o (given gt sells (w_gate w)))).
Proof.
  intros udigit G gt i1 i2 n1 n2 g w a Hw HR K1 K2 Hne. destruct (reachable_ok udigit gt a HR) as [HB HP].
  destruct (whole udigit gt i1 i2 n1 n2 g w a Hw HB HP K1 K2 Hne) as (sells & buys & a2 & S & B & (P1 & P2 & P3 & P4 & P5 & P6) & E & _ & _ & I1 & I2 & _).
  eexists sells, buys, (waiting_ids a ++ map o_id (sells ++ buys)), _, _. split; [exact S|]. split; [exact B|]. split; [exact E|].
  split; [cbn [logged a_log]; rewrite P1, <- app_assoc; reflexivity|].
  split; [rewrite <- P4; apply waiting_once, P2|]. split.
  { intro id. rewrite in_app_iff, (waiting_in a HB id), in_map_iff. split; (intros [X|(o & X & Y)]; [left; exact X|right; exists o; auto]). }
  split; [exact P6|]. assert (Kn : key1 <> key2) by discriminate.
  change (lit "order_id_000001") with key1. change (lit "order_id_000002") with key2.
  split; [intros ->|split; [intros o ->|split; [intros ->|intros o ->]]]; cbn [noted]; try reflexivity.
  - destruct buys; cbn [noted]; [reflexivity|]. rewrite dget_dset_other by exact Kn. reflexivity.
  - destruct buys; cbn [noted]; [|rewrite dget_dset_other by exact Kn]; apply dget_dset_same.
  - destruct sells; cbn [noted]; [reflexivity|]. rewrite dget_dset_other by congruence. reflexivity.
  - apply dget_dset_same.
Qed.
Print Assumptions C143_exact.

(** So no order of this task is left standing: each order that the run gives to the gate is
    followed, in the same run, by its cancel. *)
Theorem C143_own :
  forall udigit G (gt : gate G) i1 i2 n1 n2 g w a,
    ready w a -> reachable udigit gt a -> ~ known a i1 -> ~ known a i2 -> i1 <> i2 ->
    exists gv a' gw new, do_order udigit gt i1 i2 n1 n2 g w = (Ok gv, World true (Some a') gw) /\ a_log a' = a_log a ++ new /\
      forall pre o post, new = pre ++ EvOrder o :: post -> In (EvCancel (o_id o)) post.
Proof.
  intros udigit G gt i1 i2 n1 n2 g w a Hw HR K1 K2 Hne.
  destruct (C143_exact udigit G gt i1 i2 n1 n2 g w a Hw HR K1 K2 Hne) as (sells & buys & ids & gv & a' & _ & _ & E & L & _ & I & _).
  eexists gv, a', _, _. split; [exact E|]. split; [exact L|]. intros pre o post En.
  assert (Ho : In o (sells ++ buys)).
  { assert (X : In (EvOrder o) (map EvOrder (sells ++ buys) ++ map EvCancel ids)) by (rewrite En; apply in_or_app; right; left; reflexivity).
    apply in_app_iff in X as [X|X]; apply in_map_iff in X as (y & Y & Z); [injection Y as ->; exact Z|discriminate Y]. }
  assert (Hi : In (o_id o) ids) by (apply I; right; exists o; auto).
  assert (X : In (EvCancel (o_id o)) (pre ++ EvOrder o :: post)).
  { rewrite <- En. apply in_or_app. right. apply in_map, Hi. }
  apply in_app_iff in X as [X|[X|X]]; [|discriminate X|exact X]. exfalso.
  (* a cancel never precedes an order *)
  revert pre En X. generalize (sells ++ buys) as os. induction os as [|x os IH]; intros pre En X.
  - cbn [map app] in En. assert (Y : In (EvOrder o) (map EvCancel ids)) by (rewrite En; apply in_or_app; right; left; reflexivity).
    apply in_map_iff in Y as (y & Y & _). discriminate Y.
  - destruct pre as [|p pre]; [destruct X|]. cbn [map app] in En. injection En as Ex En. destruct X as [X|X]; [congruence|]. apply (IH pre En X).
Qed.
Print Assumptions C143_own.

(** Without an account every run raises and does nothing. *)
Theorem C143_no_account :
  forall udigit G (gt : gate G) i1 i2 n1 n2 g (w : world G),
    (w_use w = false -> do_order udigit gt i1 i2 n1 n2 g w = (Err InvalidCall, w)) /\
    (w_use w = true -> w_acc w = None -> do_order udigit gt i1 i2 n1 n2 g w = (Err AttributeError, w)).
Proof.
  intros. unfold do_order, sell_part, api_portfolio, the_account. split; [intros ->; reflexivity|intros -> ->; reflexivity].
Qed.
Print Assumptions C143_no_account.

(** Run minute after minute with nothing reported in between: when 000002.XSHE is not held and
    nothing of 000001.XSHE can be closed, each run buys again, and each cancels all the orders
    of the runs before it once more. *)
Fixpoint all_new (a : acct) (l : list (str * str * Z * Z)) : Prop :=
  match l with
  | [] => True
  | (i1, i2, _, _) :: l' => ~ known a i1 /\ ~ known a i2 /\ i1 <> i2 /\ (forall j1 j2 m1 m2, In (j1, j2, m1, m2) l' -> j1 <> i2 /\ j2 <> i2) /\ all_new a l'
  end.
Definition placed_in (l : list aevent) : list order := flat_map (fun e => match e with EvOrder o => [o] | _ => [] end) l.
Definition cancels_in (l : list aevent) : list str := flat_map (fun e => match e with EvCancel i => [i] | _ => [] end) l.
Lemma fm_app {A B} (f : A -> list B) : forall l m, flat_map f (l ++ m) = flat_map f l ++ flat_map f m.
Proof. intros l m. apply flat_map_app. Qed.
Lemma placed_orders os : placed_in (map EvOrder os) = os.
Proof. induction os as [|o os IH]; cbn; [reflexivity|]. f_equal. exact IH. Qed.
Lemma placed_cancels ids : placed_in (map EvCancel ids) = [].
Proof. induction ids; [reflexivity|exact IHids]. Qed.
Lemma cancels_orders os : cancels_in (map EvOrder os) = [].
Proof. induction os; [reflexivity|exact IHos]. Qed.
Lemma cancels_cancels ids : cancels_in (map EvCancel ids) = ids.
Proof. induction ids as [|i ids IH]; cbn; [reflexivity|]. f_equal. exact IH. Qed.

Lemma minutes_run udigit G (gt : gate G) : forall l g w a,
  ready w a -> book_ok a -> pos_ok a -> all_new a l -> closeable a code1 <= 0 -> ~ held a code2 ->
  exists gv a' gw new, minutes udigit gt l g w = (Ok gv, World true (Some a') gw) /\ a_log a' = a_log a ++ new /\
    length (placed_in new) = length l /\ (forall o, In o (placed_in new) -> o_code o = code2 /\ o_amount o = 100 /\ o_action o = Open) /\
    (2 * length (cancels_in new) = length l * (2 * length (waiting_ids a) + length l + 1))%nat.
Proof.
  induction l as [|[[[i1 i2] n1] n2] l IH]; intros g w a Hw HB HP HN Hc Hh.
  - exists g, a, (w_gate w), []. cbn [minutes]. rewrite app_nil_r. split; [rewrite <- (world_eta w a Hw); reflexivity|]. split; [reflexivity|]. split; [reflexivity|]. split; [intros o []|reflexivity].
  - destruct HN as (K1 & K2 & Hne & Hl & HN). cbn [minutes].
    destruct (whole udigit gt i1 i2 n1 n2 g w a Hw HB HP K1 K2 Hne) as (sells & buys & a2 & [S _] & [_ B] & (P1 & P2 & P3 & P4 & P5 & P6) & E & _ & C & I1 & I2 & _).
    specialize (S Hc). subst sells. destruct (B Hh) as (o & -> & Fo). cbn [app] in *. rewrite E.
    set (ids := waiting_ids a ++ map o_id [o]) in *. set (a3 := logged ids a2).
    set (w3 := World true (Some a3) _).
    destruct (IH (noted gt key2 [o] (given gt [] (w_gate w)) (noted gt key1 [] (w_gate w) g)) w3 a3) as (gv & a' & gw & new & E' & L & N1 & N2 & N3).
    + split; reflexivity.
    + exact P2.
    + exact P3.
    + assert (X : forall m, (forall j1 j2 m1 m2, In (j1, j2, m1, m2) m -> j1 <> i2 /\ j2 <> i2) -> all_new a m -> all_new a3 m).
      { induction m as [|[[[j1 j2] m1] m2] m IHm]; intros Hm HA; [exact I|]. destruct HA as (A1 & A2 & A3 & A4 & A5). destruct (Hm j1 j2 m1 m2 (or_introl eq_refl)) as [D1 D2].
        assert (Y : forall j, j <> i2 -> ~ known a j -> ~ known a3 j).
        { intros j Dj Kj (x & Hx). apply (P6 j x) in Hx as [Hx|[[<-|[]] Hx]]; [apply Kj; exists x; exact Hx|]. apply Dj. rewrite Hx. apply I2. left. reflexivity. }
        cbn [all_new]. split; [apply Y; assumption|]. split; [apply Y; assumption|]. split; [exact A3|]. split; [exact A4|]. apply IHm; [|exact A5]. intros k1 k2 q1 q2 Hq. apply (Hm k1 k2 q1 q2). right. exact Hq. }
      apply X; assumption.
    + unfold closeable, a3. cbn [logged a_long]. pose proof (C eq_refl) as C'. unfold closeable in *. lia.
    + unfold held, a3. cbn [logged a_long]. rewrite P5. exact Hh.
    + exists gv, a', gw, (map EvOrder [o] ++ map EvCancel ids ++ new). split; [exact E'|].
      split; [rewrite L; unfold a3; cbn [logged a_log]; rewrite P1; rewrite <- !app_assoc; reflexivity|].
      unfold placed_in, cancels_in in *. rewrite !fm_app. fold (placed_in (map EvOrder [o])). fold (placed_in (map EvCancel ids)). fold (cancels_in (map EvOrder [o])). fold (cancels_in (map EvCancel ids)).
      rewrite placed_orders, placed_cancels, cancels_orders, cancels_cancels. cbn [app]. split; [cbn [length]; f_equal; exact N1|]. split.
      * intros x [<-|Hx]; [|apply N2, Hx]. destruct Fo as (_ & F2 & F3 & F4 & _). split; [exact F2|]. split; [rewrite F3; reflexivity|]. apply F4. lia.
      * rewrite app_length. assert (El : length ids = S (length (waiting_ids a))) by (unfold ids; rewrite app_length; cbn; lia).
        assert (Ew : waiting_ids a3 = ids).
        { transitivity (waiting_ids a2); [|exact P4]. apply waiting_same. split; reflexivity. }
        rewrite Ew in N3. rewrite El in *. cbn [length]. nia.
Qed.
Theorem C143_minutes :
  forall udigit G (gt : gate G) l g w a,
    ready w a -> reachable udigit gt a -> all_new a l -> closeable a code1 <= 0 -> ~ held a code2 ->
    exists gv a' gw new, minutes udigit gt l g w = (Ok gv, World true (Some a') gw) /\ a_log a' = a_log a ++ new /\
      length (placed_in new) = length l /\ (forall o, In o (placed_in new) -> o_code o = code2 /\ o_amount o = 100 /\ o_action o = Open) /\
      exists n, NoDup n /\ (forall id, In id n <-> waiting a id) /\
        (2 * length (cancels_in new) = length l * (2 * length n + length l + 1))%nat.
Proof.
  intros udigit G gt l g w a Hw HR HN Hc Hh. destruct (reachable_ok udigit gt a HR) as [HB HP].
  destruct (minutes_run udigit G gt l g w a Hw HB HP HN Hc Hh) as (gv & a' & gw & new & E & L & N1 & N2 & N3).
  exists gv, a', gw, new. split; [exact E|]. split; [exact L|]. split; [exact N1|]. split; [exact N2|].
  exists (waiting_ids a). split; [apply waiting_once, HB|]. split; [apply waiting_in, HB|exact N3].
Qed.
Print Assumptions C143_minutes.

(** What the task sells is sold once: when the gate took the sell order, the next run finds
    nothing of 000001.XSHE to close, until the balance is read again. *)
Theorem C143_sold_once :
  forall udigit G (gt : gate G) i1 i2 n1 n2 g w a,
    ready w a -> reachable udigit gt a -> ~ known a i1 -> ~ known a i2 -> i1 <> i2 -> 0 < closeable a code1 ->
    exists gv a' gw, do_order udigit gt i1 i2 n1 n2 g w = (Ok gv, World true (Some a') gw) /\
      (dget key1 gv = Some (Some i1) -> closeable a' code1 = 0) /\ (dget key1 gv <> Some (Some i1) -> dget key1 gv = Some None).
Proof.
  intros udigit G gt i1 i2 n1 n2 g w a Hw HR K1 K2 Hne Hc. destruct (reachable_ok udigit gt a HR) as [HB HP].
  destruct (whole udigit gt i1 i2 n1 n2 g w a Hw HB HP K1 K2 Hne) as (sells & buys & a2 & [_ S] & _ & _ & E & C & _ & I1 & _ & _).
  destruct (S Hc) as (o & -> & Fo). eexists _, _, _. split; [exact E|].
  assert (Kn : key1 <> key2) by discriminate.
  assert (Ek : dget key1 (noted gt key2 buys (given gt [o] (w_gate w)) (noted gt key1 [o] (w_gate w) g)) = Some (answer gt o (w_gate w))).
  { destruct buys; cbn [noted]; [|rewrite dget_dset_other by exact Kn]; apply dget_dset_same. }
  rewrite Ek. split.
  - intro H. cbn [logged]. unfold closeable. cbn [a_long]. apply (C o (or_introl eq_refl)). congruence.
  - intro H. unfold answer in *. destruct (fst (g_order gt o (w_gate w))); [|reflexivity]. exfalso. apply H. rewrite (I1 o (or_introl eq_refl)). reflexivity.
Qed.
Print Assumptions C143_sold_once.

(** an account that holds 500 of 000001.XSHE, 400 of them free, and the first two runs *)
Definition rd_bal : binfo :=
  BInfo (Some (Cash (Some 50) (Some 20) (Some 3))) (Some [PInfo (Some (lit "long")) (Some code1) (Some 500) (Some 400) (Some 11110) None (Some 7)]).
Definition rd_w : world dgate := do_calls no_udigit demo [KSyncBal] (World true (Some acct_new) (DGate [] [] rd_bal)).
Definition rd_2 := minutes no_udigit demo [(lit "1", lit "2", 0, 0); (lit "3", lit "4", 0, 0)] [] rd_w.
Definition brief (e : aevent) : str * Z :=
  match e with EvOrder o => (o_id o, match o_action o with Open => o_amount o | Close => - o_amount o end) | EvCancel i => (i, 0) | EvNotice _ o => (o_id o, 1) end.
Example C143_demo :
  fst rd_2 = Ok [(key1, Some (lit "1")); (key2, Some (lit "4"))] /\
  match w_acc rd_w, w_acc (snd rd_2) with
  | Some a, Some a' =>
      closeable a code1 = 400 /\ closeable a' code1 = 0 /\ ~ held a code2 /\ all_new a [(lit "1", lit "2", 0, 0); (lit "3", lit "4", 0, 0)] /\
      map brief (a_log a') =
        [ (lit "1", -400); (lit "2", 100); (lit "1", 0); (lit "2", 0);
          (lit "4", 100); (lit "1", 0); (lit "2", 0); (lit "4", 0) ]
  | _, _ => False
  end.
Proof.
  split; [vm_compute; reflexivity|].
  assert (E : match w_acc rd_w with Some a => a_orders a = [] /\ dkeys (a_long a) = [code1] | None => False end) by (vm_compute; split; reflexivity).
  destruct (w_acc rd_w) as [a|] eqn:Ea; [|destruct E]. destruct (w_acc (snd rd_2)) as [a'|] eqn:Ea'; [|vm_compute in Ea'; discriminate Ea'].
  destruct E as [E1 E2].
  assert (NK : forall i, ~ known a i) by (intros i (o & r & X & _); rewrite E1 in X; discriminate X).
  split; [|split; [|split; [|split]]].
  - vm_compute in Ea. injection Ea as <-. reflexivity.
  - vm_compute in Ea'. injection Ea' as <-. reflexivity.
  - unfold held. rewrite E2. intros [X|[]]. discriminate X.
  - cbn [all_new In]. do 2 (split; [apply NK|]). split; [discriminate|]. split; [intros j1 j2 m1 m2 [X|[]]; injection X as <- <- <- <-; split; discriminate|].
    do 2 (split; [apply NK|]). split; [discriminate|]. split; [intros j1 j2 m1 m2 []|exact I].
  - vm_compute in Ea'. injection Ea' as <-. reflexivity.
Qed.
(** two runs of an account without positions: two orders, three cancels *)
Example C143_minutes_demo :
  let a := acct_new in
  closeable a code1 <= 0 /\ ~ held a code2 /\ waiting_ids a = [] /\
  match w_acc (snd (minutes no_udigit demo [(lit "1", lit "2", 0, 0); (lit "3", lit "4", 0, 0)] [] (World true (Some a) (DGate [] [] rd_bal)))) with
  | Some a' => map o_id (placed_in (a_log a')) = [lit "2"; lit "4"] /\ cancels_in (a_log a') = [lit "2"; lit "2"; lit "4"]
  | None => False
  end.
Proof. vm_compute. repeat split; try discriminate; auto. Qed.
