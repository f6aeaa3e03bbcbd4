(** C134: order syncs with figures that are infinite or nan. *)
From Verif Require Import LAccount.
From Verif Require Import PyBase PyStr PyFloat MNumber MTime MDate MOrder MAccount MNanOrder SNanOrder SNumber SWhen SStrptime LNumber TNumber.
Open Scope list_scope.
Open Scope Z_scope.

(** ** which texts are nan *)
Theorem C134_text : forall dig nd s, digits_ok dig -> (odd_figure dig nd s = Some FNaN <-> is_float dig s VNaN).
Proof.
  intros dig nd s Hd. unfold odd_figure. split.
  - destruct (py_float dig s) as [[x|b|]|] eqn:E; try discriminate. intros _.
    destruct (C132_reads dig s NaN E) as (v & F & M). inversion M; subst. exact F.
  - intro F. destruct (C132_takes dig Hd s VNaN F) as (n & E & M). rewrite E. inversion M; subst. reflexivity.
Qed.
Print Assumptions C134_text.

(** ** comparing orders *)
Lemma fig_eq_refl x : fig_eq x x = true <-> x <> FNaN.
Proof. destruct x; cbn; [rewrite Z.eqb_refl|rewrite Bool.eqb_reflx|]; split; intros; congruence. Qed.
Lemma opt_eq_refl x : opt_eq x x = true <-> x <> Some FNaN.
Proof. destruct x as [x|]; cbn; [rewrite fig_eq_refl|]; split; intros; congruence. Qed.
Lemma fig_eq_nan x : fig_eq FNaN x = false.
Proof. destruct x; reflexivity. Qed.
Lemma opt_eq_nan x : opt_eq (Some FNaN) x = false.
Proof. destruct x as [x|]; [apply fig_eq_nan|reflexivity]. Qed.
Lemma dfl_nan x : dfl x (FNum 0) = FNaN <-> x = Some FNaN.
Proof. destruct x; cbn; split; congruence. Qed.

(** what an order shows of its report *)
Lemma fload_fields i o : fload i = Ok o -> fo_deal o = dfl (fi_deal i) (FNum 0) /\ fo_avg o = fi_avg i /\ fo_comm o = dfl (fi_comm i) (FNum 0) /\ load (fi_base i) = Ok (fo_base o).
Proof. unfold fload. destruct (load (fi_base i)) as [b|]; [|discriminate]. cbn [rbind]. intro H. apply Ok_inj in H. subst o. repeat split. Qed.
Lemma load_status i o : load i = Ok o -> get_status (i_status i) = Ok (o_status o).
Proof.
  unfold load. destruct (get_action _); [|discriminate]. cbn [rbind]. destruct (get_status (i_status i)) as [st|]; [|discriminate]. cbn [rbind].
  destruct (get_style _ _); [|discriminate]. cbn [rbind]. destruct (parse_dt (i_create i)); [|discriminate]. cbn [rbind].
  match goal with |- (do en <- ?b; _) = _ -> _ => destruct b; [|discriminate] end. cbn [rbind].
  destruct (get_side _); [|discriminate]. cbn [rbind]. intro H. apply Ok_inj in H. subst o. reflexivity.
Qed.

Lemma nan_differs i o l : fload i = Ok o -> has_nan i -> fsame o l = false.
Proof.
  intros L H. destruct (fload_fields i o L) as (D & A & C & _). unfold fsame. destruct H as [H|[H|H]].
  - rewrite D, H. cbn [dfl]. rewrite fig_eq_nan, ?andb_false_r. reflexivity.
  - rewrite A, H, opt_eq_nan, ?andb_false_r. reflexivity.
  - rewrite C, H. cbn [dfl]. rewrite fig_eq_nan, ?andb_false_r. reflexivity.
Qed.
Lemma self_same i o : fload i = Ok o -> ~ has_nan i -> fsame o o = true.
Proof.
  intros L H. destruct (fload_fields i o L) as (D & A & C & _). unfold fsame.
  assert (X : forall T `{Eqb T} (x : T), PyBase.eqb x x = true) by (intros; apply eqb_true; reflexivity). rewrite !X, !Z.eqb_refl. cbn [andb].
  assert (D' : fig_eq (fo_deal o) (fo_deal o) = true) by (apply fig_eq_refl; rewrite D, dfl_nan; intro; apply H; left; assumption).
  assert (A' : opt_eq (fo_avg o) (fo_avg o) = true) by (apply opt_eq_refl; rewrite A; intro; apply H; right; left; assumption).
  assert (C' : fig_eq (fo_comm o) (fo_comm o) = true) by (apply fig_eq_refl; rewrite C, dfl_nan; intro; apply H; right; right; assumption).
  rewrite D', A', C'. reflexivity.
Qed.
Lemma same_status a b : fsame a b = true -> o_status (fo_base a) = o_status (fo_base b).
Proof. unfold fsame. intro H. repeat (apply andb_prop in H; destruct H as [H ?]). apply eqb_true in H. exact H. Qed.

(** ** one report *)
Lemma nan_dec i : has_nan i \/ ~ has_nan i.
Proof.
  assert (D : forall x : option fig, x = Some FNaN \/ x <> Some FNaN) by (intros [[]|]; (left; reflexivity) || (right; discriminate)).
  unfold has_nan. destruct (D (fi_deal i)), (D (fi_avg i)), (D (fi_comm i)); tauto.
Qed.
Notation id_of i := (i_id (fi_base i)).
Definition settled (i : finfo) (a : facct) : Prop :=
  exists o l, fload i = Ok o /\ flocal (id_of i) a = Some l /\ o_status (fo_base l) = o_status (fo_base o) /\ (~ has_nan i -> fsame o l = true).

Lemma nth_old {A} (l : list A) x r y : nth_error l r = Some y -> nth_error (l ++ [x]) r = Some y.
Proof. intro H. rewrite nth_error_app1; [exact H|]. apply nth_error_Some. congruence. Qed.
Lemma nth_new {A} (l : list A) x : nth_error (l ++ [x]) (length l) = Some x.
Proof. rewrite nth_error_app2 by reflexivity. rewrite Nat.sub_diag. reflexivity. Qed.
Lemma local_store_same id o a : flocal id (fstore id o a) = Some o.
Proof. unfold flocal, fstore. cbn [fa_orders fa_heap]. rewrite dget_dset_same. apply nth_new. Qed.
Lemma local_store_other id id' o a l : id <> id' -> flocal id a = Some l -> flocal id (fstore id' o a) = Some l.
Proof.
  intros N H. unfold flocal, fstore in *. cbn [fa_orders fa_heap]. rewrite dget_dset_other by exact N.
  destruct (dget id (fa_orders a)); [|discriminate]. apply nth_old. exact H.
Qed.
Lemma local_log id k o a : flocal id (flog k o a) = flocal id a.
Proof. reflexivity. Qed.

(** what one step does: nothing, or a new object and perhaps a notice *)
Lemma one_cases i a a' : fsync_one i a = Ok a' -> exists o, fload i = Ok o /\
  (a' = a /\ (exists l, flocal (id_of i) a = Some l /\ fsame o l = true) \/ a' = fstore (id_of i) o a \/ exists k, a' = flog k o (fstore (id_of i) o a)).
Proof.
  unfold fsync_one. destruct (fload i) as [o|] eqn:L; [|discriminate]. cbn [rbind]. intro H. exists o. split; [reflexivity|].
  destruct (flocal (id_of i) a) as [l|] eqn:F; [|apply Ok_inj in H; auto].
  destruct (fsame o l) eqn:S; apply Ok_inj in H; subst a'; [left; eauto|]. right. destruct (notice_for _ _) as [k|]; eauto.
Qed.
Lemma one_settles i a a' : fsync_one i a = Ok a' -> settled i a'.
Proof.
  intro H. destruct (one_cases i a a' H) as (o & L & C). exists o.
  assert (X : forall a'', flocal (id_of i) a'' = Some o -> exists l, fload i = Ok o /\ flocal (id_of i) a'' = Some l /\ o_status (fo_base l) = o_status (fo_base o) /\ (~ has_nan i -> fsame o l = true)).
  { intros a'' E. exists o. split; [exact L|]. split; [exact E|]. split; [reflexivity|]. intro N. eapply self_same; eauto. }
  destruct C as [(-> & l & E & S)|[->|(k & ->)]].
  - exists l. split; [exact L|]. split; [exact E|]. split; [symmetry; apply same_status; exact S|auto].
  - apply X, local_store_same.
  - apply X. rewrite local_log. apply local_store_same.
Qed.
Lemma one_keeps i j a a' : fsync_one i a = Ok a' -> id_of j <> id_of i -> settled j a -> settled j a'.
Proof.
  intros H N (o & l & L & F & St & S). exists o, l. split; [exact L|]. split; [|auto].
  destruct (one_cases i a a' H) as (p & _ & [(-> & _)|[->|(k & ->)]]); [exact F| |rewrite local_log]; apply local_store_other; assumption.
Qed.
Lemma sync_keeps l : forall a j, settled j a -> ~ In (id_of j) (map (fun i => id_of i) l) -> settled j (fsync l a).
Proof.
  induction l as [|i l IH]; intros a j S N; cbn [fsync].
  - destruct S as (o & x & S). exists o, x. exact S.
  - cbn [map In] in N. destruct (fsync_one i a) as [a'|] eqn:E; [|exact S]. apply IH; [|tauto]. eapply one_keeps; [exact E| |exact S]. intro X. apply N. left. congruence.
Qed.
Lemma one_ok i a : (exists o, fload i = Ok o) -> exists a', fsync_one i a = Ok a'.
Proof. intros (o & L). unfold fsync_one. rewrite L. cbn [rbind]. destruct (flocal _ a); [|eauto]. destruct (fsame _ _); eauto. Qed.
Lemma sync_settles l : forall a, sound l -> Forall (fun i => settled i (fsync l a)) l.
Proof.
  induction l as [|i l IH]; intros a [N L]; constructor; inversion N; inversion L; subst; cbn [fsync];
    destruct (one_ok i a) as [a' E]; [assumption| |assumption|]; rewrite E.
  - apply sync_keeps; [|assumption]. eapply one_settles; eauto.
  - apply IH. split; assumption.
Qed.

(** a settled report *)
Lemma notice_same a b : o_status a = o_status b -> notice_for a b = match o_status b with Sfilling => Some NFilling | _ => None end.
Proof. intro E. unfold notice_for. rewrite E. destruct (o_status b); reflexivity. Qed.
Lemma settled_quiet i a : settled i a -> ~ has_nan i -> fsync_one i a = Ok a.
Proof. intros (o & l & L & F & _ & S) N. unfold fsync_one. rewrite L, F. cbn [rbind]. rewrite (S N). reflexivity. Qed.
Lemma settled_nan i a : settled i a -> has_nan i -> exists o, fload i = Ok o /\
  fsync_one i a = Ok (match o_status (fo_base o) with Sfilling => flog NFilling o (fstore (id_of i) o a) | _ => fstore (id_of i) o a end).
Proof.
  intros (o & l & L & F & St & _) H. exists o. split; [exact L|]. unfold fsync_one. rewrite L, F. cbn [rbind].
  rewrite (nan_differs i o l L H), (notice_same _ _ St). destruct (o_status (fo_base o)); reflexivity.
Qed.
Lemma restless_iff i o : fload i = Ok o -> (restless i <-> has_nan i /\ o_status (fo_base o) = Sfilling).
Proof.
  intro L. destruct (fload_fields i o L) as (_ & _ & _ & B). apply load_status in B. unfold restless. split; intros [H S]; (split; [exact H|]).
  - rewrite S in B. change (lit "filling") with (status_str Sfilling) in B. rewrite get_status_str in B. apply Ok_inj in B. auto.
  - apply get_status_inv in B. rewrite B, S. reflexivity.
Qed.

(** ** all reports *)
Lemma repeated_unique l : forall x y, repeated l x -> repeated l y -> x = y.
Proof.
  induction l as [|i l IH]; intros x y Hx Hy; inversion Hx; inversion Hy; subst; try reflexivity; try contradiction; auto.
  assert (o = o0) by congruence. subst. f_equal. auto.
Qed.
Definition ref (i : finfo) (a : facct) : option nat := dget (id_of i) (fa_orders a).
Lemma local_ref i a l : flocal (id_of i) a = Some l -> exists r, ref i a = Some r /\ (r < length (fa_heap a))%nat.
Proof.
  unfold flocal, ref. destruct (dget _ _) as [r|]; [|discriminate]. intro H. exists r. split; [reflexivity|]. apply nth_error_Some. congruence.
Qed.
Lemma one_ref_other i j a a' : fsync_one i a = Ok a' -> id_of j <> id_of i -> ref j a' = ref j a.
Proof.
  intros H N. destruct (one_cases i a a' H) as (o & _ & [(-> & _)|[->|(k & ->)]]); [reflexivity| |]; unfold ref, flog, fstore; cbn [fa_orders]; apply dget_dset_other; exact N.
Qed.
Lemma one_heap i a a' : fsync_one i a = Ok a' -> (length (fa_heap a) <= length (fa_heap a'))%nat.
Proof.
  intros H. destruct (one_cases i a a' H) as (o & _ & [(-> & _)|[->|(k & ->)]]); [reflexivity| |]; unfold flog, fstore; cbn [fa_heap]; rewrite app_length; lia.
Qed.
Lemma sync_heap l : forall a, (length (fa_heap a) <= length (fa_heap (fsync l a)))%nat.
Proof.
  induction l as [|i l IH]; intro a; cbn [fsync]; [reflexivity|]. destruct (fsync_one i a) as [a'|] eqn:E; [|reflexivity].
  pose proof (one_heap _ _ _ E). specialize (IH a'). lia.
Qed.
Lemma sync_ref l : forall a j, ~ In (id_of j) (map (fun i => id_of i) l) -> ref j (fsync l a) = ref j a.
Proof.
  induction l as [|i l IH]; intros a j N; cbn [fsync]; [reflexivity|]. cbn [map In] in N. destruct (fsync_one i a) as [a'|] eqn:E; [|reflexivity].
  rewrite IH by tauto. apply (one_ref_other i j a a' E). intro X. apply N. left. congruence.
Qed.
Lemma settled_sync l : forall a, NoDup (map (fun i => id_of i) l) -> Forall (fun i => settled i a) l ->
  exists ns, repeated l ns /\ fa_log (fsync l a) = fa_log a ++ ns /\
    Forall (fun i => (~ has_nan i -> ref i (fsync l a) = ref i a) /\ (has_nan i -> exists r, ref i (fsync l a) = Some r /\ (length (fa_heap a) <= r)%nat)) l.
Proof.
  induction l as [|i l IH]; intros a N S; cbn [fsync].
  - exists []. split; [constructor|]. rewrite app_nil_r. split; [reflexivity|constructor].
  - inversion N as [|? ? Ni Nl]; inversion S as [|? ? Si Sl]; subst.
    assert (K : forall a', fsync_one i a = Ok a' -> Forall (fun j => settled j a') l).
    { intros a' E. rewrite Forall_forall in *. intros j Hj. eapply one_keeps; [exact E| |auto]. intro X. apply Ni. rewrite <- X. apply (in_map (fun i => id_of i)). exact Hj. }
    assert (W : forall a', fsync_one i a = Ok a' -> Forall (fun j => (~ has_nan j -> ref j (fsync l a') = ref j a') /\ (has_nan j -> exists r, ref j (fsync l a') = Some r /\ (length (fa_heap a') <= r)%nat)) l ->
              Forall (fun j => (~ has_nan j -> ref j (fsync l a') = ref j a) /\ (has_nan j -> exists r, ref j (fsync l a') = Some r /\ (length (fa_heap a) <= r)%nat)) l).
    { intros a' E H. pose proof (one_heap _ _ _ E) as Hh. rewrite Forall_forall in *. intros j Hj. destruct (H j Hj) as [A B]. split.
      - intro Hn. rewrite (A Hn). apply (one_ref_other i j a a' E). intro X. apply Ni. rewrite <- X. apply (in_map (fun i => id_of i)). exact Hj.
      - intro Hn. destruct (B Hn) as (r & Er & Hr). exists r. split; [exact Er|lia]. }
    destruct (nan_dec i) as [Hn|Hn].
    + destruct (settled_nan i a Si Hn) as (o & L & E). rewrite E.
      match type of E with _ = Ok ?x => set (a1 := x) in * end.
      assert (R1 : ref i a1 = Some (length (fa_heap a))) by (unfold a1, ref; destruct (o_status (fo_base o)); apply dget_dset_same).
      destruct (IH a1 Nl (K _ E)) as (ns & R & Lg & F).
      assert (Q : exists r, ref i (fsync l a1) = Some r /\ (length (fa_heap a) <= r)%nat).
      { exists (length (fa_heap a)). split; [|lia]. rewrite <- R1. apply sync_ref. exact Ni. }
      pose proof (restless_iff i o L) as RI.
      destruct (status_eqb_spec (o_status (fo_base o)) Sfilling) as [St|St].
      * exists ((NFilling, o) :: ns). split; [constructor; [tauto|exact L|exact R]|]. split.
        -- rewrite Lg. unfold a1. rewrite St. cbn [flog fa_log fstore]. rewrite <- app_assoc. reflexivity.
        -- constructor; [split; [contradiction|intros _; exact Q]|]. apply W; [exact E|exact F].
      * exists ns. split; [constructor; [tauto|exact R]|]. split.
        -- rewrite Lg. f_equal. unfold a1. destruct (o_status (fo_base o)); try reflexivity. congruence.
        -- constructor; [split; [contradiction|intros _; exact Q]|]. apply W; [exact E|exact F].
    + pose proof (settled_quiet i a Si Hn) as E. rewrite E. destruct (IH a Nl Sl) as (ns & R & Lg & F). exists ns.
      split; [constructor; [unfold restless; tauto|exact R]|]. split; [exact Lg|]. constructor; [|exact F]. split; [|contradiction]. intros _. apply sync_ref. exact Ni.
Qed.
Lemma syncs_settled n l : forall a, sound l -> Forall (fun i => settled i a) l -> Forall (fun i => settled i (fsyncs n l a)) l.
Proof. induction n as [|n IH]; intros a H S; [exact S|]. cbn [fsyncs]. apply IH; [exact H|apply sync_settles; exact H]. Qed.
Lemma syncs_S n l : forall a, fsyncs (S n) l a = fsync l (fsyncs n l a).
Proof. induction n as [|n IH]; intro a; [reflexivity|]. change (fsyncs (S (S n)) l a) with (fsyncs (S n) l (fsync l a)). rewrite IH. reflexivity. Qed.

(** after the first sync, every further one with the same reports logs the same notices again:
    those about partly filled orders with a nan *)
Theorem C134_again : forall l a, sound l ->
  exists ns, repeated l ns /\ forall n, fa_log (fsyncs (S n) l a) = fa_log (fsync l a) ++ times n ns.
Proof.
  intros l a H. pose proof (sync_settles l a H) as S0. destruct H as [N L].
  destruct (settled_sync l (fsync l a) N S0) as (ns & R & _). exists ns. split; [exact R|]. intro n. cbn [fsyncs].
  generalize dependent (fsync l a). induction n as [|n IH]; intros b S0; cbn [fsyncs times]; [rewrite app_nil_r; reflexivity|].
  rewrite IH by (apply sync_settles; split; assumption). destruct (settled_sync l b N S0) as (ns' & R' & E & _).
  rewrite (repeated_unique l ns ns' R R'). rewrite E, <- app_assoc. reflexivity.
Qed.
Print Assumptions C134_again.

(** the object of an order stays if its report has no nan, and is another one after every sync if
    it has *)
Theorem C134_objects : forall l a i, sound l -> In i l ->
  (~ has_nan i -> forall n, dget (id_of i) (fa_orders (fsyncs (S n) l a)) = dget (id_of i) (fa_orders (fsync l a))) /\
  (has_nan i -> forall n m, (n < m)%nat -> dget (id_of i) (fa_orders (fsyncs (S m) l a)) <> dget (id_of i) (fa_orders (fsyncs (S n) l a))).
Proof.
  intros l a i H Hi. pose proof (sync_settles l a H) as S0. cbn [fsyncs]. set (b := fsync l a) in *. pose proof H as [N L].
  assert (St : forall n, Forall (fun i => settled i (fsyncs n l b)) l) by (intro n; apply syncs_settled; assumption).
  split.
  - intros Hn n. change (ref i (fsyncs n l b) = ref i b). induction n as [|n IH]; [reflexivity|]. rewrite syncs_S.
    destruct (settled_sync l _ N (St n)) as (_ & _ & _ & F). rewrite Forall_forall in F. destruct (F i Hi) as [A _]. rewrite (A Hn). exact IH.
  - intros Hn n m Hnm. change (ref i (fsyncs m l b) <> ref i (fsyncs n l b)).
    pose proof (St n) as S1. rewrite Forall_forall in S1. destruct (S1 i Hi) as (_ & x & _ & Fx & _). destruct (local_ref i _ x Fx) as (r & -> & Hr).
    assert (Big : forall k, exists r', ref i (fsyncs (S (k + n)) l b) = Some r' /\ (length (fa_heap (fsyncs n l b)) <= r')%nat).
    { intro k. rewrite syncs_S. destruct (settled_sync l _ N (St (k + n)%nat)) as (_ & _ & _ & F). rewrite Forall_forall in F. destruct (F i Hi) as [_ B].
      destruct (B Hn) as (r' & E & Hr'). exists r'. split; [exact E|]. etransitivity; [|exact Hr']. clear. induction k as [|k IH]; [reflexivity|].
      etransitivity; [exact IH|]. change (S k + n)%nat with (S (k + n)). rewrite syncs_S. apply sync_heap. }
    destruct (Big (m - S n)%nat) as (r' & E & Hr'). replace (S (m - S n + n)) with m in E by lia. rewrite E. intro X. injection X as X. lia.
Qed.
Print Assumptions C134_objects.

(** without nan, syncing again changes nothing at all; infinities do no harm *)
Theorem C134_quiet_partial : forall l a n, sound l -> Forall (fun i => ~ has_nan i) l -> fsyncs (S n) l a = fsync l a.
Proof.
  intros l a n H Hn. pose proof (sync_settles l a H) as S0. cbn [fsyncs].
  assert (Sy : fa_synced (fsync l a) = true).
  { destruct H as [_ L]. clear - L. revert a. induction L as [|i l Li _ IH]; intro a; cbn [fsync]; [reflexivity|]. destruct (one_ok i a Li) as [a' ->]. apply IH. }
  set (b := fsync l a) in *. clearbody b. assert (E : fsync l b = b).
  { clear - S0 Hn Sy. induction S0 as [|i l Si _ IH]; cbn [fsync].
    - destruct b; cbn in *; subst. reflexivity.
    - inversion Hn; subst. rewrite settled_quiet by assumption. apply IH. assumption. }
  clear - E. induction n as [|n IH]; cbn [fsyncs]; [reflexivity|]. rewrite E. exact IH.
Qed.
Print Assumptions C134_quiet_partial.

(** ** finite figures: the model of MAccount.v *)
Definition emb (o : order) : forder := FOrder o (FNum (o_deal o)) (option_map FNum (o_avg o)) (FNum (o_comm o)).
Definition emb_info (i : oinfo) : finfo := FInfo i (option_map FNum (i_deal i)) (option_map FNum (i_avg i)) (option_map FNum (i_comm i)).
Definition notices (l : list aevent) : list (notice * forder) := flat_map (fun e => match e with EvNotice k o => [(k, emb o)] | _ => [] end) l.
Definition emb_acct (a : acct) : facct := FAcct (map emb (a_heap a)) (a_orders a) (a_synced a) (notices (a_log a)).

Lemma emb_same a b : fsame (emb a) (emb b) = same a b.
Proof.
  unfold fsame, same, emb. cbn [fo_base fo_deal fo_avg fo_comm fig_eq]. f_equal. f_equal.
  destruct (o_avg a) as [x|], (o_avg b) as [y|]; reflexivity.
Qed.
Lemma emb_load i : fload (emb_info i) = match load i with Ok o => Ok (emb o) | Err e => Err e end.
Proof.
  unfold fload, emb_info. cbn [fi_base fi_deal fi_avg fi_comm]. unfold load.
  destruct (get_action _); [|reflexivity]. cbn [rbind]. destruct (get_status _); [|reflexivity]. cbn [rbind].
  destruct (get_style _ _); [|reflexivity]. cbn [rbind]. destruct (parse_dt (i_create i)); [|reflexivity]. cbn [rbind].
  match goal with |- context [match i_entrust i with Some s => @?f s | None => Ok None end] => destruct (match i_entrust i with Some s => f s | None => Ok None end) end; [|reflexivity].
  cbn [rbind]. destruct (get_side _); [|reflexivity]. cbn [rbind]. unfold emb. cbn [o_deal o_avg o_comm].
  destruct (i_deal i), (i_comm i); reflexivity.
Qed.
Lemma emb_local id a : flocal id (emb_acct a) = option_map emb (local_order id a).
Proof.
  unfold flocal, local_order, emb_acct, deref. cbn [fa_orders fa_heap]. destruct (dget id (a_orders a)); [|reflexivity]. apply nth_error_map.
Qed.
Lemma emb_store id o a : emb_acct (store id o a) = fstore id (emb o) (emb_acct a).
Proof. unfold emb_acct, store, fstore. cbn. rewrite map_app, map_length. reflexivity. Qed.
Lemma emb_log k o a : emb_acct (acc_log (EvNotice k o) a) = flog k (emb o) (emb_acct a).
Proof. unfold emb_acct, acc_log, flog, notices. cbn. rewrite flat_map_app. reflexivity. Qed.
Lemma emb_one i a : fsync_one (emb_info i) (emb_acct a) = match sync_one i a with Ok a' => Ok (emb_acct a') | Err e => Err e end.
Proof.
  unfold fsync_one, sync_one. rewrite emb_load. change (fi_base (emb_info i)) with i. rewrite emb_local.
  destruct (load i) as [o|]; [|reflexivity]. cbn [rbind]. destruct (local_order (i_id i) a) as [l|]; cbn [option_map]; [|rewrite emb_store; reflexivity].
  rewrite emb_same. destruct (same o l); [reflexivity|]. change (fo_base (emb l)) with l. change (fo_base (emb o)) with o.
  destruct (notice_for l o) as [k|]; [rewrite emb_log|]; rewrite emb_store; reflexivity.
Qed.
Theorem C134_finite : forall l a, fsync (map emb_info l) (emb_acct a) = emb_acct (sync_all l a).
Proof.
  induction l as [|i l IH]; intro a; cbn [map fsync sync_all]; [reflexivity|]. rewrite emb_one. destruct (sync_one i a) as [a'|]; [apply IH|reflexivity].
Qed.
Print Assumptions C134_finite.

(** ** the broker's file says nan *)
Definition nan_info : finfo :=
  FInfo (OInfo (lit "000001.XSHE") (PNum (lit "10.5")) 200 (lit "open") (lit "7") (lit "filling") (lit "limit") (lit "2024-01-02 09:30:00.000000") None None None (Some 100) None None None None None)
    (Some (FNum 1000)) (odd_figure ascii_dig 3 (lit "NaN")) None.
Definition inf_info : finfo :=
  FInfo (OInfo (lit "000002.XSHE") (PNum (lit "10.5")) 200 (lit "open") (lit "8") (lit "filling") (lit "limit") (lit "2024-01-02 09:30:00.000000") None None None (Some 100) None None None None None)
    (Some (FNum 1000)) (odd_figure ascii_dig 3 (lit "-inf")) None.
Definition none_yet : facct := FAcct [] [] false [].
Example C134_demo : sound [nan_info; inf_info] /\ restless nan_info /\ ~ has_nan inf_info /\
  map fst (fa_log (fsyncs 4 [nan_info; inf_info] none_yet)) = [NFilling; NFilling; NFilling] /\
  fa_orders (fsyncs 4 [nan_info; inf_info] none_yet) = [(lit "7", 4%nat); (lit "8", 1%nat)].
Proof.
  split; [|split; [|split]].
  - split; [repeat constructor; cbn; intuition discriminate|]. constructor; [|constructor; [|constructor]].
    + destruct (fload nan_info) as [o|] eqn:E; [eauto|vm_compute in E; discriminate].
    + destruct (fload inf_info) as [o|] eqn:E; [eauto|vm_compute in E; discriminate].
  - split; [right; left|]; reflexivity.
  - intros [H|[H|H]]; vm_compute in H; discriminate.
  - vm_compute. split; reflexivity.
Qed.
(** so syncing twice is not the same as syncing once *)
Definition twice_is_once : Prop := forall l a, sound l -> fa_log (fsync l (fsync l a)) = fa_log (fsync l a).
Theorem C134_refuted : ~ twice_is_once.
Proof.
  intro H. destruct C134_demo as (_ & _). assert (S1 : sound [nan_info]).
  { split; [repeat constructor; cbn; tauto|]. constructor; [|constructor]. destruct (fload nan_info) as [o|] eqn:E; [eauto|vm_compute in E; discriminate]. }
  specialize (H _ none_yet S1). apply (f_equal (@length _)) in H. vm_compute in H. discriminate.
Qed.
Print Assumptions C134_refuted.
