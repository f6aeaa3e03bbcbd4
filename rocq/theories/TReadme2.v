(** C145: a day of the task with which README.md introduces the package: process, account and AnXin gate together. *)
From Coq Require Import Permutation Sorted String.
From Verif Require Import PyBase PyStr MTime MDate MTimeExpr MEventSource MQueue MLoop MSched MBus MStrategy SEvent SExpr SStrategy
  MProcess SProcess LProcess2 LProcess MOrder MAccount MApi MGate SAccount LAccount LAccount2 LAccount3 LApi SGate SOfile SSystem LEventSource2 LGate LGate4
  TProcess TGate TOfile TSystem TLate TLate2 MDemo TDemo MReadme TReadme.
Open Scope list_scope.
Open Scope Z_scope.

(** ** Specification *)
(** a run of do_order: its day, how much of 000001.XSHE could be sold, whether there was an
    entry for 000002.XSHE, and the ids drawn for its orders *)
Record run := Run { ru_day : Z; ru_close : Z; ru_held : bool; ru_i1 : str; ru_i2 : str }.
(** what README.md says the run orders: id, code, signed amount, style *)
Definition asks (r : run) : list (str * str * Z * style) :=
  (if 0 <? ru_close r then [(ru_i1 r, lit "000001.XSHE", - ru_close r, Limit (PNum (lit "10")))] else []) ++
  (if ru_held r then [] else [(ru_i2 r, lit "000002.XSHE", 100, Market (PNum (lit "0")))]).
Definition ask_id (x : str * str * Z * style) : str := fst (fst (fst x)).
(** the request that is an ask, on a day *)
Definition asked_in (D : Z) (x : str * str * Z * style) (q : oreq) : Prop := oq_day q = D /\ x = (oq_id q, oq_code q, oq_n q, oq_style q).
Definition of_day (D : Z) (rs : list run) : list run := filter (fun r => ru_day r =? D) rs.

Section Days.
  Context (udigit : N -> bool) (ptime f3 f4 : str -> option Z) (go : gopts) (bal : gst -> res binfo * gst).
  Notation gt := (anxin ptime f3 f4 go bal).
  Context (env : genv -> Prop) (k : nat).

  (** [days inv a g rs]: the callbacks [inv] were called; each call of the k-th entry ran
      do_order, on the day it was due, with new ids; in between the other callbacks of the
      strategy, the syncs of the account and the broker *)
  Inductive days : list (Z * cb) -> acct -> gst -> list run -> Prop :=
  | d_start g : (forall d, text_of d (gs_ofile g) = []) -> (forall d, text_of d (gs_cfile g) = []) ->
      gs_orders g = [] -> gs_data g = [] -> env (gs_env g) -> days [] acct_new g []
  | d_run inv a g rs t o i1 i2 n1 n2 v h x a' g' : days inv a g rs -> ge_date (gs_env g) = t / DAY ->
      ~ known a i1 -> ~ known a i2 -> i1 <> i2 -> (h = true <-> held a (lit "000002.XSHE")) ->
      do_order udigit gt i1 i2 n1 n2 v (World true (Some a) g) = (x, World true (Some a') g') ->
      days (inv ++ [(t, CbUser k o)]) a' g' (rs ++ [Run (t / DAY) (closeable a (lit "000001.XSHE")) h i1 i2])
  | d_other inv a g rs t c : days inv a g rs -> (forall o, c <> CbUser k o) -> days (inv ++ [(t, c)]) a g rs
  | d_env inv a g rs e : days inv a g rs -> env e -> days inv a (set_env e g) rs
  | d_broker inv a g rs r u : days inv a g rs -> days inv a (set_bfiles r u g) rs
  | d_sync inv a g rs : days inv a g rs -> days inv (fst (acc_sync_orders gt a g)) (snd (acc_sync_orders gt a g)) rs
  | d_balance inv a g rs : days inv a g rs -> snd (bal g) = g ->
      days inv (fst (acc_sync_balance gt a g)) (snd (acc_sync_balance gt a g)) rs.
End Days.

(** ** Lemmas *)
Definition ask_of (o : order) : str * str * Z * style := (o_id o, o_code o, signed o, o_style o).
Lemma signed_for id now code z sty o : order_for id now code z sty o -> z <> 0 -> ask_of o = (id, code, z, sty).
Proof.
  intros (F1 & F2 & F3 & F4 & F5 & _) Hz. unfold ask_of, signed. rewrite F1, F2, F3, F5. do 2 f_equal.
  destruct (o_action o); [pose proof (proj1 F4 eq_refl); lia|].
  destruct (Z.ltb_spec 0 z) as [H|H]; [apply F4 in H; discriminate|lia].
Qed.
Lemma asks_orders a i1 i2 n1 n2 h D sells buys : sells_of a i1 n1 sells -> buys_of a i2 n2 buys -> (h = true <-> held a code2) ->
  map ask_of (sells ++ buys) = asks (Run D (closeable a code1) h i1 i2).
Proof.
  intros [S1 S2] [B1 B2] Hh. unfold asks. cbn [ru_close ru_held ru_i1 ru_i2]. rewrite map_app. f_equal.
  - change (lit "000001.XSHE") with code1 in *. destruct (Z.ltb_spec 0 (closeable a code1)) as [H|H]; [|rewrite (S1 H); reflexivity].
    destruct (S2 H) as (o & -> & F). cbn [map]. rewrite (signed_for _ _ _ _ _ _ F) by lia. reflexivity.
  - destruct h.
    + rewrite B1 by (apply Hh; reflexivity). reflexivity.
    + destruct B2 as (o & -> & F); [intro X; apply Hh in X; discriminate|]. cbn [map]. rewrite (signed_for _ _ _ _ _ _ F) by lia. reflexivity.
Qed.
Lemma asks_good udigit r x : In x (asks r) -> code_form udigit 46%N (snd (fst (fst x))) /\ snd (fst x) <> 0.
Proof.
  intro H. unfold asks in H. apply in_app_or in H as [H|H].
  - destruct (Z.ltb_spec 0 (ru_close r)); [|destruct H]. destruct H as [<-|[]]. cbn [fst snd]. split; [|lia].
    exists (lit "000001"), (lit "XSHE"). split; [reflexivity|]. split; [discriminate|]. split; [|left; reflexivity]. repeat (constructor; [split; discriminate|]). constructor.
  - destruct (ru_held r); [destruct H|]. destruct H as [<-|[]]. cbn [fst snd]. split; [|lia].
    exists (lit "000002"), (lit "XSHE"). split; [reflexivity|]. split; [discriminate|]. split; [|left; reflexivity]. repeat (constructor; [split; discriminate|]). constructor.
Qed.
Lemma waiting_mem a : book_ok a -> Forall (fun id => dmem id (a_orders a) = true) (waiting_ids a).
Proof.
  intro HB. apply Forall_forall. intros x Hx. rewrite <- (waiting_known a HB) in Hx. unfold known_ids in Hx. apply filter_In in Hx. apply Hx.
Qed.
Lemma logged_cons id ids a : logged (id :: ids) a = logged ids (acc_log (EvCancel id) a).
Proof. unfold logged, acc_log. cbn [a_heap a_orders a_long a_short a_total a_cash a_locked a_synced a_log map]. rewrite <- app_assoc. reflexivity. Qed.
Lemma logged_nil a : logged [] a = a.
Proof. destruct a. unfold logged. cbn. rewrite app_nil_r. reflexivity. Qed.

Section Inv.
  Context (udigit : N -> bool) (ptime f3 f4 : str -> option Z) (go : gopts) (bal : gst -> res binfo * gst).
  Notation gt := (anxin ptime f3 f4 go bal).
  Context (env : genv -> Prop) (k : nat).
  Context (He : forall e, env e -> ge_write e = WDone) (Ha : go_acct go <> []) (Hs : go_stock go = true).
  Notation trl := (trail udigit ptime f3 f4 go bal env (fun _ => True)).

  Lemma not_torn : forall e, env e -> ~ torn e.
  Proof using He. intros e X (j & x & E). rewrite (He e X) in E. discriminate. Qed.
  Lemma trl_env a g os cs : trl a g os cs -> env (gs_env g).
  Proof using He Ha Hs. intro T. apply (trail_inv udigit ptime f3 f4 go bal env (fun _ => True) a g os cs Ha Hs not_torn T). Qed.
  Lemma trl_ordered l : forall a g os cs a' g', trl a g os cs -> ordered gt l a g a' g' ->
    Forall (fun o => code_form udigit 46%N (o_code o) /\ signed o <> 0) l ->
    exists os', trl a' g' (os ++ os') cs /\ Forall2 (asked_in (ge_date (gs_env g))) (map ask_of l) os' /\
      (forall q, In q os' -> oq_done q = true) /\ gs_env g' = gs_env g.
  Proof using He Ha Hs.
    induction l as [|o l IH]; intros a g os cs a' g' T O F; cbn [ordered map] in *.
    - destruct O as [-> ->]. exists []. rewrite app_nil_r. split; [exact T|]. split; [constructor|]. split; [intros q []|reflexivity].
    - destruct O as (r & a1 & g1 & E & O). inversion F as [|? ? [F1 F2] F']; subst. clear F.
      assert (W : ge_write (gs_env g) = WDone) by (apply He, (trl_env _ _ _ _ T)).
      pose proof (t_order udigit ptime f3 f4 go bal env (fun _ => True) a g os cs _ _ _ _ _ _ _ _ _ _ T F1 F2 I E) as T1.
      assert (Eg : gs_env g1 = gs_env g).
      { destruct (acc_order_book gt _ _ _ _ _ _ _ _ _ _ _ E) as (_ & _ & -> & _). cbn [g_order anxin].
        apply (order_writes udigit go (new_order (o_id o) (o_create o) (o_code o) (signed o) (o_style o) Long) g (o_code o) (signed o) (o_style o) (o_id o) (o_create o) 46%N Ha Hs
          (new_order_for _ _ _ _ _ _ F2) F2 eq_refl F1). intros n x. rewrite W. discriminate. }
      destruct (IH a1 g1 _ cs a' g' T1 O F') as (os' & T2 & A & D & Eg'). eexists (_ :: os').
      split; [rewrite <- app_assoc in T2; exact T2|]. split; [|split].
      + constructor; [split; reflexivity|]. rewrite <- Eg. exact A.
      + intros q [<-|Hq]; [cbn [oq_done]; rewrite W; reflexivity|apply D, Hq].
      + congruence.
  Qed.
  Lemma trl_cancels ids : forall a g os cs, trl a g os cs -> Forall (fun id => dmem id (a_orders a) = true) ids ->
    trl (logged ids a) (cancelled gt ids g) os (cs ++ map (fun id => CReq id (ge_date (gs_env g)) true true) ids) /\ gs_env (cancelled gt ids g) = gs_env g.
  Proof using He Ha Hs.
    induction ids as [|id ids IH]; intros a g os cs T F.
    - rewrite logged_nil, app_nil_r. split; [exact T|reflexivity].
    - inversion F as [|? ? F1 F']; subst. rewrite logged_cons.
      assert (W : ge_write (gs_env g) = WDone) by (apply He, (trl_env _ _ _ _ T)).
      pose proof (t_cancel udigit ptime f3 f4 go bal env (fun _ => True) a g os cs id T) as T1.
      unfold acc_cancel in T1. rewrite F1, W in T1. cbn [fst snd took] in T1.
      assert (Eg : gs_env (snd (g_cancel gt id g)) = gs_env g).
      { cbn [g_cancel anxin]. apply cancel_writes. intros n x. rewrite W. discriminate. }
      destruct (IH _ _ _ _ T1) as [T2 E2]; [exact F'|]. unfold cancelled in *. cbn [fold_left map]. rewrite Eg in T2.
      rewrite <- app_assoc in T2. split; [exact T2|]. rewrite E2. exact Eg.
  Qed.

  Definition tagged (rs : list run) : list (Z * (str * str * Z * style)) := flat_map (fun r => map (pair (ru_day r)) (asks r)) rs.
  Lemma days_inv inv a g rs : days udigit ptime f3 f4 go bal env k inv a g rs ->
    (book_ok a /\ pos_ok a) /\ map ru_day rs = map (fun c => fst c / DAY) (calls_of k inv) /\
    exists os cs, trl a g os cs /\ Forall2 (fun x q => asked_in (fst x) (snd x) q) (tagged rs) os /\
      (forall q, In q os -> oq_done q = true) /\
      (forall r x, In r rs -> In x (asks r) -> In (CReq (ask_id x) (ru_day r) true true) cs).
  Proof using He Ha Hs.
    assert (LE : forall c a g, book_ok a /\ pos_ok a -> forall a' g', do_call udigit gt c (World true (Some a) g) = World true (Some a') g' -> book_ok a' /\ pos_ok a').
    { intros c a0 g0 [B P] a' g' E. destruct (do_call_le udigit gt c (World true (Some a0) g0)) as [_ L]. rewrite E in L. cbn [w_acc] in L.
      destruct L as (a1 & X & L1 & L2). injection X as <-. split; [apply L1, B|apply L2, P]. }
    induction 1 as [g H1 H2 H3 H4 H5|inv a g rs t o i1 i2 n1 n2 v h x a' g' _ (IB & IM & os & cs & T & A & Dn & Cn) Hd K1 K2 Hne Hh E|inv a g rs t c _ (IB & IM & IH) Ho
      |inv a g rs e _ (IB & IM & os & cs & T & R) E|inv a g rs r u _ (IB & IM & os & cs & T & R)|inv a g rs _ (IB & IM & os & cs & T & R)|inv a g rs _ (IB & IM & os & cs & T & R) Hb].
    - split; [apply new_ok|]. split; [reflexivity|]. exists [], []. split; [apply t_start; assumption|]. split; [constructor|]. split; [intros q []|intros r x []].
    - change (lit "000002.XSHE") with code2 in Hh. change (lit "000001.XSHE") with code1.
      destruct (whole udigit gt i1 i2 n1 n2 v (World true (Some a) g) a (conj eq_refl eq_refl) (proj1 IB) (proj2 IB) K1 K2 Hne)
        as (sells & buys & a2 & S & B & (P1 & P2 & P3 & P4 & _ & _) & E' & _ & _ & _ & _ & O). cbn [w_gate] in E', O.
      rewrite E in E'. injection E' as _ Ea Eg.
      pose proof (asks_orders a i1 i2 n1 n2 h (t / DAY) sells buys S B Hh) as EA.
      assert (F : Forall (fun o => code_form udigit 46%N (o_code o) /\ signed o <> 0) (sells ++ buys)).
      { apply Forall_forall. intros o' Hin. apply (in_map ask_of) in Hin. rewrite EA in Hin. apply (asks_good udigit) in Hin. exact Hin. }
      destruct (trl_ordered _ _ _ _ _ _ _ T O F) as (os' & T1 & A1 & D1 & EE).
      rewrite <- P4 in Ea, Eg. destruct (trl_cancels (waiting_ids a2) _ _ _ _ T1 (waiting_mem a2 P2)) as [T2 E2].
      rewrite <- Ea, <- Eg in T2. split; [|split].
      + split; [|split; subst a'; cbn [logged a_long a_short]; apply P3]. subst a'. exact P2.
      + unfold calls_of in *. rewrite flat_map_app, !map_app, IM. cbn [flat_map snd fst map app]. rewrite Nat.eqb_refl. reflexivity.
      + eexists _, _. split; [exact T2|]. split; [|split].
        * unfold tagged in *. rewrite flat_map_app. apply Forall2_app; [exact A|]. cbn [flat_map]. rewrite app_nil_r. cbn [ru_day]. rewrite <- EA.
          rewrite <- Hd. clear - A1. induction A1; cbn [map]; constructor; assumption.
        * intros q Hq. apply in_app_or in Hq as [Hq|Hq]; [apply Dn, Hq|apply D1, Hq].
        * intros r y Hr Hy. apply in_or_app. apply in_app_or in Hr as [Hr|[<-|[]]]; [left; apply (Cn r y Hr Hy)|right].
          cbn [ru_day]. rewrite EE, Hd. apply in_map_iff. exists (ask_id y). split; [reflexivity|]. rewrite P4. apply in_or_app. right.
          rewrite <- EA in Hy. apply in_map_iff in Hy as (o' & <- & Ho'). apply (in_map o_id) in Ho'. exact Ho'.
    - split; [exact IB|]. split; [|exact IH]. unfold calls_of in *. rewrite flat_map_app, map_app, <- IM. cbn [flat_map snd fst app].
      destruct c as [j o| |]; cbn [map app]; rewrite ?app_nil_r; try reflexivity.
      destruct (Nat.eqb_spec j k) as [->|_]; [destruct (Ho o eq_refl)|]. cbn [map app]. rewrite app_nil_r. reflexivity.
    - split; [exact IB|]. split; [exact IM|]. exists os, cs. split; [apply t_env; assumption|exact R].
    - split; [exact IB|]. split; [exact IM|]. exists os, cs. split; [apply t_broker; exact T|exact R].
    - split; [|split; [exact IM|]; exists os, cs; split; [apply t_sync; exact T|exact R]].
      apply (LE KSyncOrd a g IB _ (snd (acc_sync_orders gt a g))). cbn [do_call]. unfold api_sync_orders, the_account. cbn [w_use w_acc w_gate].
      destruct (acc_sync_orders gt a g). reflexivity.
    - split; [|split; [exact IM|]; exists os, cs; split; [apply t_balance; assumption|exact R]].
      apply (LE KSyncBal a g IB _ (snd (acc_sync_balance gt a g))). cbn [do_call]. unfold api_sync_balance, the_account. cbn [w_use w_acc w_gate].
      destruct (acc_sync_balance gt a g). reflexivity.
  Qed.
End Inv.
Lemma filter_tagged D rs : filter (fun x => fst x =? D) (tagged rs) = tagged (of_day D rs).
Proof.
  induction rs as [|r rs IH]; [reflexivity|]. unfold tagged, of_day in *. cbn [flat_map filter]. rewrite filter_app, IH.
  assert (X : filter (fun x : Z * (str * str * Z * style) => fst x =? D) (map (pair (ru_day r)) (asks r)) = if ru_day r =? D then map (pair (ru_day r)) (asks r) else []).
  { induction (asks r) as [|y l IHl]; [destruct (_ =? _); reflexivity|]. cbn [map filter fst]. rewrite IHl. destruct (ru_day r =? D); reflexivity. }
  rewrite X. destruct (ru_day r =? D); reflexivity.
Qed.
Lemma asked_filter D l os : Forall2 (fun x q => asked_in (fst x) (snd x) q) l os ->
  Forall2 (fun x q => asked_in (fst x) (snd x) q) (filter (fun x => fst x =? D) l) (filter (fun q => oq_day q =? D) os).
Proof.
  induction 1 as [|x q l os [H1 H2] _ IH]; [constructor|]. cbn [filter]. rewrite H1. destruct (fst x =? D); [constructor; [split; assumption|exact IH]|exact IH].
Qed.
Lemma tagged_asks D rs l : (forall r, In r rs -> ru_day r = D) -> Forall2 (fun x q => asked_in (fst x) (snd x) q) (tagged rs) l -> Forall2 (asked_in D) (flat_map asks rs) l.
Proof.
  revert l. induction rs as [|r rs IH]; intros l H F; cbn [tagged flat_map] in *; [inversion F; constructor|].
  apply Forall2_app_inv_l in F as (l1 & l2 & F1 & F2 & ->). apply Forall2_app; [|apply IH; [intros r' Hr'; apply H; right; exact Hr'|exact F2]].
  rewrite (H r (or_introl eq_refl)) in F1. clear - F1. revert l1 F1. induction (asks r) as [|x l IH]; intros l1 F; inversion F; subst; constructor; [assumption|apply IH; assumption].
Qed.
Lemma days_count D (rs : list run) (l : list Z) : map ru_day rs = map (fun x => x / DAY) l ->
  List.length (of_day D rs) = List.length (filter (on_day D) l).
Proof.
  revert l. induction rs as [|q rs IH]; intros [|x l] H; try discriminate; [reflexivity|]. cbn [map] in H. injection H as H1 H2.
  unfold of_day in *. cbn [filter]. unfold on_day at 1. rewrite H1. destruct (x / DAY =? D); cbn [List.length]; rewrite (IH l H2); reflexivity.
Qed.
Lemma Forall2_in_l {A B} (R : A -> B -> Prop) l m x : Forall2 R l m -> In x l -> exists y, In y m /\ R x y.
Proof. induction 1 as [|a b l m H _ IH]; intros Hi; [destruct Hi|]. destruct Hi as [->|Hi]; [exists b; split; [left; reflexivity|exact H]|]. destruct (IH Hi) as (y & Hy & E). exists y. split; [right; exact Hy|exact E]. Qed.
Lemma Forall2_in_r {A B} (R : A -> B -> Prop) l m y : Forall2 R l m -> In y m -> exists x, In x l /\ R x y.
Proof. induction 1 as [|a b l m H _ IH]; intros Hi; [destruct Hi|]. destruct Hi as [->|Hi]; [exists a; split; [left; reflexivity|exact H]|]. destruct (IH Hi) as (x & Hx & E). exists x. split; [right; exact Hx|exact E]. Qed.

(** the times of day owed on a day that lies after the start *)
Lemma owed_full now offs lo hi S D : owed_on now offs lo hi S -> lo <= D <= hi -> Forall (fun o => tod_ok o /\ now <= D * DAY + o) offs ->
  List.length (filter (on_day D) S) = List.length offs.
Proof.
  intros (dl & parts & [Hd HS] & HF & ->) HD Ho. apply Hd in HD. clear Hd.
  assert (ON : forall d l, Permutation l (filter (fun t => now <=? t) (map (fun o => d * DAY + o) offs)) -> filter (on_day D) l = if d =? D then l else []).
  { intros d l HP. assert (X : forall x, In x l -> on_day D x = (d =? D)).
    { intros x Hx. apply (Permutation_in _ HP) in Hx. apply filter_In in Hx as [Hx _]. apply in_map_iff in Hx as (o & <- & Hin).
      rewrite Forall_forall in Ho. destruct (Ho o Hin) as [[T1 T2] _]. unfold on_day. rewrite (Z.div_add_l d DAY o) by (unfold DAY, US; lia). rewrite Z.div_small by lia. rewrite Z.add_0_r. reflexivity. }
    clear HP. induction l as [|x l IH]; [destruct (d =? D); reflexivity|]. cbn [filter]. rewrite (X x (or_introl eq_refl)).
    rewrite IH by (intros y Hy; apply X; right; exact Hy). destruct (d =? D); reflexivity. }
  assert (N : forall dl parts, Forall2 (fun d l => Permutation l (filter (fun t => now <=? t) (map (fun o => d * DAY + o) offs)) /\ StronglySorted Z.le l) dl parts ->
    Forall (Z.lt D) dl -> filter (on_day D) (concat parts) = []).
  { induction 1 as [|d l dl' parts' [HP _] _ IH]; intros Hf; [reflexivity|]. inversion Hf; subst. cbn [concat]. rewrite filter_app, (ON d l HP), IH by assumption.
    replace (d =? D) with false by (symmetry; apply Z.eqb_neq; lia). reflexivity. }
  induction HF as [|d l dl parts [HP Hl] HF IH]; [destruct HD|]. cbn [concat]. rewrite filter_app, (ON d l HP). inversion HS as [|? ? HS' Hlt]; subst.
  destruct (Z.eqb_spec d D) as [->|Hne].
  - rewrite (N dl parts HF Hlt), app_nil_r, (Permutation_length HP).
    replace (filter _ _) with (map (fun o => D * DAY + o) offs); [apply map_length|].
    clear - Ho. induction Ho as [|o l [_ H] _ IH]; [reflexivity|]. cbn [map filter]. rewrite (proj2 (Z.leb_le _ _) H), <- IH. reflexivity.
  - destruct HD as [HD|HD]; [congruence|]. apply (IH HS' HD).
Qed.

(** ** Theorems *)
(** When the loop goes to sleep at [clock] and day [D] is over: do_order ran once for each
    instant of [D] owed to its entry; the order file of [D] holds a header and one line per
    order those runs were to place, in that order and with its data; and the cancel file of
    [D] has a line for each of them. *)
Theorem C145_day :
  forall env : genv -> Prop, (forall e, env e -> ge_write e = WDone) ->
  forall fuel cfg sc tz ctx now calls ns dates s4 s ps,
    runs fuel cfg sc tz ctx None now calls ns dates s4 s ->
    cf_hist cfg = false ->
    market_period sc s4 = raw_of ps -> Forall (fun p => tod_ok (fst p) /\ tod_ok (snd p)) ps ->
    Forall (fun p => fst p mod US = 0 /\ snd p mod US = 0) ps -> ps <> [] ->
    (1441 <= fuel)%nat -> (Z.to_nat (cf_count cfg) < fuel)%nat -> tz mod US = 0 ->
    forall clock ex s' m k nm fid t offs d S,
      w_hung (l_w s) = false ->
      l_step (sched_handler fuel (loop_cfg cfg sc s4) tz) s (LTurn clock ex) = Some s' -> l_mode s' = Arming m ->
      nth_error (asked calls) k = Some (nm, fid, t) -> owes ps t offs ->
      nth_error dates (List.length (st_srcs s4) - List.length (asked calls) + k) = Some d ->
      owed_on (now k) offs d (d + cf_count cfg - 1) S ->
      dget nm (st_ns s4) = Some (OUser fid) ->
      (List.length (calls_of k (invoked s4 (l_w s))) <= List.length S)%nat ->
    forall udigit ptime f3 f4 go bal a g rs,
      go_acct go <> [] -> go_stock go = true ->
      days udigit ptime f3 f4 go bal env k (invoked s4 (l_w s)) a g rs ->
    forall D, (D + 1) * DAY - tz <= clock * 1000 ->
      List.length (of_day D rs) = List.length (filter (on_day D) S) /\
      exists ls cl,
        holds order_header (go_eol go) ls (text_of D (gs_ofile g)) /\
        Forall2 (fun x l => exists q, asked_in D x q /\ line_for go q l) (flat_map asks (of_day D rs)) ls /\
        holds cancel_header (go_eol go) cl (text_of D (gs_cfile g)) /\
        (forall x, In x (flat_map asks (of_day D rs)) -> exists l, In l cl /\ cline_for go (CReq (ask_id x) D true true) l).
Proof.
  intros env He fuel cfg sc tz ctx now calls ns dates s4 s ps Hr H1 H2 H3 H4 H5 H6 H7 H8 clock ex s' m k nm fid t offs d S G1 G2 G3 G4 G5 G6 G7 G8 G9
    udigit ptime f3 f4 go bal a g rs Ha Hs W D HD.
  destruct (C60_no_due_call_left fuel cfg sc tz ctx now calls ns dates s4 s ps Hr H1 H2 H3 H4 H5 H6 H7 H8 clock ex s' m k nm fid t offs d S G1 G2 G3 G4 G5 G6 G7) as (r & HC).
  destruct (C58_calls_are_owed fuel cfg sc tz ctx now calls ns dates s4 s ps Hr H1 H2 H3 H4 H5 H6 H7 k nm fid t offs d S G4 G5 G6 G7 G8) as (HA & _).
  destruct (days_inv udigit ptime f3 f4 go bal env k He Ha Hs _ _ _ _ W) as (_ & HM & os & cs & T & A & Dn & Cn).
  split.
  - rewrite (days_count D rs (map fst (calls_of k (invoked s4 (l_w s))))) by (rewrite HM, map_map; reflexivity).
    rewrite (due_calls _ (on_day D) _ S r HC HA); [reflexivity|rewrite map_length; exact G9|].
    intros y Hy. unfold on_day in Hy. apply Z.eqb_eq in Hy. apply Z.leb_le.
    assert (y < (D + 1) * DAY); [|lia]. subst D. pose proof (Z.mod_pos_bound y DAY ltac:(unfold DAY, US; lia)). pose proof (Z_div_mod_eq_full y DAY). lia.
  - destruct (C80_files_partial udigit ptime f3 f4 go bal env (fun _ => True) a g os cs Ha Hs (not_torn env He) T) as (HO & HK & _).
    destruct (HO D) as (ls & F & Hh). destruct (HK D) as (cl & FC & HhC). exists ls, cl. split; [exact Hh|]. split; [|split; [exact HhC|]].
    + unfold written in F. replace (filter (fun q => (oq_day q =? D) && oq_done q) os) with (filter (fun q => oq_day q =? D) os) in F
        by (apply filter_ext_in; intros q Hq; rewrite (Dn q Hq), andb_true_r; reflexivity).
      apply (asked_filter D) in A. rewrite filter_tagged in A.
      apply (tagged_asks D) in A; [|intros q Hq; apply filter_In in Hq as [_ Hq]; apply Z.eqb_eq, Hq].
      clear - A F. revert ls F. induction A as [|x q l os' Hx A IH]; intros ls F; inversion F; subst; constructor; [exists q; split; assumption|apply IH; assumption].
    + intros x Hx. apply in_flat_map in Hx as (q & Hq & Hx). apply filter_In in Hq as [Hq Ed]. apply Z.eqb_eq in Ed.
      pose proof (Cn q x Hq Hx) as Hc. rewrite Ed in Hc.
      destruct (Forall2_in_l _ _ _ (CReq (ask_id x) D true true) FC) as (l & Hl & Hcl); [|exists l; split; assumption].
      apply filter_In. split; [exact Hc|]. cbn [cq_day cq_done cq_known]. rewrite Z.eqb_refl. reflexivity.
Qed.
Print Assumptions C145_day.

(** With "every_minute" (README.md:47), on a day on which the market opens after the start
    and no run finds anything to sell or an entry for 000002.XSHE: one buying order per
    minute of the market periods, both ends included, each with a line in the cancel file. *)
Theorem C145_minutes :
  forall env : genv -> Prop, (forall e, env e -> ge_write e = WDone) ->
  forall fuel cfg sc tz ctx now calls ns dates s4 s ps,
    runs fuel cfg sc tz ctx None now calls ns dates s4 s ->
    cf_hist cfg = false ->
    market_period sc s4 = raw_of ps -> Forall (fun p => tod_ok (fst p) /\ tod_ok (snd p)) ps ->
    Forall (fun p => fst p mod US = 0 /\ snd p mod US = 0) ps -> ps <> [] ->
    (1441 <= fuel)%nat -> (Z.to_nat (cf_count cfg) < fuel)%nat -> tz mod US = 0 ->
    forall clock ex s' m k nm fid mins d S,
      w_hung (l_w s) = false ->
      l_step (sched_handler fuel (loop_cfg cfg sc s4) tz) s (LTurn clock ex) = Some s' -> l_mode s' = Arming m ->
      nth_error (asked calls) k = Some (nm, fid, lit "every_minute") ->
      Forall2 (fun p l => steps MINUTE (fst p) (snd p) l) ps mins ->
      nth_error dates (List.length (st_srcs s4) - List.length (asked calls) + k) = Some d ->
      owed_on (now k) (concat mins) d (d + cf_count cfg - 1) S ->
      dget nm (st_ns s4) = Some (OUser fid) ->
      (List.length (calls_of k (invoked s4 (l_w s))) <= List.length S)%nat ->
    forall udigit ptime f3 f4 go bal a g rs,
      go_acct go <> [] -> go_stock go = true ->
      days udigit ptime f3 f4 go bal env k (invoked s4 (l_w s)) a g rs ->
    forall D, (D + 1) * DAY - tz <= clock * 1000 -> d <= D <= d + cf_count cfg - 1 ->
      (forall o, In o (concat mins) -> now k <= D * DAY + o) ->
      (forall r, In r rs -> ru_day r = D -> ru_close r <= 0 /\ ru_held r = false) ->
      exists ls cl, List.length ls = List.length (concat mins) /\
        holds order_header (go_eol go) ls (text_of D (gs_ofile g)) /\
        holds cancel_header (go_eol go) cl (text_of D (gs_cfile g)) /\
        Forall (fun l => exists id q, asked_in D (id, lit "000002.XSHE", 100, Market (PNum (lit "0"))) q /\ line_for go q l /\
                  exists c, In c cl /\ cline_for go (CReq id D true true) c) ls.
Proof.
  intros env He fuel cfg sc tz ctx now calls ns dates s4 s ps Hr H1 H2 H3 H4 H5 H6 H7 H8 clock ex s' m k nm fid mins d S G1 G2 G3 G4 G5 G6 G7 G8 G9
    udigit ptime f3 f4 go bal a g rs Ha Hs W D HD HR Hn HN.
  destruct (C145_day env He fuel cfg sc tz ctx now calls ns dates s4 s ps Hr H1 H2 H3 H4 H5 H6 H7 H8 clock ex s' m k nm fid (lit "every_minute") (concat mins) d S
    G1 G2 G3 G4 (owes_minutes ps mins G5) G6 G7 G8 G9 udigit ptime f3 f4 go bal a g rs Ha Hs W D HD) as (L & ls & cl & Ho & F & Hc & HC).
  exists ls, cl.
  assert (A : forall r, In r (of_day D rs) -> asks r = [(ru_i2 r, lit "000002.XSHE", 100, Market (PNum (lit "0")))]).
  { intros r Hin. apply filter_In in Hin as [Hin Ed]. apply Z.eqb_eq in Ed. destruct (HN r Hin Ed) as [X1 X2]. unfold asks. rewrite X2.
    rewrite (proj2 (Z.ltb_ge 0 (ru_close r)) X1). reflexivity. }
  assert (A' : flat_map asks (of_day D rs) = map (fun r => (ru_i2 r, lit "000002.XSHE", 100, Market (PNum (lit "0")))) (of_day D rs)).
  { revert A. generalize (of_day D rs). intros l A. induction l as [|r l IH]; [reflexivity|]. cbn [flat_map map]. rewrite (A r (or_introl eq_refl)).
    rewrite IH by (intros r' Hr'; apply A; right; exact Hr'). reflexivity. }
  split; [|split; [exact Ho|split; [exact Hc|]]].
  - rewrite <- (Forall2_len _ _ _ F), A', map_length, L. apply (owed_full _ _ _ _ _ D G7 HR).
    apply Forall_forall. intros o Hin. split; [|apply Hn, Hin].
    clear - Hin G5 H3. induction G5 as [|p l ps' mins Hp _ IH]; [destruct Hin|]. inversion H3 as [|? ? [T1 T2] H3']; subst. cbn [concat] in Hin.
    apply in_app_or in Hin as [Hin|Hin]; [|apply IH; assumption]. apply Hp in Hin as (j & Hj & -> & Hle). unfold tod_ok, MINUTE, US in *. lia.
  - rewrite A' in F, HC. apply Forall_forall. intros l Hl. destruct (Forall2_in_r _ _ _ l F Hl) as (x & Hx & q & Hq & Hlq).
    destruct (HC x Hx) as (c & Hcl & Hcc). apply in_map_iff in Hx as (r & <- & _). exists (ru_i2 r), q. split; [exact Hq|]. split; [exact Hlq|]. exists c. split; assumption.
Qed.
Print Assumptions C145_minutes.

(** 242 of them with the default market periods *)
Theorem C145_default : forall mins,
  Forall2 (fun p l => steps MINUTE (fst p) (snd p) l) [(34200 * US, 41400 * US); (46800 * US, 54000 * US)] mins -> List.length (concat mins) = 242%nat.
Proof.
  intros mins H. replace mins with [TLate.minutes (34200 * US) 121; TLate.minutes (46800 * US) 121]; [reflexivity|].
  eapply LProcess2.steps_unique_all; [|exact H]. constructor; [|constructor; [|constructor]]; apply minutes_steps; reflexivity.
Qed.
Print Assumptions C145_default.

(** ** do_order every minute, with market hours from 9:30 to 9:31, started at 9:29:30 on day
    20000, asleep at 9:30 of day 20002; the balance is synced on the second day *)
Definition dy_labels : list (label scb sout) := LAsync :: again_day 0 ++ again_day 1 ++ firstn 2 (again_call 2 34200).
Definition dy_turn (s4 : strat) (s : lstate scb sworld) :=
  l_step (sched_handler 1500 (loop_cfg cfg_default scfg_default s4) demo_tz) s (LTurn (demo_ms (2 * 86400 + 34200)) false).
Definition dy_at (D sec : Z) : Z * cb := (D * DAY + sec * US, CbUser 0 (Some (OUser 1))).
Definition dy_inv : list (Z * cb) := [dy_at 20000 34200; dy_at 20000 34260; dy_at 20001 34200; dy_at 20001 34260; dy_at 20002 34200].
Definition dy_facts (x : option (strat * lstate scb sworld)) :=
  match x with
  | Some (s4, s0) =>
      match l_exec (sched_handler 1500 (loop_cfg cfg_default scfg_default s4) demo_tz) s0 dy_labels with
      | Some s => Some ((List.length (st_srcs s4), market_period scfg_default s4), invoked s4 (l_w s), w_hung (l_w s),
                        (match dy_turn s4 s with Some s' => match l_mode s' with Arming _ => true | _ => false end | None => false end,
                         dget (lit "f") (st_ns s4)))
      | None => None
      end
  | None => None
  end.
Lemma dy_facts_are : dy_facts again_start = Some ((1%nat, raw_of hours), dy_inv, false, (true, Some (OUser 1))).
Proof. vm_compute. reflexivity. Qed.
Lemma dy_state : exists s4 s s' m, runs 1500 cfg_default scfg_default demo_tz 0 None (fun _ => demo_now) again_calls demo_ns [20000] s4 s /\
  List.length (st_srcs s4) = 1%nat /\ market_period scfg_default s4 = raw_of hours /\ invoked s4 (l_w s) = dy_inv /\ w_hung (l_w s) = false /\
  dy_turn s4 s = Some s' /\ l_mode s' = Arming m /\ dget (lit "f") (st_ns s4) = Some (OUser 1).
Proof.
  pose proof dy_facts_are as H. unfold runs. revert H. generalize again_start as x. intros [[s4 s0]|]; unfold dy_facts; [|discriminate].
  assert (OK : Forall ok_label dy_labels) by (vm_compute; repeat constructor). revert OK. generalize dy_labels. intros lb OK.
  destruct (l_exec _ s0 lb) as [s|] eqn:E1; [|discriminate].
  assert (G : forall A B C D E F (a a' : A) (f f' : F) (b b' : B) (c c' : C) (d d' : D) (e e' : E), Some ((a, f), b, c, (d, e)) = Some ((a', f'), b', c', (d', e')) -> a = a' /\ f = f' /\ b = b' /\ c = c' /\ d = d' /\ e = e')
    by (intros * E; injection E; auto 10).
  intros H. apply G in H as (H1 & H2 & H3 & H4 & H5 & H6). destruct (dy_turn s4 s) as [s'|] eqn:ES; [|discriminate H5]. destruct (l_mode s') eqn:EM; try discriminate H5.
  exists s4, s, s', m. split; [|repeat (split; [assumption|]); assumption].
  exists s0, lb. split; [reflexivity|]. split; [rewrite H1; reflexivity|]. split; [exact OK|exact E1].
Qed.
Definition dy_owed : list Z := flat_map (fun d => [d * DAY + 34200 * US; d * DAY + 34260 * US]) (day_range 20000 365).
Lemma dy_owed_on : owed_on demo_now (concat [TLate.minutes (34200 * US) 2]) 20000 (20000 + cf_count cfg_default - 1) dy_owed.
Proof.
  exists (day_range 20000 365), (map (fun d => [d * DAY + 34200 * US; d * DAY + 34260 * US]) (day_range 20000 365)).
  split; [exact (LEventSource.day_range_consecutive 20000 20364)|].
  assert (H : Forall (fun d => 20000 <= d) (day_range 20000 365)).
  { apply Forall_forall. intros d Hd. apply (LEventSource.day_range_consecutive 20000 20364) in Hd. lia. }
  unfold dy_owed. induction H as [|d l Hd _ [IH1 IH2]]; [split; [constructor|reflexivity]|]. cbn [map flat_map concat]. split; [|rewrite IH2; reflexivity].
  constructor; [|exact IH1]. change (concat [TLate.minutes (34200 * US) 2]) with [34200 * US; 34260 * US].
  assert (K : forall x y, demo_now <= x -> demo_now <= y -> filter (fun t => demo_now <=? t) [x; y] = [x; y]).
  { intros x y Hx Hy. apply Z.leb_le in Hx, Hy. unfold filter. rewrite Hx, Hy. reflexivity. }
  assert (Hx : forall o, In o [34200; 34260] -> demo_now <= d * DAY + o * US).
  { intros o [<-|[<-|[]]]; unfold demo_now, DAY, US; lia. }
  set (p := fun t => demo_now <=? t) in *.
  assert (E : filter p (map (fun o => d * DAY + o) [34200 * US; 34260 * US]) = [d * DAY + 34200 * US; d * DAY + 34260 * US]).
  { apply (K (d * DAY + 34200 * US) (d * DAY + 34260 * US)); apply Hx; cbn [In]; auto. }
  split; [change (Permutation [d * DAY + 34200 * US; d * DAY + 34260 * US] (filter p (map (fun o => d * DAY + o) [34200 * US; 34260 * US]))); rewrite E; apply Permutation_refl|].
  repeat constructor. unfold US; lia.
Qed.

Definition dy_bal (g : gst) : res binfo * gst := (Ok rd_bal, g).
Definition dy_gate : gate gst := anxin demo_ptime demo_f3 demo_f4 demo_go dy_bal.
Definition dy_env (D sec : Z) : genv := GEnv D (D * DAY + sec * US) WDone (Ok tt).
Definition dy_run (D sec : Z) (i1 i2 : string) (x : acct * gst) : acct * gst :=
  match snd (do_order no_ud dy_gate (lit i1) (lit i2) (D * DAY + sec * US) (D * DAY + sec * US) [] (World true (Some (fst x)) (set_env (dy_env D sec) (snd x)))) with
  | World _ (Some a) g => (a, g)
  | World _ None g => (fst x, g)
  end.
Definition dy_1 := dy_run 20000 34200 "1" "2" (acct_new, demo_g0).
Definition dy_2 := dy_run 20000 34260 "3" "4" dy_1.
Definition dy_s := acc_sync_balance dy_gate (fst dy_2) (snd dy_2).
Definition dy_3 := dy_run 20001 34200 "5" "6" dy_s.
Definition dy_4 := dy_run 20001 34260 "7" "8" dy_3.
Definition dy_5 := dy_run 20002 34200 "9" "10" dy_4.
Definition dy_rs : list run :=
  [Run 20000 0 false (lit "1") (lit "2"); Run 20000 0 false (lit "3") (lit "4"); Run 20001 400 false (lit "5") (lit "6");
   Run 20001 0 false (lit "7") (lit "8"); Run 20002 0 false (lit "9") (lit "10")].
Notation dy_days := (days no_ud demo_ptime demo_f3 demo_f4 demo_go dy_bal (fun e => ge_write e = WDone) 0).
Lemma dy_step inv x rs D sec i1 i2 c : dy_days inv (fst x) (snd x) rs ->
  dget (lit i1) (a_orders (fst x)) = None -> dget (lit i2) (a_orders (fst x)) = None -> lit i1 <> lit i2 -> dkeys (a_long (fst x)) = [] \/ dkeys (a_long (fst x)) = [code1] ->
  closeable (fst x) code1 = c -> (D * DAY + sec * US) / DAY = D ->
  dy_days (inv ++ [dy_at D sec]) (fst (dy_run D sec i1 i2 x)) (snd (dy_run D sec i1 i2 x)) (rs ++ [Run D c false (lit i1) (lit i2)]).
Proof.
  intros W K1 K2 Hne Hl <- HD.
  assert (NK : forall i, dget (lit i) (a_orders (fst x)) = None -> ~ known (fst x) (lit i)) by (intros i E (o & r & X & _); rewrite E in X; discriminate X).
  destruct (do_order no_ud dy_gate (lit i1) (lit i2) (D * DAY + sec * US) (D * DAY + sec * US) [] (World true (Some (fst x)) (set_env (dy_env D sec) (snd x)))) as [r w] eqn:E.
  assert (Ew : exists a g, w = World true (Some a) g).
  { destruct (days_inv no_ud demo_ptime demo_f3 demo_f4 demo_go dy_bal (fun e => ge_write e = WDone) 0 (fun e H => H) ltac:(discriminate) eq_refl _ _ _ _ W) as ([HB HP] & _).
    destruct (whole no_ud dy_gate (lit i1) (lit i2) (D * DAY + sec * US) (D * DAY + sec * US) [] (World true (Some (fst x)) (set_env (dy_env D sec) (snd x))) (fst x)
      (conj eq_refl eq_refl) HB HP (NK i1 K1) (NK i2 K2) Hne) as (? & ? & ? & _ & _ & _ & E' & _). rewrite E in E'. injection E' as _ ->. eauto. }
  destruct Ew as (a & g & ->).
  assert (Er : dy_run D sec i1 i2 x = (a, g)) by (unfold dy_run; rewrite E; reflexivity).
  rewrite Er. cbn [fst snd].
  pose proof (d_run no_ud demo_ptime demo_f3 demo_f4 demo_go dy_bal (fun e => ge_write e = WDone) 0 inv (fst x) (set_env (dy_env D sec) (snd x)) rs (D * DAY + sec * US) (Some (OUser 1))
    (lit i1) (lit i2) (D * DAY + sec * US) (D * DAY + sec * US) [] false r a g) as X. rewrite HD in X. apply X.
  - apply d_env; [exact W|reflexivity].
  - reflexivity.
  - apply NK, K1.
  - apply NK, K2.
  - exact Hne.
  - split; [discriminate|]. intro H. unfold held in H. destruct Hl as [Hl|Hl]; rewrite Hl in H; [destruct H|]. destruct H as [H|[]]. discriminate H.
  - exact E.
Qed.
Lemma dy_sync inv x rs : dy_days inv (fst x) (snd x) rs ->
  dy_days inv (fst (acc_sync_balance dy_gate (fst x) (snd x))) (snd (acc_sync_balance dy_gate (fst x) (snd x))) rs.
Proof. intro H. apply (d_balance no_ud demo_ptime demo_f3 demo_f4 demo_go dy_bal (fun e => ge_write e = WDone) 0 inv (fst x) (snd x) rs H eq_refl). Qed.
Lemma dy_days_are : dy_days dy_inv (fst dy_5) (snd dy_5) dy_rs.
Proof.
  set (here := fun (x : acct * gst) c l os => closeable (fst x) code1 = c /\ dkeys (a_long (fst x)) = l /\ dkeys (a_orders (fst x)) = os).
  assert (V1 : here dy_1 0 [] [lit "2"]) by (vm_compute; repeat split).
  assert (V2 : here dy_2 0 [] [lit "2"; lit "4"]) by (vm_compute; repeat split).
  assert (V3 : here dy_s 400 [code1] [lit "2"; lit "4"]) by (vm_compute; repeat split).
  assert (V4 : here dy_3 0 [code1] [lit "2"; lit "4"; lit "5"; lit "6"]) by (vm_compute; repeat split).
  assert (V5 : here dy_4 0 [code1] [lit "2"; lit "4"; lit "5"; lit "6"; lit "8"]) by (vm_compute; repeat split).
  assert (NG : forall i (d : dict str nat) ks, dkeys d = ks -> dmem (lit i) (map (fun k => (k, 0%nat)) ks) = false -> dget (lit i) d = None).
  { intros i d ks <- Hm. destruct (dget (lit i) d) eqn:Ed; [|reflexivity]. apply dget_key in Ed. exfalso.
    assert (dmem (lit i) (map (fun k => (k, 0%nat)) (dkeys d)) = true) as Ht; [|congruence]. apply dmem_In. unfold dkeys at 1. rewrite map_map. cbn [fst]. rewrite map_id. exact Ed. }
  destruct V1 as (A1 & B1 & C1).  destruct V2 as (A2 & B2 & C2).  destruct V3 as (A3 & B3 & C3).  destruct V4 as (A4 & B4 & C4).  destruct V5 as (A5 & B5 & C5).
  change dy_inv with ((((([] ++ [dy_at 20000 34200]) ++ [dy_at 20000 34260]) ++ [dy_at 20001 34200]) ++ [dy_at 20001 34260]) ++ [dy_at 20002 34200]).
  change dy_rs with ((((([] ++ [Run 20000 0 false (lit "1") (lit "2")]) ++ [Run 20000 0 false (lit "3") (lit "4")]) ++ [Run 20001 400 false (lit "5") (lit "6")]) ++
    [Run 20001 0 false (lit "7") (lit "8")]) ++ [Run 20002 0 false (lit "9") (lit "10")]).
  unfold dy_5. apply (dy_step _ dy_4); [|apply (NG _ _ _ C5); reflexivity|apply (NG _ _ _ C5); reflexivity|discriminate|right; exact B5|exact A5|reflexivity].
  unfold dy_4. apply (dy_step _ dy_3); [|apply (NG _ _ _ C4); reflexivity|apply (NG _ _ _ C4); reflexivity|discriminate|right; exact B4|exact A4|reflexivity].
  unfold dy_3. apply (dy_step _ dy_s); [|apply (NG _ _ _ C3); reflexivity|apply (NG _ _ _ C3); reflexivity|discriminate|right; exact B3|exact A3|reflexivity].
  unfold dy_s. apply (dy_sync _ dy_2).
  unfold dy_2. apply (dy_step _ dy_1); [|apply (NG _ _ _ C1); reflexivity|apply (NG _ _ _ C1); reflexivity|discriminate|left; exact B1|exact A1|reflexivity].
  unfold dy_1. apply (dy_step _ (acct_new, demo_g0)); [|reflexivity|reflexivity|discriminate|left; reflexivity|reflexivity|reflexivity].
  cbn [fst snd]. apply d_start; reflexivity.
Qed.

(** what the theorems say about it, and the files of the first two days *)
Example C145_demo :
  (exists ls cl, List.length ls = 2%nat /\ holds order_header (go_eol demo_go) ls (text_of 20000 (gs_ofile (snd dy_5))) /\
     holds cancel_header (go_eol demo_go) cl (text_of 20000 (gs_cfile (snd dy_5)))) /\
  (exists ls, List.length ls = 3%nat /\ holds order_header (go_eol demo_go) ls (text_of 20001 (gs_ofile (snd dy_5)))) /\
  text_of 20001 (gs_ofile (snd dy_5)) = order_header ++ [NL] ++
    nl "093000.000000,5,UM0,8888,000001.SZ,2,400,DMA,AT,0,10,10" ++
    nl "093000.000000,6,UM0,8888,000002.SZ,1,100,DMA,P6,0,0,0" ++ nl "093100.000000,8,UM0,8888,000002.SZ,1,100,DMA,P6,0,0,0" /\
  text_of 20000 (gs_cfile (snd dy_5)) = cancel_header ++ [NL] ++ nl "093000.000000,2" ++ nl "093100.000000,2" ++ nl "093100.000000,4".
Proof.
  destruct dy_state as (s4 & s & s' & m & Hr & H1 & H2 & H3 & H4 & H5 & H6 & H7).
  pose proof dy_days_are as W. rewrite <- H3 in W.
  assert (HL : (List.length (calls_of 0 (invoked s4 (l_w s))) <= List.length dy_owed)%nat) by (rewrite H3; apply Nat.leb_le; vm_compute; reflexivity).
  assert (P1 : Forall (fun p => tod_ok (fst p) /\ tod_ok (snd p)) hours) by (unfold hours; repeat constructor; vm_compute; discriminate).
  assert (P2 : Forall (fun p => fst p mod US = 0 /\ snd p mod US = 0) hours) by (unfold hours; repeat constructor).
  assert (F1 : (1441 <= 1500)%nat) by (apply Nat.leb_le; vm_compute; reflexivity).
  assert (F2 : (Z.to_nat (cf_count cfg_default) < 1500)%nat) by (apply Nat.leb_le; vm_compute; reflexivity).
  assert (Ed : nth_error [20000] (List.length (st_srcs s4) - List.length (asked again_calls) + 0) = Some 20000) by (rewrite H1; reflexivity).
  assert (Hm : Forall2 (fun p l => steps MINUTE (fst p) (snd p) l) hours [TLate.minutes (34200 * US) 2]) by (constructor; [apply minutes_steps; reflexivity|constructor]).
  assert (HH : hours <> []) by discriminate.
  split; [|split; [|split]].
  - destruct (C145_minutes (fun e => ge_write e = WDone) (fun e H => H) 1500%nat cfg_default scfg_default demo_tz 0 (fun _ => demo_now) again_calls demo_ns [20000] s4 s hours
      Hr eq_refl H2 P1 P2 HH F1 F2 eq_refl (demo_ms (2 * 86400 + 34200)) false s' m 0%nat (lit "f") 1%nat [TLate.minutes (34200 * US) 2] 20000 dy_owed
      H4 H5 H6 eq_refl Hm Ed dy_owed_on H7 HL no_ud demo_ptime demo_f3 demo_f4 demo_go dy_bal _ _ _ ltac:(discriminate) eq_refl W 20000) as (ls & cl & L & Ho & Hc & _).
    + vm_compute. discriminate.
    + vm_compute. split; discriminate.
    + change (concat [TLate.minutes (34200 * US) 2]) with [34200 * US; 34260 * US]. intros o [<-|[<-|[]]]; vm_compute; discriminate.
    + intros r [<-|[<-|[<-|[<-|[<-|[]]]]]]; cbn [ru_day ru_close ru_held]; intro E; try discriminate E; split; try reflexivity; lia.
    + exists ls, cl. split; [rewrite L; reflexivity|]. split; assumption.
  - destruct (C145_day (fun e => ge_write e = WDone) (fun e H => H) 1500%nat cfg_default scfg_default demo_tz 0 (fun _ => demo_now) again_calls demo_ns [20000] s4 s hours
      Hr eq_refl H2 P1 P2 HH F1 F2 eq_refl (demo_ms (2 * 86400 + 34200)) false s' m 0%nat (lit "f") 1%nat (lit "every_minute") _ 20000 dy_owed
      H4 H5 H6 eq_refl (owes_minutes _ _ Hm) Ed dy_owed_on H7 HL no_ud demo_ptime demo_f3 demo_f4 demo_go dy_bal _ _ _ ltac:(discriminate) eq_refl W 20001) as (_ & ls & cl & Ho & F & _).
    + vm_compute. discriminate.
    + exists ls. split; [|exact Ho]. rewrite <- (Forall2_len _ _ _ F). reflexivity.
  - vm_compute. reflexivity.
  - vm_compute. reflexivity.
Qed.
