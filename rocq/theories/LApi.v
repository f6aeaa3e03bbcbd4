(** Lemmas about the trading API. *)
From Verif Require Import PyBase PyStr LStr MTime MDate LDate MOrder MAccount MApi SAccount LAccount LAccount2 LAccount3
  MBus MEventSource MStrategy.
Open Scope Z_scope.

Section Api.
  Context (udigit : N -> bool) {G : Type} (gt : gate G).

  Definition ready (w : world G) (a : acct) : Prop := w_use w = true /\ w_acc w = Some a.
  Lemma the_account_ready w a : ready w a -> the_account w = Ok a.
  Proof. intros [H1 H2]. unfold the_account. rewrite H1, H2. reflexivity. Qed.

  (** ** order *)
  Lemma order_args_checks sep c n st sd code z sty s :
    order_args udigit sep c n st sd code z sty s ->
    check_code udigit c = Ok code /\ check_amount n = Ok z /\ check_style st = Ok sty /\ check_side sd = Ok s /\ z <> 0.
  Proof.
    intros (Hc & Hf & Hn & Hs & Hd).
    split; [apply check_code_iff; split; [exact Hc|exists sep; exact Hf]|].
    split; [apply check_amount_iff, Hn|]. split; [apply check_style_iff, Hs|].
    split; [apply check_side_iff, Hd|]. destruct Hn as [[_ H]|[_ H]]; lia.
  Qed.

  Lemma order_accepted sep id now c n st sd code z sty s w a :
    order_args udigit sep c n st sd code z sty s -> ready w a ->
    exists o r a' g',
      api_order udigit gt id now c n st sd w = (Ok r, World true (Some a') g') /\
      order_for id now code z sty o /\ o_side o = Long /\
      a_log a' = a_log a ++ [EvOrder o] /\
      g_order gt o (w_gate w) = (fst (g_order gt o (w_gate w)), g') /\
      (r = Some id <-> exists u, fst (g_order gt o (w_gate w)) = Ok u) /\
      (r = None <-> exists e, fst (g_order gt o (w_gate w)) = Err e) /\
      recorded a' id o.
  Proof.
    intros Ha Hw. destruct (order_args_checks _ _ _ _ _ _ _ _ _ Ha) as (K1 & K2 & K3 & K4 & Hz).
    unfold api_order. rewrite K1; cbn [rbind]. rewrite K2; cbn [rbind]. rewrite K3; cbn [rbind].
    rewrite K4; cbn [rbind]. rewrite (the_account_ready _ _ Hw); cbn [rbind].
    destruct (acc_order gt id now code z sty s a (w_gate w)) as [[r a'] g'] eqn:E.
    destruct (acc_order_book gt _ _ _ _ _ _ _ _ _ _ _ E) as (S & L & Hg & Hr).
    set (o := new_order id now code z sty s) in *.
    destruct Hw as [Hu _]. rewrite Hu.
    exists o, r, a', g'. split; [reflexivity|]. split; [apply new_order_for, Hz|]. split; [reflexivity|].
    split; [exact L|]. split; [rewrite Hg; destruct (g_order gt o (w_gate w)); reflexivity|].
    split; [|split].
    - rewrite Hr. destruct (fst (g_order gt o (w_gate w))); split; intro X; try discriminate; eauto.
      destruct X as [x X]; discriminate.
    - rewrite Hr. destruct (fst (g_order gt o (w_gate w))); split; intro X; try discriminate; eauto.
      destruct X as [x X]; discriminate.
    - destruct S as [S1 S2]. destruct (recorded_store_same id o a) as (rr & R1 & R2).
      exists rr. rewrite <- S1, <- S2. auto.
  Qed.

  Lemma order_rejected id now c n st sd w :
    (forall sep code z sty s, ~ order_args udigit sep c n st sd code z sty s) ->
    exists e, api_order udigit gt id now c n st sd w = (Err e, w) /\
      (e = InvalidParam \/ (e = TypeError /\ (c = CAny \/ sd = SdUnhash))).
  Proof.
    intro H. unfold api_order.
    destruct (check_code udigit c) as [code|e] eqn:E1; cbn [rbind].
    2:{ exists e. split; [reflexivity|]. destruct (check_code_err _ _ _ E1) as [->|[-> ->]]; auto. }
    destruct (check_amount n) as [z|e] eqn:E2; cbn [rbind].
    2:{ exists e. split; [reflexivity|]. rewrite (check_amount_err _ _ E2). auto. }
    destruct (check_style st) as [sty|e] eqn:E3; cbn [rbind].
    2:{ exists e. split; [reflexivity|]. rewrite (check_style_err _ _ E3). auto. }
    destruct (check_side sd) as [s|e] eqn:E4; cbn [rbind].
    2:{ exists e. split; [reflexivity|]. destruct (check_side_err _ _ E4) as [->|[-> ->]]; auto. }
    exfalso. apply check_code_iff in E1. destruct E1 as [-> [sep Hs]].
    apply check_amount_iff in E2. apply check_style_iff in E3. apply check_side_iff in E4.
    apply (H sep code z sty s). unfold order_args. auto.
  Qed.

  (** whatever the arguments, nothing else can happen *)
  Lemma api_order_cases id now c n st sd w r w' :
    api_order udigit gt id now c n st sd w = (r, w') ->
    (exists e, r = Err e /\ w' = w) \/
    (exists sep code z sty s a, order_args udigit sep c n st sd code z sty s /\ ready w a).
  Proof.
    unfold api_order.
    destruct (check_code udigit c) as [code|e] eqn:E1; cbn [rbind]; [|intro H; injection H as <- <-; left; eauto].
    destruct (check_amount n) as [z|e] eqn:E2; cbn [rbind]; [|intro H; injection H as <- <-; left; eauto].
    destruct (check_style st) as [sty|e] eqn:E3; cbn [rbind]; [|intro H; injection H as <- <-; left; eauto].
    destruct (check_side sd) as [s|e] eqn:E4; cbn [rbind]; [|intro H; injection H as <- <-; left; eauto].
    destruct (the_account w) as [a|e] eqn:E5; cbn [rbind]; [|intro H; injection H as <- <-; left; eauto].
    intros _. right. apply check_code_iff in E1. destruct E1 as [-> [sep Hs]].
    apply check_amount_iff in E2. apply check_style_iff in E3. apply check_side_iff in E4.
    exists sep, code, z, sty, s, a. split; [unfold order_args; auto|].
    unfold the_account in E5. unfold ready. destruct (w_use w); [|discriminate]. destruct (w_acc w); [|discriminate].
    apply Ok_inj in E5. subst. auto.
  Qed.

  (** ** batches *)
  Definition alone (id : str) (now : Z) (q : req) (w : world G) : option str :=
    match r_code q, r_amount q with
    | Some c, Some n => match fst (api_order udigit gt id now c n (r_style q) (r_side q) w) with
                        | Ok r => r | Err _ => None end
    | _, _ => None
    end.
  Lemma batch_one_fst id now q w : fst (batch_one udigit gt id now q w) = alone id now q w.
  Proof.
    unfold batch_one, alone. destruct (r_code q); [|reflexivity]. destruct (r_amount q); [|reflexivity].
    destruct (api_order _ _ _ _ _ _ _ _ _) as [[r|] w']; reflexivity.
  Qed.
  Lemma batch_length qs w : length (fst (batch_submit udigit gt qs w)) = length qs.
  Proof.
    revert w; induction qs as [|[[id now] q] qs IH]; intro w; cbn [batch_submit]; [reflexivity|].
    destruct (batch_one udigit gt id now q w) as [r w1]. specialize (IH w1).
    destruct (batch_submit udigit gt qs w1) as [rs w2]. cbn in *. lia.
  Qed.
  Lemma batch_nth pre id now q post w :
    nth_error (fst (batch_submit udigit gt (pre ++ (id, now, q) :: post) w)) (length pre) =
    Some (alone id now q (snd (batch_submit udigit gt pre w))).
  Proof.
    revert w; induction pre as [|[[id' now'] q'] pre IH]; intro w; cbn [app batch_submit length].
    - pose proof (batch_one_fst id now q w) as X. destruct (batch_one udigit gt id now q w) as [r w1].
      destruct (batch_submit udigit gt post w1) as [rs w2]. cbn in *. rewrite X. reflexivity.
    - destruct (batch_one udigit gt id' now' q' w) as [r w1]. specialize (IH w1).
      destruct (batch_submit udigit gt (pre ++ (id, now, q) :: post) w1) as [rs w2].
      destruct (batch_submit udigit gt pre w1) as [rs' w2']. exact IH.
  Qed.
  (** the state after a prefix of the batch: each request acts like order() alone *)
  Lemma batch_snoc pre id now c n st sd w :
    snd (batch_submit udigit gt (pre ++ [(id, now, Req (Some c) (Some n) st sd)]) w) =
    snd (api_order udigit gt id now c n st sd (snd (batch_submit udigit gt pre w))).
  Proof.
    revert w; induction pre as [|[[id' now'] q'] pre IH]; intro w; cbn [app batch_submit].
    - unfold batch_one; cbn. destruct (api_order udigit gt id now c n st sd w) as [[r|] w1]; reflexivity.
    - destruct (batch_one udigit gt id' now' q' w) as [r w1]. specialize (IH w1).
      destruct (batch_submit udigit gt (pre ++ _) w1) as [rs w2].
      destruct (batch_submit udigit gt pre w1) as [rs' w2']. exact IH.
  Qed.

  (** ** cancels *)
  Lemma api_cancel_spec id w a : ready w a ->
    let k := dmem id (a_orders a) in
    api_cancel gt id w = (Ok tt, World true (Some (if k then acc_log (EvCancel id) a else a))
                                   (if k then snd (g_cancel gt id (w_gate w)) else w_gate w)).
  Proof.
    intro Hw. unfold api_cancel. rewrite (the_account_ready _ _ Hw), acc_cancel_spec. destruct Hw as [-> _]. reflexivity.
  Qed.
  Definition known_ids (a : acct) (ids : list str) : list str := filter (fun id => dmem id (a_orders a)) ids.
  Lemma batch_cancel_spec ids w a : ready w a ->
    exists a', batch_cancel gt ids w =
      (Ok tt, World true (Some a') (fold_left (fun g id => snd (g_cancel gt id g)) (known_ids a ids) (w_gate w))) /\
      a' = Acct (a_heap a) (a_orders a) (a_long a) (a_short a) (a_total a) (a_cash a) (a_locked a) (a_synced a)
             (a_log a ++ map EvCancel (known_ids a ids)).
  Proof.
    revert w a; induction ids as [|id ids IH]; intros w a Hw; cbn [batch_cancel].
    - destruct Hw as [H1 H2]. destruct w as [u x g]; cbn in *; subst. exists a. split; [reflexivity|].
      rewrite app_nil_r. destruct a; reflexivity.
    - pose proof (api_cancel_spec id w a Hw) as X. cbn zeta in X. rewrite X.
      set (a1 := if dmem id (a_orders a) then _ else _). set (g1 := if dmem id (a_orders a) then _ else _).
      destruct (IH (World true (Some a1) g1) a1) as (a' & E1 & E2); [split; reflexivity|].
      exists a'. rewrite E1. cbn [w_gate]. unfold known_ids in *. cbn [filter].
      subst a1 g1. destruct (dmem id (a_orders a)).
      + split; [reflexivity|]. rewrite E2. cbn. rewrite <- app_assoc. reflexivity.
      + split; [reflexivity|exact E2].
  Qed.

  (** ** histories keep the book well-formed; it only grows *)
  Definition acc_le (w w' : world G) : Prop :=
    w_use w' = w_use w /\
    match w_acc w with
    | None => w_acc w' = None
    | Some a => exists a', w_acc w' = Some a' /\
        (book_ok a -> book_ok a' /\ grows a a') /\ (pos_ok a -> pos_ok a')
    end.
  Lemma acc_le_refl w : acc_le w w.
  Proof. split; [reflexivity|]. destruct (w_acc w) as [a|]; [|reflexivity]. exists a. split; [reflexivity|]. split; [intro; split; [assumption|apply grows_refl]|auto]. Qed.
  Lemma acc_le_trans a b c : acc_le a b -> acc_le b c -> acc_le a c.
  Proof.
    intros [A1 A2] [B1 B2]. split; [congruence|]. destruct (w_acc a) as [x|].
    - destruct A2 as (y & Hy & P1 & P2). rewrite Hy in B2. destruct B2 as (z & Hz & Q1 & Q2).
      exists z. split; [exact Hz|]. split; [|auto]. intro H. destruct (P1 H) as [H1 H2]. destruct (Q1 H1) as [H3 H4].
      split; [exact H3|eapply grows_trans; eauto].
    - rewrite A2 in B2. exact B2.
  Qed.

  Lemma order_created_pos o a : pos_ok a -> pos_ok (acc_order_created o a).
  Proof.
    intros [A B]. unfold acc_order_created. destruct (o_side o).
    - destruct (dget (o_code o) (a_long a)); split; cbn [set_positions a_long a_short]; try assumption; apply NoDup_dset, A.
    - destruct (dget (o_code o) (a_short a)); split; cbn [set_positions a_long a_short]; try assumption; apply NoDup_dset, B.
  Qed.
  Lemma acc_order_pos id now code z sty s a g r a' g' :
    acc_order gt id now code z sty s a g = (r, a', g') -> pos_ok a -> pos_ok a'.
  Proof.
    unfold acc_order. intros H P. destruct (g_order gt _ g) as [[u|e] g1]; injection H as <- <- <-.
    - apply order_created_pos. exact P.
    - exact P.
  Qed.
  Lemma api_order_le id now c n st sd w : acc_le w (snd (api_order udigit gt id now c n st sd w)).
  Proof.
    unfold api_order. destruct (do _ <- check_code udigit c; _) as [[[[[code z] sty] s] a]|e] eqn:E; [|apply acc_le_refl].
    destruct (check_code udigit c); cbn [rbind] in E; [|discriminate]. destruct (check_amount n); cbn [rbind] in E; [|discriminate].
    destruct (check_style st); cbn [rbind] in E; [|discriminate]. destruct (check_side sd); cbn [rbind] in E; [|discriminate].
    destruct (the_account w) as [ax|] eqn:Ea; cbn [rbind] in E; [|discriminate].
    injection E as H1 H2 H3 H4 H5; subst.
    assert (Hw : w_acc w = Some a).
    { unfold the_account in Ea. destruct (w_use w); [|discriminate]. destruct (w_acc w); [|discriminate]. apply Ok_inj in Ea. congruence. }
    destruct (acc_order gt id now code z sty s a (w_gate w)) as [[r a'] g'] eqn:F. cbn [snd].
    split; [reflexivity|]. rewrite Hw. exists a'. split; [reflexivity|]. split.
    - intro HB. apply (acc_order_ok gt _ _ _ _ _ _ _ _ _ _ _ F HB).
    - apply (acc_order_pos _ _ _ _ _ _ _ _ _ _ _ F).
  Qed.
  Lemma batch_le qs w : acc_le w (snd (batch_submit udigit gt qs w)).
  Proof.
    revert w; induction qs as [|[[id now] q] qs IH]; intro w; cbn [batch_submit]; [apply acc_le_refl|].
    assert (X : acc_le w (snd (batch_one udigit gt id now q w))).
    { unfold batch_one. destruct (r_code q) as [c|]; [|apply acc_le_refl]. destruct (r_amount q) as [n|]; [|apply acc_le_refl].
      pose proof (api_order_le id now c n (r_style q) (r_side q) w) as Y.
      destruct (api_order udigit gt id now c n (r_style q) (r_side q) w) as [[r|] w']; exact Y. }
    destruct (batch_one udigit gt id now q w) as [r w1]. specialize (IH w1).
    destruct (batch_submit udigit gt qs w1) as [rs w2]. cbn [snd] in *. eapply acc_le_trans; eauto.
  Qed.
  Lemma with_account_le (f : acct -> G -> acct * G) w :
    (forall a g, (book_ok a -> book_ok (fst (f a g)) /\ grows a (fst (f a g))) /\ (pos_ok a -> pos_ok (fst (f a g)))) ->
    acc_le w (snd (match the_account w with
                   | Err e => (Err e, w)
                   | Ok a => let '(a', g') := f a (w_gate w) in (Ok tt, World (w_use w) (Some a') g')
                   end)).
  Proof.
    intro H. unfold the_account. destruct (w_use w) eqn:U; [|apply acc_le_refl].
    destruct (w_acc w) as [a|] eqn:A; [|apply acc_le_refl].
    specialize (H a (w_gate w)). destruct (f a (w_gate w)) as [a' g']. cbn [snd fst] in *.
    split; [cbn; congruence|]. rewrite A. exists a'. split; [reflexivity|exact H].
  Qed.
  Lemma api_cancel_le id w : acc_le w (snd (api_cancel gt id w)).
  Proof.
    apply (with_account_le (acc_cancel gt id)). intros a g. rewrite acc_cancel_spec. cbn [fst].
    destruct (dmem id (a_orders a)); (split; [intro; split; [assumption|]|auto]).
    - apply grows_same. split; reflexivity.
    - apply grows_refl.
  Qed.
  Lemma batch_cancel_le ids w : acc_le w (snd (batch_cancel gt ids w)).
  Proof.
    revert w; induction ids as [|id ids IH]; intro w; cbn [batch_cancel]; [apply acc_le_refl|].
    pose proof (api_cancel_le id w) as X. destruct (api_cancel gt id w) as [[u|e] w']; [|exact X].
    eapply acc_le_trans; [exact X|apply IH].
  Qed.
  Lemma sync_balance_pos a g : pos_ok a -> pos_ok (fst (acc_sync_balance gt a g)).
  Proof.
    intro P. unfold acc_sync_balance. destruct (g_sync_balance gt g) as [[b|] g']; [|exact P].
    destruct (b_cash b); [|exact P]. destruct (b_pos b); [|exact P]. cbn [fst].
    apply add_positions_pos_ok. split; cbn; constructor.
  Qed.
  Lemma sync_all_short l a : a_short (sync_all l a) = a_short a.
  Proof.
    revert a; induction l as [|i l IH]; intro a; cbn [sync_all]; [reflexivity|].
    destruct (sync_one i a) as [a1|] eqn:E; [|reflexivity]. rewrite IH.
    unfold sync_one in E. destruct (load i) as [rem|]; cbn [rbind] in E; [|discriminate].
    destruct (local_order (i_id i) a) as [lo|]; [destruct (same rem lo)|]; apply Ok_inj in E; subst a1; try reflexivity.
    destruct (notice_for lo rem); reflexivity.
  Qed.
  Lemma do_call_le k w : acc_le w (do_call udigit gt k w).
  Proof.
    destruct k; cbn [do_call].
    - apply api_order_le.
    - apply api_cancel_le.
    - apply batch_le.
    - apply batch_cancel_le.
    - apply (with_account_le (acc_sync_balance gt)). intros a g. split; [|apply sync_balance_pos].
      intro HB. destruct (sync_balance_book gt a g) as [S _].
      split; [eapply same_book_ok; eauto|apply grows_same, S].
    - apply (with_account_le (acc_sync_orders gt)). intros a g. split; [apply sync_orders_ok|].
      unfold acc_sync_orders, pos_ok. destruct (g_sync_orders gt g) as [[l|] g']; cbn [fst]; [|auto].
      rewrite sync_all_long, sync_all_short. auto.
    - destruct (acc_le_refl w) as [A B]. split; [reflexivity|exact B].
  Qed.
  Lemma do_calls_le ks w : acc_le w (do_calls udigit gt ks w).
  Proof.
    unfold do_calls. revert w; induction ks as [|k ks IH]; intro w; cbn [fold_left]; [apply acc_le_refl|].
    eapply acc_le_trans; [apply do_call_le|apply IH].
  Qed.
  Lemma new_ok : book_ok acct_new /\ pos_ok acct_new.
  Proof. split; [split; [constructor|discriminate]|split; constructor]. Qed.
  (** accounts of a running strategy *)
  Definition reachable (a : acct) : Prop :=
    exists u g ks, w_acc (do_calls udigit gt ks (World u (Some acct_new) g)) = Some a.
  Lemma reachable_ok a : reachable a -> book_ok a /\ pos_ok a.
  Proof.
    intros (u & g & ks & H). destruct (do_calls_le ks (World u (Some acct_new) g)) as [_ L]. cbn [w_acc] in L.
    destruct L as (a' & Ha & P1 & P2). rewrite H in Ha. injection Ha as ->. destruct new_ok as [N1 N2].
    split; [apply P1, N1|apply P2, N2].
  Qed.

  Lemma snapshot ks w a r o : w_acc w = Some a -> book_ok a -> deref a r = Some o ->
    exists a', w_acc (do_calls udigit gt ks w) = Some a' /\ deref a' r = Some o.
  Proof.
    intros Hw HB Hd. destruct (do_calls_le ks w) as [_ L]. rewrite Hw in L. destruct L as (a' & Ha & P & _).
    exists a'. split; [exact Ha|]. eapply grows_deref; [apply P, HB|exact Hd].
  Qed.
  Lemma never_lost ks w a id : w_acc w = Some a -> book_ok a -> known a id ->
    exists a', w_acc (do_calls udigit gt ks w) = Some a' /\ known a' id.
  Proof.
    intros Hw HB (o & r & Hr & _). destruct (do_calls_le ks w) as [_ L]. rewrite Hw in L. destruct L as (a' & Ha & P & _).
    exists a'. split; [exact Ha|]. destruct (P HB) as [[_ B2] [_ B]].
    assert (M : dmem id (a_orders a') = true) by (apply B, dmem_In; eapply dget_key; eauto).
    unfold dmem in M. destruct (dget id (a_orders a')) as [r'|] eqn:E; [|discriminate].
    destruct (B2 _ _ E) as (o' & Ho & _). exists o', r'. auto.
  Qed.

  (** ** queries *)
  Lemma fold_refs a (l : list nat) (d : dict str nat) :
    (forall r, In r l -> exists o, deref a r = Some o /\ dget (o_id o) (a_orders a) = Some r) ->
    (forall k r, dget k d = Some r -> dget k (a_orders a) = Some r) ->
    NoDup (dkeys d) ->
    let f := fold_left (fun d r => match deref a r with Some o => dset (o_id o) r d | None => d end) l d in
    NoDup (dkeys f) /\
    forall k r, dget k f = Some r <->
      (dget k d = Some r \/ (In r l /\ exists o, deref a r = Some o /\ o_id o = k)).
  Proof.
    revert d; induction l as [|r0 l IH]; intros d Hl Hd Hn; cbn [fold_left].
    - split; [exact Hn|]. intros k r. split; [auto|intros [H|[[] _]]; exact H].
    - destruct (Hl r0 (or_introl eq_refl)) as (o0 & Ho & Hk). rewrite Ho.
      destruct (IH (dset (o_id o0) r0 d)) as [A B].
      + intros r Hr; apply Hl; right; exact Hr.
      + intros k r H. rewrite dget_dset in H. destruct (eqb k (o_id o0)) eqn:E.
        * apply eqb_true in E. subst k. congruence.
        * apply Hd, H.
      + apply NoDup_dset, Hn.
      + split; [exact A|]. intros k r. rewrite (B k r), dget_dset. destruct (eqb k (o_id o0)) eqn:E.
        * apply eqb_true in E. subst k. split.
          -- intros [H|[H1 H2]]; [injection H as <-; right; split; [left; reflexivity|eauto]|right; split; [right; exact H1|exact H2]].
          -- intros [H|[[<-|H1] H2]]; [apply Hd in H; left; congruence|left; reflexivity|right; auto].
        * split.
          -- intros [H|[H1 H2]]; [left; exact H|right; split; [right; exact H1|exact H2]].
          -- intros [H|[[<-|H1] [o [H2 H3]]]]; [left; exact H| |right; eauto].
             exfalso. assert (o = o0) by congruence. subst o. subst k. rewrite eqb_refl in E. discriminate.
  Qed.

  Lemma status_name_iff x s : status_name x s <-> status_str x = s.
  Proof.
    unfold status_name. cbn [In]. split; [intros H; decompose [or] H; try contradiction; match goal with E : _ = (x, s) |- _ => injection E; intros <- <- end; reflexivity|].
    intros <-. destruct x; cbn [status_str]; tauto.
  Qed.
  Lemma get_orders_spec fid fcode fs w a :
    ready w a -> book_ok a ->
    (forall c, fcode = Some c -> c = CStr [] \/ exists s sep, c = CStr s /\ code_form udigit sep s) ->
    (match fs with FsStr [] => True | FsStr s => exists x, status_name x s | FsHash | FsUnhash => False | _ => True end) ->
    exists d, api_get_orders udigit fid fcode fs w = Ok d /\ NoDup (dkeys d) /\
      forall k r, dget k d = Some r <->
        exists o, dget k (a_orders a) = Some r /\ deref a r = Some o /\
          filter_id fid k /\ filter_code fcode o /\ filter_status fs o.
  Proof.
    intros Hw HB Hc Hs. unfold api_get_orders.
    set (oc := match fcode with None | Some (CStr []) => None | Some (CStr s) => Some s | _ => None end).
    assert (E1 : (match fcode with
                  | None | Some (CStr []) => Ok None
                  | Some c => do s <- check_code udigit c; Ok (Some s) end) = Ok oc).
    { subst oc. destruct fcode as [c|]; [|reflexivity]. destruct (Hc c eq_refl) as [->|(s & sep & -> & Hf)]; [reflexivity|].
      destruct s as [|x s]; [reflexivity|].
      rewrite (proj2 (check_code_iff udigit (CStr (x :: s)) (x :: s))); [reflexivity|]. split; [reflexivity|exists sep; exact Hf]. }
    rewrite E1; cbn [rbind].
    set (os := match fs with FsMember s => Some (status_str s) | FsStr (c :: s) => Some (c :: s) | _ => None end).
    assert (E2 : check_fstatus fs = Ok os).
    { subst os. destruct fs as [|s|[|c s]| |]; try reflexivity; try destruct Hs.
      unfold check_fstatus. apply status_name_iff in H. rewrite <- H, get_status_str. reflexivity. }
    rewrite E2; cbn [rbind]. rewrite (the_account_ready _ _ Hw); cbn [rbind].
    set (refs := match fid with None => dvals (a_orders a) | Some i => _ end).
    match goal with |- exists d, Ok (fold_left _ ?l _) = _ /\ _ => set (lst := l) end.
    destruct HB as [B1 B2].
    assert (R : forall r, In r refs <-> exists k, dget k (a_orders a) = Some r /\ filter_id fid k).
    { intro r. subst refs. destruct fid as [i|]; cbn [filter_id].
      - destruct (dget i (a_orders a)) as [r1|] eqn:E; cbn; split.
        + intros [<-|[]]. exists i. auto.
        + intros (k & H1 & ->). left. congruence.
        + intros [].
        + intros (k & H1 & ->). congruence.
      - unfold dvals. rewrite in_map_iff. split.
        + intros ([k r1] & <- & H). exists k. split; [apply In_dget; assumption|exact I].
        + intros (k & H & _). exists (k, r). split; [reflexivity|apply dget_In, H]. }
    assert (L : forall r, In r lst <-> In r refs /\ exists o, deref a r = Some o /\ filter_code fcode o /\ filter_status fs o).
    { assert (D : forall r, In r refs -> exists o, deref a r = Some o).
      { intros r Hr. apply R in Hr. destruct Hr as (k & Hk & _). destruct (B2 _ _ Hk) as (o & Ho & _). eauto. }
      assert (C : forall r, In r (match oc with None => refs | Some s => filter (fun r => match deref a r with Some o => str_eqb (o_code o) s | None => false end) refs end)
                  <-> In r refs /\ exists o, deref a r = Some o /\ filter_code fcode o).
      { intro r. subst oc. destruct fcode as [[[|x s]| |]|]; cbn [filter_code].
        - split; [intro H; split; [exact H|destruct (D r H) as [o Ho]; eauto]|tauto].
        - rewrite filter_In. split.
          + intros [H1 H2]. split; [exact H1|]. destruct (deref a r) as [o|]; [|discriminate]. apply str_eqb_eq in H2. eauto.
          + intros (H1 & o & H2 & H3). split; [exact H1|]. rewrite H2. apply str_eqb_eq, H3.
        - destruct (Hc CSeq eq_refl) as [Q|(s & sep & Q & _)]; discriminate.
        - destruct (Hc CAny eq_refl) as [Q|(s & sep & Q & _)]; discriminate.
        - split; [intro H; split; [exact H|destruct (D r H) as [o Ho]; eauto]|tauto]. }
      intro r. subst lst os.
      destruct fs as [|s|[|c s]| |]; cbn [filter_status]; try destruct Hs.
      - rewrite C. split; [intros (H1 & o & H2 & H3); eauto 10|intros (H1 & o & H2 & H3 & _); eauto].
      - rewrite filter_In, C. split.
        + intros [(H1 & o & H2 & H3) H4]. rewrite H2 in H4. apply str_eqb_eq in H4. split; [exact H1|].
          exists o. repeat split; auto. destruct (o_status o), s; cbn in H4; (reflexivity || discriminate).
        + intros (H1 & o & H2 & H3 & H4). split; [eauto|]. rewrite H2. apply str_eqb_eq. congruence.
      - rewrite C. split; [intros (H1 & o & H2 & H3); eauto 10|intros (H1 & o & H2 & H3 & _); eauto].
      - rewrite filter_In, C. split.
        + intros [(H1 & o & H2 & H3) H4]. rewrite H2 in H4. apply str_eqb_eq, status_name_iff in H4. split; [exact H1|]. eauto 10.
        + intros (H1 & o & H2 & H3 & H4). apply status_name_iff in H4. split; [eauto|]. rewrite H2. apply str_eqb_eq. congruence. }
    destruct (fold_refs a lst []) as [F1 F2].
    - intros r Hr. apply L in Hr. destruct Hr as [Hr _]. apply R in Hr. destruct Hr as (k & Hk & _).
      destruct (B2 _ _ Hk) as (o & Ho & Hid & _). exists o. split; [exact Ho|]. congruence.
    - discriminate.
    - constructor.
    - eexists. split; [reflexivity|]. split; [exact F1|]. intros k r. rewrite (F2 k r). split.
      + intros [H|[H (o & Ho & Hid)]]; [discriminate|]. apply L in H. destruct H as [Hr (o' & Ho' & Hf)].
        assert (o' = o) by congruence. subst o'. apply R in Hr. destruct Hr as (k' & Hk' & Hfi).
        destruct (B2 _ _ Hk') as (o2 & Ho2 & Hid2 & _).
        assert (o2 = o) by (unfold deref in Ho; congruence). subst o2. exists o.
        subst k k'. auto.
      + intros (o & Hk & Ho & Hfi & Hfc & Hfs). right. split.
        * apply L. split; [apply R; eauto|eauto].
        * exists o. split; [exact Ho|]. destruct (B2 _ _ Hk) as (o2 & Ho2 & Hid2 & _). unfold deref in Ho. congruence.
  Qed.

  (** ** ids *)
  Lemma order_keeps_others sep id now c n st sd code z sty s w a :
    order_args udigit sep c n st sd code z sty s -> ready w a -> book_ok a -> ~ known a id ->
    exists r a' g', api_order udigit gt id now c n st sd w = (Ok r, World true (Some a') g') /\
      (forall id' o, recorded a id' o -> recorded a' id' o).
  Proof.
    intros Ha Hw HB Hk. destruct (order_args_checks _ _ _ _ _ _ _ _ _ Ha) as (K1 & K2 & K3 & K4 & Hz).
    unfold api_order. rewrite K1; cbn [rbind]. rewrite K2; cbn [rbind]. rewrite K3; cbn [rbind].
    rewrite K4; cbn [rbind]. rewrite (the_account_ready _ _ Hw); cbn [rbind].
    destruct (acc_order gt id now code z sty s a (w_gate w)) as [[r a'] g'] eqn:E.
    destruct (acc_order_book gt _ _ _ _ _ _ _ _ _ _ _ E) as (S & _).
    destruct Hw as [Hu _]. rewrite Hu. exists r, a', g'. split; [reflexivity|].
    intros id' o Hr. apply local_recorded. rewrite (same_book_local _ _ _ S).
    assert (id' <> id) by (intros ->; apply Hk; exists o; exact Hr).
    rewrite local_store_other by assumption. apply local_recorded, Hr.
  Qed.

  (** ** availability *)
  Lemma disabled_order id now c n st sd w : w_use w = false ->
    exists e, api_order udigit gt id now c n st sd w = (Err e, w) /\
      ((exists sep code z sty s, order_args udigit sep c n st sd code z sty s) -> e = InvalidCall).
  Proof.
    intro Hu. unfold api_order.
    destruct (check_code udigit c) as [code|e] eqn:E1; cbn [rbind].
    2:{ exists e. split; [reflexivity|]. intros (sep & code & z & sty & s & H). apply order_args_checks in H. destruct H as (H & _). congruence. }
    destruct (check_amount n) as [z|e] eqn:E2; cbn [rbind].
    2:{ exists e. split; [reflexivity|]. intros (sep & code' & z & sty & s & H). apply order_args_checks in H. destruct H as (_ & H & _). congruence. }
    destruct (check_style st) as [sty|e] eqn:E3; cbn [rbind].
    2:{ exists e. split; [reflexivity|]. intros (sep & code' & z' & sty & s & H). apply order_args_checks in H. destruct H as (_ & _ & H & _). congruence. }
    destruct (check_side sd) as [s|e] eqn:E4; cbn [rbind].
    2:{ exists e. split; [reflexivity|]. intros (sep & code' & z' & sty' & s & H). apply order_args_checks in H. destruct H as (_ & _ & _ & H & _). congruence. }
    unfold the_account. rewrite Hu. cbn [rbind]. exists InvalidCall. auto.
  Qed.
  Lemma disabled_batch qs w : w_use w = false ->
    batch_submit udigit gt qs w = (map (fun _ => None) qs, w).
  Proof.
    intro Hu. induction qs as [|[[id now] q] qs IH]; cbn [batch_submit map]; [reflexivity|].
    assert (X : batch_one udigit gt id now q w = (None, w)).
    { unfold batch_one. destruct (r_code q) as [c|]; [|reflexivity]. destruct (r_amount q) as [n|]; [|reflexivity].
      destruct (disabled_order id now c n (r_style q) (r_side q) w Hu) as (e & -> & _). reflexivity. }
    rewrite X, IH. reflexivity.
  Qed.
End Api.

(** the context as set_options left it; [accs]: the Account objects by number *)
Definition ctx_world {G} (s : strat) (accs : nat -> acct) (g : G) : world G :=
  World (match st_use s with Some b => b | None => false end)
        (match st_acc s with Some i => Some (accs i) | None => None end) g.

Lemma set_options_ok fuel sc ctx_start ctx_end k e s s' :
  MStrategy.set_options fuel sc ctx_start ctx_end k e s = (GOk tt, s') ->
  exists b, st_use s' = Some b /\ (b = true -> st_acc s' <> None) /\
    b = match so_use k with Some b => b | None => sc_setup sc end.
Proof.
  unfold MStrategy.set_options. destruct (negb (st_allowed s)); [discriminate|].
  destruct (parse_opts k) as [o|] eqn:Ep; [|discriminate].
  assert (U : so_use o = so_use k).
  { unfold parse_opts, rbind in Ep. destruct (parse_opt (so_mp k)); [|discriminate].
    destruct (match so_interval k with Some (Err e0) => _ | _ => _ end); [|discriminate].
    destruct (parse_opt (so_period k)); [|discriminate]. apply Ok_inj in Ep. subst o. reflexivity. }
  destruct (e_dir e); [|discriminate]. rewrite U.
  set (b := match so_use k with Some b => b | None => sc_setup sc end).
  exists b. split; [|split; [|reflexivity]].
  - destruct b; [|injection H as <-; reflexivity].
    unfold setup_account in H. destruct (negb (so_acct o)); [discriminate|].
    destruct (e_load e); [|discriminate]. destruct (e_gate e); [|discriminate].
    destruct (need_bal sc o || need_ord sc o); [|injection H as <-; reflexivity].
    unfold setup_timer in H. destruct (sync_entries _ _ _ _); try discriminate. injection H as <-. reflexivity.
  - intros Hb. rewrite Hb in H. unfold setup_account in H. destruct (negb (so_acct o)); [discriminate|].
    destruct (e_load e); [|discriminate]. destruct (e_gate e); [|discriminate].
    destruct (need_bal sc o || need_ord sc o); [|injection H as <-; discriminate].
    unfold setup_timer in H. destruct (sync_entries _ _ _ _); try discriminate. injection H as <-. discriminate.
Qed.
