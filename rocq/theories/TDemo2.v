(** C139: the example strategies over a day, with syncs in between. *)
From Coq Require Import String.
From Verif Require Import PyBase PyStr LStr MTime MDate MOrder MAccount MApi SAccount LAccount LAccount2 LAccount3 LApi MGate SGate LGate LGate4 TAccount TGate MDemo TDemo MDemo2.
Open Scope list_scope.
Open Scope Z_scope.

(** ** what is meant *)
(** what was sent to the gate: orders and cancels, in order *)
Definition sent (a : acct) : list aevent := filter (fun e => match e with EvNotice _ _ => false | _ => true end) (a_log a).
(** what the framework and the outside do between the calls of the strategy's functions *)
Definition quiet {G} (k : call (G := G)) : Prop := match k with KSyncBal | KSyncOrd | KEnv _ => True | _ => False end.

Lemma d_run_app udigit G (gt : gate G) c n st xs ys s :
  d_run udigit gt c n st (xs ++ ys) s = match d_run udigit gt c n st xs s with (Ok _, s') => d_run udigit gt c n st ys s' | (Err e, s') => (Err e, s') end.
Proof. revert s. induction xs as [|x xs IH]; intro s; [reflexivity|]. cbn [app d_run]. destruct (d_step udigit gt c n st x s) as [[u|e] s']; [apply IH|reflexivity]. Qed.
Lemma d_run_frames udigit G (gt : gate G) c n st ks : forall s, d_run udigit gt c n st (map DFrame ks) s = (Ok tt, (fst s, do_calls udigit gt ks (snd s))).
Proof. induction ks as [|k ks IH]; intros [o w]; [reflexivity|]. cbn [map d_run d_step fst snd]. rewrite IH. reflexivity. Qed.

Lemma sync_one_sent i a a' : sync_one i a = Ok a' -> sent a' = sent a.
Proof.
  intro E. unfold sent. rewrite (sync_one_log i a a' E). rewrite filter_app.
  assert (X : filter (fun e => match e with EvNotice _ _ => false | _ => true end) (note_of i a) = []); [|rewrite X, app_nil_r; reflexivity].
  unfold note_of. repeat match goal with |- context[match ?x with _ => _ end] => destruct x end; reflexivity.
Qed.
Lemma sync_all_sent : forall l a, sent (sync_all l a) = sent a.
Proof.
  induction l as [|i l IH]; intro a; cbn [sync_all]; [reflexivity|]. destruct (sync_one i a) as [a1|] eqn:E; [|reflexivity].
  rewrite IH. apply (sync_one_sent i), E.
Qed.
Lemma quiet_call udigit G (gt : gate G) k w a : quiet k -> ready w a -> book_ok a ->
  exists a', ready (do_call udigit gt k w) a' /\ book_ok a' /\ sent a' = sent a /\ forall id, known a id -> known a' id.
Proof.
  intros Hq Hw HB. destruct (do_call_le udigit gt k w) as [U L]. rewrite (proj2 Hw) in L. destruct L as (a' & Ha & P & _).
  destruct (P HB) as [HB' [_ Hm]].
  exists a'. split; [split; [rewrite U; exact (proj1 Hw)|exact Ha]|]. split; [exact HB'|]. split.
  - destruct k; try destruct Hq; cbn [do_call] in Ha.
    + unfold api_sync_balance in Ha. rewrite (the_account_ready _ _ Hw) in Ha. pose proof (proj2 (sync_balance_book gt a (w_gate w))) as E.
      destruct (acc_sync_balance gt a (w_gate w)) as [a2 g2]. cbn in Ha, E. injection Ha as <-. unfold sent. rewrite E. reflexivity.
    + unfold api_sync_orders in Ha. rewrite (the_account_ready _ _ Hw) in Ha. unfold acc_sync_orders in Ha.
      destruct (g_sync_orders gt (w_gate w)) as [[l|e] g']; cbn in Ha; injection Ha as <-; [apply sync_all_sent|reflexivity].
    + cbn in Ha. rewrite (proj2 Hw) in Ha. injection Ha as <-. reflexivity.
  - intros id Hk. destruct (never_lost udigit gt [k] w a id (proj2 Hw) HB Hk) as (a2 & E2 & K2). cbn in E2. rewrite Ha in E2. injection E2 as <-. exact K2.
Qed.
Lemma quiet_calls udigit G (gt : gate G) : forall ks w a, Forall quiet ks -> ready w a -> book_ok a ->
  exists a', ready (do_calls udigit gt ks w) a' /\ book_ok a' /\ sent a' = sent a /\ forall id, known a id -> known a' id.
Proof.
  induction ks as [|k ks IH]; intros w a HF Hw HB; [exists a; auto|]. inversion HF as [|? ? Hk HF']; subst.
  destruct (quiet_call udigit G gt k w a Hk Hw HB) as (a1 & H1 & B1 & S1 & K1).
  destruct (IH _ a1 HF' H1 B1) as (a2 & H2 & B2 & S2 & K2). exists a2. split; [exact H2|]. split; [exact B2|]. split; [congruence|auto].
Qed.
Lemma known_dmem a id : book_ok a -> (known a id <-> dmem id (a_orders a) = true).
Proof.
  intros [_ HB]. unfold dmem. split.
  - intros (o & r & Hr & _). rewrite Hr. reflexivity.
  - destruct (dget id (a_orders a)) as [r|] eqn:E; [|discriminate]. intros _. destruct (HB _ _ E) as (o & Ho & _). exists o, r. auto.
Qed.
Lemma sent_log e a : (match e with EvNotice _ _ => False | _ => True end) -> sent (acc_log e a) = sent a ++ [e].
Proof. intro H. unfold sent. cbn [acc_log a_log]. rewrite filter_app. destruct e; [reflexivity|reflexivity|destruct H]. Qed.

Section Steps.
  Context (udigit : N -> bool) {G : Type} (gt : gate G) (c : carg) (n : aarg) (st : starg) (code : str) (z : Z) (sty : style).
  Context (Hc : check_code udigit c = Ok code) (Hn : check_amount n = Ok z) (Hs : check_style st = Ok sty).
  Notation run := (d_run udigit gt c n st).
  Definition asked_order (id : str) (now : Z) : order := new_order id now code z sty Long.

  Lemma order_step id now g w a : ready w a -> book_ok a ->
    let q := g_order gt (asked_order id now) (w_gate w) in
    let r := match fst q with Ok _ => Some id | Err _ => None end in
    exists a', do_order udigit gt c n st id now (g, w) = (Ok tt, (Some r, World true (Some a') (snd q))) /\ book_ok a' /\
      sent a' = sent a ++ [EvOrder (asked_order id now)] /\ known a' id /\ (forall k, known a k -> known a' k).
  Proof.
    intros Hw HB q r. unfold do_order. cbn [snd fst]. unfold api_order. rewrite Hc, Hn, Hs. cbn [rbind]. change (check_side SdFalsy) with (Ok Long). cbn [rbind]. rewrite (the_account_ready _ _ Hw). cbn [rbind].
    destruct (acc_order gt id now code z sty Long a (w_gate w)) as [[r0 a1] g1] eqn:Ea. rewrite (proj1 Hw).
    destruct (acc_order_book gt _ _ _ _ _ _ _ _ _ _ _ Ea) as (SB & El & -> & ->). exists a1. split; [reflexivity|].
    pose proof (proj1 (acc_order_ok gt _ _ _ _ _ _ _ _ _ _ _ Ea HB)) as HB1. split; [exact HB1|].
    split; [unfold sent; rewrite El, filter_app; reflexivity|].
    assert (Hloc : forall k, local_order k a1 = local_order k (store id (new_order id now code z sty Long) a)) by (intro k; apply same_book_local, SB).
    split.
    - exists (asked_order id now). apply local_recorded. rewrite Hloc. apply local_recorded, recorded_store_same.
    - intros k (o & Ho). destruct (eqb_spec k id) as [->|N].
      + exists (asked_order id now). apply local_recorded. rewrite Hloc. apply local_recorded, recorded_store_same.
      + exists o. apply local_recorded. rewrite Hloc, local_store_other by (try assumption; congruence). apply local_recorded, Ho.
  Qed.
  Lemma cancel_step r g1 w a : g1 = Some r -> ready w a -> book_ok a ->
    let k := match r with Some i => i | None => lit "None" end in
    exists a' g', do_cancel gt (g1, w) = (Ok tt, (g1, World true (Some a') g')) /\ book_ok a' /\ (forall k, known a' k <-> known a k) /\
      (known a k -> sent a' = sent a ++ [EvCancel k]) /\ (~ known a k -> sent a' = sent a).
  Proof.
    intros -> Hw HB k. unfold do_cancel. cbn [fst snd]. pose proof (api_cancel_spec gt k w a Hw) as X. cbv zeta in X. fold k. rewrite X. cbn [fst snd].
    do 2 eexists. split; [reflexivity|]. pose proof (known_dmem a k HB) as Kk.
    destruct (dmem k (a_orders a)); (split; [exact HB|]); (split; [reflexivity|]).
    - split; [intros _; apply sent_log; exact I|intro N; destruct (N (proj2 Kk eq_refl))].
    - split; [intro N; apply Kk in N; discriminate N|reflexivity].
  Qed.

  (** A day of demo_order.py: one cancel for each order waiting when the first function runs;
      then the order; then its cancel, whatever has become of the order by then, but none if
      order() returned None. *)
  Lemma day_run : forall f0 f1 f2 f3 id now g w a,
    ready w a -> book_ok a -> Forall quiet f0 -> Forall quiet f1 -> Forall quiet f2 -> Forall quiet f3 ->
    exists a0 ids w1 r w' a',
      ready (do_calls udigit gt f0 w) a0 /\ (forall i, In i ids <-> waiting a0 i) /\ NoDup ids /\
      run (map DFrame f0 ++ [DCancelOpen] ++ map DFrame f1) (g, w) = (Ok tt, (g, w1)) /\
      r = match fst (g_order gt (asked_order id now) (w_gate w1)) with Ok _ => Some id | Err _ => None end /\
      run (map DFrame f0 ++ [DCancelOpen] ++ map DFrame f1 ++ [DOrder id now] ++ map DFrame f2 ++ [DCancel] ++ map DFrame f3) (g, w) = (Ok tt, (Some r, w')) /\
      ready w' a' /\ book_ok a' /\
      (r = Some id -> sent a' = sent a ++ map EvCancel ids ++ [EvOrder (asked_order id now); EvCancel id]) /\
      (r = None -> ~ known a' (lit "None") -> sent a' = sent a ++ map EvCancel ids ++ [EvOrder (asked_order id now)]).
  Proof.
    intros f0 f1 f2 f3 id now g w a Hw HB F0 F1 F2 F3.
    destruct (quiet_calls udigit G gt f0 w a F0 Hw HB) as (a0 & H0 & B0 & S0 & _).
    destruct (C139_cancels udigit G gt _ a0 H0 B0) as (ids & ND & Hids & _ & Ec & _).
    set (wc := World true (Some (logged ids a0)) (fold_left (fun g id => snd (g_cancel gt id g)) ids (w_gate (do_calls udigit gt f0 w)))) in *.
    assert (Hwc : ready wc (logged ids a0)) by (split; reflexivity).
    assert (Sc : sent (logged ids a0) = sent a0 ++ map EvCancel ids).
    { unfold sent. cbn [logged a_log]. rewrite filter_app. f_equal. clear. induction ids as [|i l IH]; [reflexivity|]. cbn [map filter]. rewrite IH. reflexivity. }
    destruct (quiet_calls udigit G gt f1 wc (logged ids a0) F1 Hwc B0) as (a1 & H1 & B1 & S1 & _).
    set (w1 := do_calls udigit gt f1 wc) in *.
    assert (R1 : run (map DFrame f0 ++ [DCancelOpen] ++ map DFrame f1) (g, w) = (Ok tt, (g, w1))).
    { rewrite d_run_app, d_run_frames. cbn [fst snd app d_run d_step]. rewrite Ec. cbn [fst snd]. rewrite d_run_frames. reflexivity. }
    destruct (order_step id now g w1 a1 H1 B1) as (a2 & R2 & B2 & S2 & K2 & _). cbv zeta in R2.
    set (r := match fst (g_order gt (asked_order id now) (w_gate w1)) with Ok _ => Some id | Err _ => None end) in *.
    match type of R2 with _ = (_, (_, ?x)) => set (w2 := x) in * end.
    assert (H2 : ready w2 a2) by (split; reflexivity).
    destruct (quiet_calls udigit G gt f2 w2 a2 F2 H2 B2) as (a3 & H3 & B3 & S3 & K3).
    destruct (cancel_step r (Some r) _ a3 eq_refl H3 B3) as (a4 & g4 & R4 & B4 & K4 & S4 & S4'). cbv zeta in S4, S4'.
    assert (H4 : ready (World true (Some a4) g4) a4) by (split; reflexivity).
    destruct (quiet_calls udigit G gt f3 _ a4 F3 H4 B4) as (a5 & H5 & B5 & S5 & K5).
    exists a0, ids, w1, r, (do_calls udigit gt f3 (World true (Some a4) g4)), a5.
    split; [exact H0|]. split; [exact Hids|]. split; [exact ND|]. split; [exact R1|]. split; [reflexivity|].
    split; [|split; [exact H5|split; [exact B5|split]]].
    - replace (map DFrame f0 ++ [DCancelOpen] ++ map DFrame f1 ++ [DOrder id now] ++ map DFrame f2 ++ [DCancel] ++ map DFrame f3)
        with ((map DFrame f0 ++ [DCancelOpen] ++ map DFrame f1) ++ [DOrder id now] ++ map DFrame f2 ++ [DCancel] ++ map DFrame f3) by (rewrite <- !app_assoc; reflexivity).
      rewrite d_run_app, R1. cbn [app d_run d_step]. rewrite R2, d_run_app, d_run_frames. cbn [fst snd d_run d_step].
      rewrite R4, d_run_frames. reflexivity.
    - intro Er. clearbody r. subst r. rewrite S5, (S4 (K3 _ K2)), S3, S2, S1, Sc, S0, <- !app_assoc. reflexivity.
    - intros Er Nk. clearbody r. subst r. rewrite S5, S4', S3, S2, S1, Sc, S0, <- !app_assoc; [reflexivity|].
      intro K. apply Nk, K5, K4, K.
  Qed.

  (** demo_order_minute.py: order, half a minute later its cancel, again and again *)
  Definition round : Type := list (call (G := G)) * (str * Z) * list (call (G := G)).
  Definition acts_of (x : round) : list (dact (G := G)) :=
    let '(f, (id, now), f') := x in map DFrame f ++ [DOrder id now] ++ map DFrame f' ++ [DCancelIf].
  Definition quiet_round (x : round) : Prop := Forall quiet (fst (fst x)) /\ Forall quiet (snd x).
  (** what is sent: each order, and right after it its cancel if the gate took the order *)
  Inductive in_turn : list round -> list aevent -> Prop :=
  | it_nil : in_turn [] []
  | it_taken f id now f' xs evs : in_turn xs evs -> in_turn ((f, (id, now), f') :: xs) (EvOrder (asked_order id now) :: EvCancel id :: evs)
  | it_failed f id now f' xs evs : in_turn xs evs -> in_turn ((f, (id, now), f') :: xs) (EvOrder (asked_order id now) :: evs).
  Lemma rounds_run : forall xs g w a, ready w a -> book_ok a -> Forall quiet_round xs ->
    exists g' w' a' evs, run (concat (map acts_of xs)) (g, w) = (Ok tt, (g', w')) /\ ready w' a' /\ book_ok a' /\ (forall k, known a k -> known a' k) /\
      (~ known a' (lit "None") -> in_turn xs evs /\ sent a' = sent a ++ evs).
  Proof.
    induction xs as [|[[f [id now]] f'] xs IH]; intros g w a Hw HB HF.
    - exists g, w, a, []. repeat split; auto; try apply Hw; try apply HB; [constructor|rewrite app_nil_r; reflexivity].
    - inversion HF as [|? ? [Hf Hf'] HF']; subst. cbn [fst snd] in Hf, Hf'.
      destruct (quiet_calls udigit G gt f w a Hf Hw HB) as (a0 & H0 & B0 & S0 & K0).
      destruct (order_step id now g _ a0 H0 B0) as (a1 & R1 & B1 & S1 & K1 & K1'). cbv zeta in R1.
      match type of R1 with _ = (_, (Some ?x, ?y)) => set (r := x) in *; set (w1 := y) in * end.
      assert (H1 : ready w1 a1) by (split; reflexivity).
      destruct (quiet_calls udigit G gt f' w1 a1 Hf' H1 B1) as (a2 & H2 & B2 & S2 & K2).
      destruct (cancel_step r (Some r) _ a2 eq_refl H2 B2) as (a3 & g3 & R3 & B3 & K3 & S3 & S3'). cbv zeta in S3, S3'.
      assert (H3 : ready (World true (Some a3) g3) a3) by (split; reflexivity).
      destruct (IH (Some r) _ a3 H3 B3 HF') as (g4 & w4 & a4 & evs & R4 & H4 & B4 & K4 & S4).
      assert (Hr : r = Some id \/ r = None) by (subst r; destruct (fst (g_order gt _ _)); auto). clearbody r.
      exists g4, w4, a4, (EvOrder (asked_order id now) :: (match r with Some _ => [EvCancel id] | None => [] end) ++ evs).
      split; [|split; [exact H4|split; [exact B4|split]]].
      + cbn [map concat acts_of]. rewrite <- !app_assoc, d_run_app, d_run_frames. cbn [fst snd app d_run d_step]. rewrite R1.
        rewrite ?app_assoc_reverse, d_run_app, d_run_frames. cbn [fst snd app d_run d_step do_cancel_if]. rewrite R3. exact R4.
      + intros k Hk. apply K4, K3, K2, K1', K0, Hk.
      + intro Nk. destruct (S4 Nk) as [T4 E4]. destruct Hr as [-> | ->].
        * split; [apply it_taken, T4|]. rewrite E4, (S3 (K2 _ K1)), S2, S1, S0, <- !app_assoc. reflexivity.
        * split; [apply it_failed, T4|]. rewrite E4, S3', S2, S1, S0, <- !app_assoc; [reflexivity|]. intro K. apply Nk, K4, K3, K.
  Qed.
End Steps.

(** ** C139 *)
(** A day of demo_order.py with any syncs and any changes outside in between: one cancel for
    each order waiting when the first function runs; then the order; then its cancel, whatever
    has become of the order by then, but none if order() returned None. *)
Theorem C139_day :
  forall udigit G (gt : gate G) c n st code z sty,
    check_code udigit c = Ok code -> check_amount n = Ok z -> check_style st = Ok sty ->
    forall f0 f1 f2 f3 id now g w a,
    ready w a -> book_ok a -> Forall quiet f0 -> Forall quiet f1 -> Forall quiet f2 -> Forall quiet f3 ->
    exists a0 ids w1 r w' a',
      ready (do_calls udigit gt f0 w) a0 /\ (forall i, In i ids <-> waiting a0 i) /\ NoDup ids /\
      d_run udigit gt c n st (map DFrame f0 ++ [DCancelOpen] ++ map DFrame f1) (g, w) = (Ok tt, (g, w1)) /\
      r = match fst (g_order gt (asked_order code z sty id now) (w_gate w1)) with Ok _ => Some id | Err _ => None end /\
      d_run udigit gt c n st (map DFrame f0 ++ [DCancelOpen] ++ map DFrame f1 ++ [DOrder id now] ++ map DFrame f2 ++ [DCancel] ++ map DFrame f3) (g, w)
        = (Ok tt, (Some r, w')) /\
      ready w' a' /\ book_ok a' /\
      (r = Some id -> sent a' = sent a ++ map EvCancel ids ++ [EvOrder (asked_order code z sty id now); EvCancel id]) /\
      (r = None -> ~ known a' (lit "None") -> sent a' = sent a ++ map EvCancel ids ++ [EvOrder (asked_order code z sty id now)]).
Proof. intros udigit G gt c n st code z sty Hc Hn Hs. exact (day_run udigit gt c n st code z sty Hc Hn Hs). Qed.
Print Assumptions C139_day.

(** demo_order_minute.py sends each order and then its cancel, in turn, nothing else. *)
Theorem C139_rounds :
  forall udigit G (gt : gate G) c n st code z sty,
    check_code udigit c = Ok code -> check_amount n = Ok z -> check_style st = Ok sty ->
    forall xs g w a, ready w a -> book_ok a -> Forall quiet_round xs ->
    exists g' w' a' evs, d_run udigit gt c n st (concat (map acts_of xs)) (g, w) = (Ok tt, (g', w')) /\ ready w' a' /\ book_ok a' /\ (forall k, known a k -> known a' k) /\
      (~ known a' (lit "None") -> in_turn code z sty xs evs /\ sent a' = sent a ++ evs).
Proof. intros udigit G gt c n st code z sty Hc Hn Hs. exact (rounds_run udigit gt c n st code z sty Hc Hn Hs). Qed.
Print Assumptions C139_rounds.

(** If do_cancel comes before the first do_order (as when the set-up takes between 5 and 15
    seconds, C151), demo_order.py ends with a KeyError and sends nothing; demo_order_minute.py
    goes on. *)
Theorem C139_cancel_first :
  forall udigit G (gt : gate G) c n st fs xs w,
    d_run udigit gt c n st (map DFrame fs ++ [DCancel] ++ xs) (None, w) = (Err KeyError, (None, do_calls udigit gt fs w)) /\
    d_run udigit gt c n st (map DFrame fs ++ [DCancelIf] ++ xs) (None, w) = d_run udigit gt c n st xs (None, do_calls udigit gt fs w).
Proof. intros. split; rewrite d_run_app, d_run_frames; reflexivity. Qed.
Print Assumptions C139_cancel_first.

(** The values of the two examples pass the checks. *)
Theorem C139_args : forall udigit,
  (let '(c, n, st) := order_args in check_code udigit c = Ok (lit "511880.XSHG") /\ check_amount n = Ok (-100) /\ check_style st = Ok (Limit (PNum (lit "101.77")))) /\
  (let '(c, n, st) := minute_args in check_code udigit c = Ok (lit "300248.XSHE") /\ check_amount n = Ok 100 /\ check_style st = Ok (Limit (PNum (lit "10.0")))).
Proof. intro u. repeat split. Qed.
(** order 77 waits; it is cancelled, then the order of the day is placed and cancelled *)
Definition dd_frames : list (call (G := gst)) := [KSyncBal; KSyncOrd].
Definition dd_acts : list (dact (G := gst)) :=
  map DFrame dd_frames ++ [DCancelOpen] ++ map DFrame dd_frames ++ [DOrder (lit "78") 0] ++ map DFrame dd_frames ++ [DCancel] ++ map DFrame dd_frames.
Definition dd_run := let '(c, n, st) := order_args in d_run no_ud demo_gate c n st dd_acts (None, demo_w1).
Example C139_day_demo :
  fst dd_run = Ok tt /\ fst (snd dd_run) = Some (Some (lit "78")) /\
  option_map (fun a => map (fun e => match e with EvOrder o => (true, o_id o) | EvCancel i => (false, i) | EvNotice _ o => (false, []) end) (sent a)) (w_acc (snd (snd dd_run))) =
    Some [(true, lit "77"); (false, lit "77"); (true, lit "78"); (false, lit "78")] /\
  text_of 19000 (gs_cfile (w_gate (snd (snd dd_run)))) = cancel_header ++ eol_posix ++ nl "093000.000000,77" ++ nl "093000.000000,78" /\
  Forall quiet dd_frames /\ (let '(c, n, st) := order_args in fst (d_run no_ud demo_gate c n st [DCancel] (None, demo_w1)) = Err KeyError).
Proof. repeat match goal with |- _ /\ _ => split end; try (vm_compute; reflexivity). repeat constructor. Qed.

(** Without an account (use_account off, or set_options not called) each of the functions that
    needs one ends with InvalidCall and does nothing. *)
Theorem C139_no_account :
  forall udigit G (gt : gate G) c n st code z sty (w : world G),
    check_code udigit c = Ok code -> check_amount n = Ok z -> check_style st = Ok sty -> w_use w = false ->
    cancel_open_orders udigit gt w = (Err InvalidCall, w) /\ batch_do_cancel udigit gt w = (Err InvalidCall, w) /\
    (forall id now g xs, d_run udigit gt c n st (DOrder id now :: xs) (g, w) = (Err InvalidCall, (g, w))) /\
    (forall g xs, d_run udigit gt c n st (DCancelOpen :: xs) (g, w) = (Err InvalidCall, (g, w))) /\
    (forall r xs, d_run udigit gt c n st (DCancel :: xs) (Some r, w) = (Err InvalidCall, (Some r, w))).
Proof.
  intros udigit G gt c n st code z sty w Hc Hn Hs Hu.
  assert (Ea : the_account w = Err InvalidCall) by (unfold the_account; rewrite Hu; reflexivity).
  assert (E1 : cancel_open_orders udigit gt w = (Err InvalidCall, w)) by (unfold cancel_open_orders, api_get_orders; cbn [rbind check_fstatus]; rewrite Ea; reflexivity).
  assert (E2 : batch_do_cancel udigit gt w = (Err InvalidCall, w)) by (unfold batch_do_cancel, api_get_orders; cbn [rbind check_fstatus]; rewrite Ea; reflexivity).
  split; [exact E1|]. split; [exact E2|]. split; [|split].
  - intros id now g xs. cbn [d_run d_step]. unfold do_order, api_order. cbn [fst snd]. rewrite Hc, Hn, Hs. cbn [rbind]. change (check_side SdFalsy) with (Ok Long). cbn [rbind]. rewrite Ea. reflexivity.
  - intros g xs. cbn [d_run d_step fst snd]. rewrite E1. reflexivity.
  - intros r xs. cbn [d_run d_step do_cancel fst snd]. unfold api_cancel. rewrite Ea. reflexivity.
Qed.
Print Assumptions C139_no_account.
(** a world whose account is switched off: both ways of cancelling and placing fail *)
Example C139_no_account_demo :
  let w := {| w_use := false; w_acc := w_acc demo_w1; w_gate := w_gate demo_w1 |} in
  let '(c, n, st) := order_args in
  w_use w = false /\ fst (cancel_open_orders no_ud demo_gate w) = Err InvalidCall /\
  fst (d_run no_ud demo_gate c n st dd_acts (None, w)) = Err InvalidCall /\
  fst (cancel_open_orders no_ud demo_gate demo_w1) = Ok tt.
Proof. vm_compute. repeat split. Qed.
