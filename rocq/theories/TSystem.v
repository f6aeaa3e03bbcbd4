(** C82: a daily order is submitted once per owed instant: task process, account and gate together. *)
From Coq Require Import Permutation Sorted String.
From Verif Require Import PyBase PyStr MTime MDate MTimeExpr MEventSource MQueue MLoop MSched MBus MStrategy SEvent SExpr SStrategy
  MProcess SProcess LProcess MOrder MAccount MApi MGate SAccount SGate SOfile SSystem LEventSource2 LGate4 TProcess TGate TOfile.
Open Scope list_scope.
Open Scope Z_scope.

Section Works.
  Context (udigit : N -> bool) (ptime f3 f4 : str -> option Z) (go : gopts) (bal : gst -> res binfo * gst).
  Context (env : genv -> Prop) (k : nat) (code : str) (n : Z) (st : style) (sep : N).
  Context (Hc : code_form udigit sep code) (Hn : n <> 0).

  Lemma works_trail inv a g os cs : works ptime f3 f4 go bal env k code n st inv a g os cs ->
    trail udigit ptime f3 f4 go bal env (fun s => s = st) a g os cs /\
    map oq_day os = map (fun c => fst c / DAY) (calls_of k inv).
  Proof.
    induction 1 as [g H1 H2 H3 H4 H5|inv a g os cs t o id now sd r a' g' _ (IT & IM) Hd E|inv a g os cs t c _ (IT & IM) Ho|inv a g os cs id _ (IT & IM)
      |inv a g os cs e _ (IT & IM) He|inv a g os cs r u _ (IT & IM)|inv a g os cs _ (IT & IM)|inv a g os cs _ (IT & IM) Hb].
    - split; [apply t_start; assumption|reflexivity].
    - split; [apply (t_order _ _ _ _ _ _ _ _ _ _ _ _ _ _ _ _ _ _ _ _ _ _ IT Hc Hn eq_refl E)|].
      unfold calls_of in *. rewrite flat_map_app, !map_app, IM. cbn [flat_map snd fst map app]. rewrite Nat.eqb_refl. cbn [app map fst oq_day].
      rewrite Hd. reflexivity.
    - split; [exact IT|]. unfold calls_of in *. rewrite flat_map_app, map_app, <- IM. cbn [flat_map snd fst app].
      destruct c as [j o| |]; cbn [map app]; rewrite ?app_nil_r; try reflexivity.
      destruct (Nat.eqb_spec j k) as [->|_]; [destruct (Ho o eq_refl)|]. cbn [map app]. rewrite app_nil_r. reflexivity.
    - split; [apply t_cancel; exact IT|exact IM].
    - split; [apply t_env; assumption|exact IM].
    - split; [apply t_broker; exact IT|exact IM].
    - split; [apply t_sync; exact IT|exact IM].
    - split; [apply t_balance; assumption|exact IM].
  Qed.
  Lemma works_done inv a g os cs : (forall e, env e -> ge_write e = WDone) -> works ptime f3 f4 go bal env k code n st inv a g os cs ->
    go_acct go <> [] -> go_stock go = true -> forall q, In q os -> oq_done q = true.
  Proof.
    intros He W Ha Hs.
    assert (HI : forall inv a g os cs, works ptime f3 f4 go bal env k code n st inv a g os cs -> env (gs_env g)).
    { intros. destruct (works_trail _ _ _ _ _ H) as [T _].
      apply (trail_inv udigit ptime f3 f4 go bal env (fun s => s = st) a0 g0 os0 cs0 Ha Hs); [|exact T].
      intros e X (m & x & E). rewrite (He e X) in E. discriminate. }
    induction W as [g H1 H2 H3 H4 H5|inv a g os cs t o id now sd r a' g' W IH Hd E|inv a g os cs t c _ IH Ho|inv a g os cs id _ IH
      |inv a g os cs e _ IH He'|inv a g os cs r u _ IH|inv a g os cs _ IH|inv a g os cs _ IH Hb]; try exact IH; [intros q []|].
    intros q Hq. apply in_app_or in Hq. destruct Hq as [Hq|[<-|[]]]; [apply IH, Hq|]. cbn [oq_done]. rewrite (He _ (HI _ _ _ _ _ W)). reflexivity.
  Qed.
End Works.

Lemma Forall2_len {A B} (R : A -> B -> Prop) l m : Forall2 R l m -> List.length l = List.length m.
Proof. induction 1; cbn [List.length]; [reflexivity|f_equal; assumption]. Qed.
Lemma filter_map_day D (os : list oreq) (l : list Z) : map oq_day os = map (fun x => x / DAY) l ->
  List.length (filter (fun q => oq_day q =? D) os) = List.length (filter (on_day D) l).
Proof.
  revert l. induction os as [|q os IH]; intros [|x l] H; try discriminate; [reflexivity|]. cbn [map] in H. injection H as H1 H2.
  cbn [filter]. unfold on_day at 1. rewrite H1. destruct (x / DAY =? D); cbn [List.length]; rewrite (IH l H2); reflexivity.
Qed.

(** what the calls say, with the owed instants not used up *)
Lemma due_calls (P Q : Z -> bool) (C S r : list Z) : C = filter P S ++ r -> agree C S -> (List.length C <= List.length S)%nat ->
  (forall y, Q y = true -> P y = true) -> filter Q C = filter Q S.
Proof.
  intros HC [t [HS|HS]] HL HQ.
  - assert (E : filter P t = []).
    { assert (X : filter P S = filter P S ++ filter P r ++ filter P t).
      { rewrite HS at 1. rewrite filter_app, HC, filter_app.
        replace (filter P (filter P S)) with (filter P S); [rewrite <- app_assoc; reflexivity|].
        symmetry. clear. induction S as [|y S IH]; [reflexivity|]. cbn [filter]. destruct (P y) eqn:E; [|exact IH]. cbn [filter]. rewrite E, IH. reflexivity. }
      rewrite <- (app_nil_r (filter P S)) in X at 1. apply app_inv_head in X. symmetry in X. apply app_eq_nil in X. apply X. }
    rewrite HS, filter_app. replace (filter Q t) with (@nil Z); [rewrite app_nil_r; reflexivity|].
    symmetry. clear - E HQ. induction t as [|y t IH]; [reflexivity|]. cbn [filter] in *. destruct (P y) eqn:EP; [discriminate|].
    destruct (Q y) eqn:EQ; [rewrite (HQ y EQ) in EP; discriminate|]. apply IH, E.
  - rewrite HS, app_length in HL. assert (t = []) by (destruct t; [reflexivity|cbn in HL; lia]). subst t. rewrite HS, app_nil_r. reflexivity.
Qed.

(** The claim: when the loop goes to sleep at [clock] and day [D] is over, the order file
    of day [D] holds a header and one line for each instant of [D] owed to the entry, each
    with the order's data. *)
Definition one_per_instant (env : genv -> Prop) : Prop :=
  forall fuel cfg sc tz ctx now calls ns dates s4 s ps,
    runs fuel cfg sc tz ctx None now calls ns dates s4 s ->
    cf_hist cfg = false ->
    market_period sc s4 = raw_of ps -> Forall (fun p => tod_ok (fst p) /\ tod_ok (snd p)) ps ->
    Forall (fun p => fst p mod US = 0 /\ snd p mod US = 0) ps -> ps <> [] ->
    (1441 <= fuel)%nat -> (Z.to_nat (cf_count cfg) < fuel)%nat -> tz mod US = 0 ->
    forall clock ex s' m k nm fid t offs d S,
      w_hung (l_w s) = false ->
      l_step (sched_handler fuel (loop_cfg cfg sc s4) tz) s (LTurn clock ex) = Some s' -> l_mode s' = Arming m ->
      nth_error (asked calls) k = Some (nm, fid, t) -> owes ps t offs ->
      nth_error dates (List.length (st_srcs s4) - List.length (asked calls) + k) = Some d ->
      owed_on (now k) offs d (d + cf_count cfg - 1) S ->
      dget nm (st_ns s4) = Some (OUser fid) ->
      (List.length (calls_of k (invoked s4 (l_w s))) <= List.length S)%nat ->
    forall udigit ptime f3 f4 go bal code n st sep a g os cs,
      go_acct go <> [] -> go_stock go = true -> code_form udigit sep code -> n <> 0 ->
      works ptime f3 f4 go bal env k code n st (invoked s4 (l_w s)) a g os cs ->
    forall D, (D + 1) * DAY - tz <= clock * 1000 ->
      exists ls, List.length ls = List.length (filter (on_day D) S) /\
        holds order_header (go_eol go) ls (text_of D (gs_ofile g)) /\
        Forall (fun l => exists q, oq_code q = code /\ oq_n q = n /\ oq_style q = st /\ line_for go q l) ls.

(** It holds when every write to the order file works. *)
Theorem C82_one_per_instant_partial : forall env : genv -> Prop, (forall e, env e -> ge_write e = WDone) -> one_per_instant env.
Proof.
  intros env He fuel cfg sc tz ctx now calls ns dates s4 s ps Hr H1 H2 H3 H4 H5 H6 H7 H8 clock ex s' m k nm fid t offs d S G1 G2 G3 G4 G5 G6 G7 G8 G9
    udigit ptime f3 f4 go bal code n st sep a g os cs Ha Hs Hc Hn W D HD.
  destruct (C60_no_due_call_left fuel cfg sc tz ctx now calls ns dates s4 s ps Hr H1 H2 H3 H4 H5 H6 H7 H8 clock ex s' m k nm fid t offs d S G1 G2 G3 G4 G5 G6 G7) as (r & HC).
  destruct (C58_calls_are_owed fuel cfg sc tz ctx now calls ns dates s4 s ps Hr H1 H2 H3 H4 H5 H6 H7 k nm fid t offs d S G4 G5 G6 G7 G8) as (HA & _).
  destruct (works_trail udigit ptime f3 f4 go bal env k code n st sep Hc Hn _ _ _ _ _ W) as (T & HM).
  pose proof (works_done udigit ptime f3 f4 go bal env k code n st sep Hc Hn _ _ _ _ _ He W Ha Hs) as HW.
  assert (NT : forall e, env e -> ~ torn e) by (intros e X (j & x & E); rewrite (He e X) in E; discriminate).
  destruct (C80_files_partial udigit ptime f3 f4 go bal env (fun s => s = st) a g os cs Ha Hs NT T) as (HO & _ & _).
  destruct (HO D) as (ls & F & Hh). exists ls. split; [|split; [exact Hh|]].
  - rewrite <- (Forall2_len _ _ _ F). unfold written.
    replace (filter (fun q => (oq_day q =? D) && oq_done q) os) with (filter (fun q => oq_day q =? D) os)
      by (apply filter_ext_in; intros q Hq; rewrite (HW q Hq), andb_true_r; reflexivity).
    rewrite (filter_map_day D os (map fst (calls_of k (invoked s4 (l_w s))))) by (rewrite HM, map_map; reflexivity).
    rewrite (due_calls _ (on_day D) _ S r HC HA); [reflexivity|rewrite map_length; exact G9|].
    intros y Hy. unfold on_day in Hy. apply Z.eqb_eq in Hy. apply Z.leb_le.
    assert (y < (D + 1) * DAY); [|lia]. subst D. pose proof (Z.mod_pos_bound y DAY ltac:(unfold DAY, US; lia)). pose proof (Z_div_mod_eq_full y DAY). lia.
  - assert (Q : forall q, In q (written D os) -> oq_code q = code /\ oq_n q = n /\ oq_style q = st).
    { intros q Hq. apply filter_In in Hq. destruct Hq as [Hq _]. clear - W Hq. revert q Hq. induction W; try assumption; [intros q []|].
      intros q Hq. apply in_app_or in Hq. destruct Hq as [Hq|[<-|[]]]; [apply IHW, Hq|repeat split]. }
    clear - F Q. induction F as [|q l qs ls Hl F IH]; [constructor|]. constructor; [|apply IH; intros q' Hq'; apply Q; right; exact Hq'].
    exists q. destruct (Q q (or_introl eq_refl)) as (A & B & C). auto.
Qed.
Print Assumptions C82_one_per_instant_partial.

(** ** two entries at 9:30, started at 9:29:30 on day 20000, asleep at 9:30 of the next day *)
Definition sys_labels : list (label scb sout) :=
  [LAsync; LTurn (demo_ms 34200) false; demo_done; LTurn (demo_ms 34200) false; demo_done;
   LTurn (demo_ms (86400 + 34200)) false; LDone (SOut 20001 20001 [] None);
   LTurn (demo_ms (86400 + 34200)) false; LDone (SOut 20001 20001 [] None)].
Notation sys_start := (start 1500 cfg_default scfg_default demo_tz 0 None (fun _ => demo_now) tie_calls demo_ns [20000; 20000]).
Definition sys_state : option (strat * lstate scb sworld) :=
  match sys_start with
  | Some (s4, s0) => option_map (fun s => (s4, s)) (l_exec (sched_handler 1500 (loop_cfg cfg_default scfg_default s4) demo_tz) s0 sys_labels)
  | None => None
  end.
Definition sys_turn (s4 : strat) (s : lstate scb sworld) :=
  l_step (sched_handler 1500 (loop_cfg cfg_default scfg_default s4) demo_tz) s (LTurn (demo_ms (86400 + 34200)) false).
Definition sys_inv : list (Z * cb) :=
  let x := 20000 * DAY + 34200 * US in let y := 20001 * DAY + 34200 * US in
  [(x, CbUser 0 (Some (OUser 1))); (x, CbUser 1 (Some (OUser 2))); (y, CbUser 0 (Some (OUser 1))); (y, CbUser 1 (Some (OUser 2)))].
Lemma sys_state_is :
  option_map (fun x => let '(s4, s) := x in
    ((List.length (st_srcs s4), market_period scfg_default s4), invoked s4 (l_w s), w_hung (l_w s),
     (match sys_turn s4 s with Some s' => match l_mode s' with Arming _ => true | _ => false end | None => false end,
      dget (lit "f") (st_ns s4)))) sys_state =
  Some ((2%nat, raw_of demo_ps), sys_inv, false, (true, Some (OUser 1))).
Proof. vm_compute. reflexivity. Qed.
Lemma sys_runs : exists s4 s, sys_state = Some (s4, s) /\
  runs 1500 cfg_default scfg_default demo_tz 0 None (fun _ => demo_now) tie_calls demo_ns [20000; 20000] s4 s.
Proof.
  assert (G : forall st : option (strat * lstate scb sworld), st = sys_start ->
    match st with Some (s4, s0) => option_map (fun s => (s4, s)) (l_exec (sched_handler 1500 (loop_cfg cfg_default scfg_default s4) demo_tz) s0 sys_labels) | None => None end = sys_state).
  { intros st ->. unfold sys_state. reflexivity. }
  assert (G0 : option_map (fun x => List.length (st_srcs (fst x))) sys_state = Some 2%nat) by (vm_compute; reflexivity).
  remember sys_start as st eqn:E0. specialize (G st eq_refl). rewrite <- G in G0. revert G G0. generalize sys_state. intros ds G G0.
  destruct st as [[s4 s0]|]; [|discriminate G0].
  destruct (l_exec (sched_handler 1500 (loop_cfg cfg_default scfg_default s4) demo_tz) s0 sys_labels) as [s|] eqn:E1; [|discriminate G0].
  cbn [option_map fst] in G, G0. exists s4, s. split; [symmetry; exact G|]. exists s0, sys_labels. split; [symmetry; exact E0|].
  split; [injection G0 as ->; reflexivity|]. split; [repeat constructor|exact E1].
Qed.
(** the owed instants: 9:30 on 365 days *)
Definition sys_owed : list Z := map (fun d => d * DAY + 34200 * US) (day_range 20000 365).
Lemma sys_owed_on : owed_on demo_now [34200 * US] 20000 (20000 + cf_count cfg_default - 1) sys_owed.
Proof.
  exists (day_range 20000 365), (map (fun d => [d * DAY + 34200 * US]) (day_range 20000 365)).
  split; [exact (LEventSource.day_range_consecutive 20000 20364)|].
  assert (H : Forall (fun d => 20000 <= d) (day_range 20000 365)).
  { apply Forall_forall. intros d Hd. apply (LEventSource.day_range_consecutive 20000 20364) in Hd. lia. }
  unfold sys_owed. induction H as [|d l Hd _ [IH1 IH2]]; [split; [constructor|reflexivity]|]. cbn [map concat]. split.
  - constructor; [|exact IH1]. cbn [map filter]. replace (demo_now <=? d * DAY + 34200 * US) with true
      by (symmetry; apply Z.leb_le; unfold demo_now, DAY, US; lia).
    split; [apply Permutation_refl|repeat constructor].
  - rewrite IH2. reflexivity.
Qed.

(** f places an order for 100 shares each time; on day 20000 the disk does [w] *)
Definition sys_env (D : Z) (w : wout) : genv := GEnv D (D * DAY + 34200 * US) w (Ok tt).
Definition sys_op (id : string) (D : Z) (w : wout) (x : acct * gst) : option str * acct * gst :=
  acc_order demo_gate (lit id) (D * DAY + 34200 * US) (lit "600000.XSHG") 100 (Limit (PNum (lit "10.5"))) Long (fst x) (set_env (sys_env D w) (snd x)).
Definition sys_1 (w : wout) := sys_op "1" 20000 w (acct_new, demo_g0).
Definition sys_2 (w : wout) := sys_op "2" 20001 WDone (snd (fst (sys_1 w)), snd (sys_1 w)).
Notation sys_works env := (works demo_ptime demo_f3 demo_f4 demo_go demo_bal env 0 (lit "600000.XSHG") 100 (Limit (PNum (lit "10.5")))).
Lemma eta3 {A B C} (x : A * B * C) : x = (fst (fst x), snd (fst x), snd x).
Proof. destruct x as [[? ?] ?]. reflexivity. Qed.
Lemma sys_works_is (env : genv -> Prop) (w : wout) : env demo_env -> env (sys_env 20000 w) -> env (sys_env 20001 WDone) ->
  exists os, sys_works env sys_inv (snd (fst (sys_2 w))) (snd (sys_2 w)) os [].
Proof.
  intros H0 H1 H2. eexists.
  change sys_inv with ((([] ++ [(20000 * DAY + 34200 * US, CbUser 0 (Some (OUser 1)))]) ++ [(20000 * DAY + 34200 * US, CbUser 1 (Some (OUser 2)))]) ++
    [(20001 * DAY + 34200 * US, CbUser 0 (Some (OUser 1)))] ++ [(20001 * DAY + 34200 * US, CbUser 1 (Some (OUser 2)))]).
  rewrite (app_assoc _ [_] [_]). apply w_other; [|discriminate].
  eapply w_order with (a := snd (fst (sys_1 w))) (g := set_env (sys_env 20001 WDone) (snd (sys_1 w))) (r := fst (fst (sys_2 w)));
    [apply w_env; [|exact H2]; apply w_other; [|discriminate]|reflexivity|].
  2: { exact (eta3 (sys_2 w)). }
  eapply w_order with (a := acct_new) (g := set_env (sys_env 20000 w) demo_g0) (r := fst (fst (sys_1 w)));
    [apply w_env; [|exact H1]; apply w_start; try reflexivity; exact H0|reflexivity|].
  exact (eta3 (sys_1 w)).
Qed.

(** what the claim says about it *)
Lemma sys_claim (env : genv -> Prop) (w : wout) : env demo_env -> env (sys_env 20000 w) -> env (sys_env 20001 WDone) -> one_per_instant env ->
  exists ls, List.length ls = 1%nat /\ holds order_header (go_eol demo_go) ls (text_of 20000 (gs_ofile (snd (sys_2 w)))).
Proof.
  intros E0 E1 E2 H. destruct sys_runs as (s4 & s & E & Hr). pose proof sys_state_is as Hs. rewrite E in Hs. clear E. cbn [option_map] in Hs.
  assert (G : forall A B C D (a a' : A) (b b' : B) (c c' : C) (d d' : D), Some (a, b, c, d) = Some (a', b', c', d') -> (a = a' /\ b = b') /\ c = c' /\ d = d')
    by (intros ? ? ? ? ? ? ? ? ? ? ? ? E; injection E; auto).
  apply G in Hs as ((H1 & H2) & H3 & H4). injection H1 as H1 H1'. injection H4 as H4 H4'.
  destruct (sys_turn s4 s) as [s'|] eqn:ES; [|discriminate H4]. destruct (l_mode s') eqn:EM; try discriminate H4.
  destruct (sys_works_is env w E0 E1 E2) as (os & W). rewrite <- H2 in W.
  destruct (H 1500%nat cfg_default scfg_default demo_tz 0 (fun _ => demo_now) tie_calls demo_ns [20000; 20000] s4 s demo_ps Hr) with
      (k := 0%nat) (nm := lit "f") (fid := 1%nat) (t := lit "9:30") (offs := [34200 * US]) (d := 20000) (S := sys_owed)
      (clock := demo_ms (86400 + 34200)) (ex := false) (s' := s') (m := m) (udigit := no_ud)
      (ptime := demo_ptime) (f3 := demo_f3) (f4 := demo_f4) (go := demo_go) (bal := demo_bal) (code := lit "600000.XSHG") (n := 100)
      (st := Limit (PNum (lit "10.5"))) (sep := 46%N) (a := snd (fst (sys_2 w))) (g := snd (sys_2 w)) (os := os) (cs := @nil creq) (D := 20000)
    as (ls & L & Hh & _).
  - reflexivity.
  - exact H1'.
  - unfold demo_ps. repeat constructor; vm_compute; discriminate.
  - unfold demo_ps. repeat constructor.
  - discriminate.
  - apply Nat.leb_le. vm_compute. reflexivity.
  - apply Nat.leb_le. vm_compute. reflexivity.
  - reflexivity.
  - exact H3.
  - exact ES.
  - exact EM.
  - reflexivity.
  - apply owes_clock. change (lit "9:30") with (lit "9" ++ lit ":" ++ lit "30").
    replace (34200 * US) with ((decimal (lit "9") * 3600 + decimal (lit "30") * 60) * US) by reflexivity.
    apply clock_hm; [split; [left; reflexivity|repeat constructor]|split; [right; reflexivity|repeat constructor]|reflexivity|reflexivity].
  - rewrite H1. reflexivity.
  - exact sys_owed_on.
  - exact H4'.
  - rewrite H2. apply Nat.leb_le. vm_compute. reflexivity.
  - discriminate.
  - reflexivity.
  - exact demo_code_form.
  - discriminate.
  - exact W.
  - vm_compute. discriminate.
  - exists ls. split; [rewrite L; vm_compute; reflexivity|exact Hh].
Qed.

(** False when a write may fail, even without leaving text behind: the instant's order is
    missing, and nothing submits it later. *)
Theorem C82_failed_write_refuted : ~ one_per_instant (fun e => ~ torn e).
Proof.
  intros H. assert (NT : forall D w, (forall n x, w <> WTorn n x) -> ~ torn (sys_env D w)) by (intros D w X (n & x & E); exact (X n x E)).
  destruct (sys_claim (fun e => ~ torn e) (WFail TimeOut)) as (ls & L & Hh);
    [intros (n & x & E); discriminate|apply NT; discriminate|apply NT; discriminate|exact H|].
  replace (text_of 20000 (gs_ofile (snd (sys_2 (WFail TimeOut))))) with (@nil N) in Hh by (vm_compute; reflexivity).
  destruct ls as [|l ls]; [discriminate|]. unfold holds in Hh. discriminate.
Qed.
Print Assumptions C82_failed_write_refuted.

(** the hypotheses of [C82_one_per_instant_partial] are met, and the two files are as it says *)
Example C82_demo :
  (exists ls, List.length ls = 1%nat /\ holds order_header (go_eol demo_go) ls (text_of 20000 (gs_ofile (snd (sys_2 WDone))))) /\
  map (fun D => text_of D (gs_ofile (snd (sys_2 WDone)))) [20000; 20001] =
  map (fun id => order_header ++ [NL] ++ lit "093000.000000," ++ lit id ++ lit ",UM0,8888,600000.SH,1,100,DMA,AT,0,10.5,10.5" ++ [NL]) ["1"; "2"]%string.
Proof.
  split; [|vm_compute; reflexivity].
  apply (sys_claim (fun e => ge_write e = WDone) WDone); try reflexivity. apply C82_one_per_instant_partial. auto.
Qed.
