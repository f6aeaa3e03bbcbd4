(** C151: functions scheduled for a moment shortly ahead. *)
From Coq Require Import Permutation Sorted String.
From Verif Require Import PyBase PyStr MTime MTimeExpr MEventSource MQueue MLoop MSched MBus MStrategy SEvent SExpr SStrategy LEventSource LEventSource2
  LTimeExpr LLoop LSched LSched2 LLive LStrategy LStrategy2 MProcess SProcess LProcess LProcess2 SEnd LEnd LRestart LHist LHist2 LWhen TProcess TProcess2 TEnd THist TRest MSoon.
Open Scope list_scope.
Open Scope Z_scope.

(** ** what is meant *)
(** the moment asked for: the whole second at or before the clock plus the delay *)
Definition moment (c dt : Z) : Z := (c + dt) / US * US.
(** the first instant from [nk] on at the time of day of [g] *)
Definition first_from (nk g x : Z) : Prop := nk <= x < nk + DAY /\ (x - g) mod DAY = 0.

(** ** the instants owed *)
Lemma single_day nk o d l : Permutation l (filter (fun t => nk <=? t) (map (fun o => d * DAY + o) [o])) -> l = filter (fun t => nk <=? t) [d * DAY + o].
Proof.
  cbn [map filter]. destruct (nk <=? d * DAY + o); intro HP.
  - apply Permutation_sym, Permutation_length_1_inv in HP. exact HP.
  - apply Permutation_sym, Permutation_nil in HP. exact HP.
Qed.
Lemma single_owed nk o lo n S : owed_on nk [o] lo (lo + n - 1) S -> S = filter (fun t => nk <=? t) (map (fun d => d * DAY + o) (day_range lo n)).
Proof.
  intros (days & ls & Hc & HF & ->).
  pose proof (day_range_consecutive lo (lo + n - 1)) as Hr. replace (lo + n - 1 - lo + 1) with n in Hr by lia.
  rewrite (consecutive_unique _ _ _ _ Hr Hc). clear Hr Hc. induction HF as [|d l days ls [HP _] HF IH]; [reflexivity|].
  cbn [concat map]. rewrite (single_day nk o d l HP), IH. cbn [filter]. destruct (nk <=? d * DAY + o); reflexivity.
Qed.
Lemma days_after D nk o : 0 < D -> forall m lo, nk <= lo * D + o ->
  filter (fun t => nk <=? t) (map (fun d => d * D + o) (map (fun k => lo + Z.of_nat k) (seq 0 m))) = map (fun i => lo * D + o + Z.of_nat i * D) (seq 0 m).
Proof.
  intros HD m lo H. rewrite map_map. induction (seq 0 m) as [|i l IH]; [reflexivity|]. cbn [map filter]. rewrite IH.
  destruct (Z.leb_spec nk ((lo + Z.of_nat i) * D + o)) as [_|N]; [f_equal; lia|]. exfalso. nia.
Qed.
Lemma soon_owed nk g o lo n x S : 2 <= n -> lo = dt_date nk -> o = dt_time g -> first_from nk g x -> owed_on nk [o] lo (lo + n - 1) S ->
  exists m, (Z.to_nat n - 1 <= m)%nat /\ S = map (fun i => x + Z.of_nat i * DAY) (seq 0 m).
Proof.
  intros Hn -> -> [Hx Hm] HS. rewrite (single_owed _ _ _ _ _ HS). unfold day_range.
  pose proof (Z.div_mod nk DAY ltac:(discriminate)) as Dk. pose proof (Z.mod_pos_bound nk DAY ltac:(reflexivity)) as Bk.
  pose proof (Z.div_mod g DAY ltac:(discriminate)) as Dg. pose proof (Z.mod_pos_bound g DAY ltac:(reflexivity)) as Bg.
  apply Z.mod_divide in Hm; [|discriminate]. destruct Hm as [q Hq].
  unfold dt_date, dt_time in *. set (a := nk / DAY) in *. set (b := g / DAY) in *. set (t := g mod DAY) in *. set (r := nk mod DAY) in *.
  assert (HD : 0 < DAY) by reflexivity. clearbody a b t r. set (D := DAY) in *. clearbody D.
  destruct (Z_le_gt_dec nk (a * D + t)) as [H|H].
  - rewrite days_after by assumption. exists (Z.to_nat n). split; [lia|]. assert (x = a * D + t) as ->; [|reflexivity].
    assert (x = (b + q) * D + t) by lia. assert (b + q = a) by nia. subst x. congruence.
  - destruct (Z.to_nat n) as [|m] eqn:En; [lia|]. exists m. split; [lia|]. cbn [seq map]. rewrite <- seq_shift, !map_map. cbn [filter].
    destruct (Z.leb_spec nk ((a + Z.of_nat 0) * D + t)) as [N|_]; [lia|].
    pose proof (days_after D nk t HD m (a + 1)) as X. rewrite map_map in X.
    assert (x = (b + q) * D + t) by lia. assert (Eq : b + q = a + 1) by nia. subst x. rewrite Eq.
    etransitivity; [|apply X; nia]. f_equal. apply map_ext. intro i. lia.
Qed.
Lemma whole_tod x : dt_time x / US * US = dt_time (x / US * US).
Proof.
  unfold dt_time. change DAY with (86400 * US). assert (HU : 0 < US) by reflexivity. set (U := US) in *. clearbody U.
  pose proof (Z.div_mod x (86400 * U) ltac:(lia)) as E. pose proof (Z.mod_pos_bound x (86400 * U) ltac:(lia)) as B.
  set (q := x / (86400 * U)) in *. set (r := x mod (86400 * U)) in *. clearbody q r.
  pose proof (Z.div_mod r U ltac:(lia)) as Er. pose proof (Z.mod_pos_bound r U ltac:(lia)) as Br. set (v := r / U) in *. clearbody v.
  assert (Ex : x / U = 86400 * q + v). { symmetry. apply (Z.div_unique x U _ (r mod U)); [lia|]. lia. }
  rewrite Ex. apply (Z.mod_unique _ _ q); [|ring]. left. set (w := r mod U) in *. clearbody w. assert (0 <= v) by nia. assert (v * U = r - w) by nia. nia.
Qed.
Lemma soon_owes ps c dt : ps <> [] -> owes ps (soon c dt) [dt_time (moment c dt)].
Proof.
  intro H. apply owes_text. apply (means_iff ps _ _ H). unfold soon, moment. rewrite offset_fmt, whole_tod. reflexivity.
Qed.
Lemma moment_bounds c dt : moment c dt <= c + dt < moment c dt + US.
Proof.
  unfold moment. pose proof (Z.div_mod (c + dt) US ltac:(discriminate)). pose proof (Z.mod_pos_bound (c + dt) US ltac:(reflexivity)). lia.
Qed.

(** ** C151 *)
(** The i-th call of a function scheduled this way is for the i-th day from the first moment,
    after its event source was set up, at the time of day asked for. *)
Theorem C151_calls :
  forall fuel cfg sc tz st now calls ns dates s4 s ps,
    runs fuel cfg sc tz st None now calls ns dates s4 s ->
    cf_hist cfg = false ->
    market_period sc s4 = raw_of ps -> Forall (fun p => tod_ok (fst p) /\ tod_ok (snd p)) ps ->
    Forall (fun p => fst p mod US = 0 /\ snd p mod US = 0) ps -> ps <> [] ->
    (1441 <= fuel)%nat -> (Z.to_nat (cf_count cfg) < fuel)%nat -> 2 <= cf_count cfg ->
    forall k n id c dt x,
      nth_error (asked calls) k = Some (n, id, soon c dt) ->
      nth_error dates (List.length (st_srcs s4) - List.length (asked calls) + k) = Some (dt_date (now k)) ->
      dget n (st_ns s4) = Some (OUser id) -> first_from (now k) (moment c dt) x ->
      forall i y, nth_error (calls_of k (invoked s4 (l_w s))) i = Some y -> Z.of_nat i < cf_count cfg - 1 ->
        y = (x + Z.of_nat i * DAY, Some (OUser id)).
Proof.
  intros fuel cfg sc tz st now calls ns dates s4 s ps Hr Hh Hmp Hps Hw Hne Hf Hf2 Hc k n id c dt x Hk Hd Hg Hx i y Hy Hi.
  destruct (owed_exists (now k) [dt_time (moment c dt)] (dt_date (now k)) (cf_count cfg)) as [S HS].
  destruct (C58_calls_are_owed fuel cfg sc tz st now calls ns dates s4 s ps Hr Hh Hmp Hps Hw Hne Hf Hf2 k n id _ _ _ S Hk (soon_owes ps c dt Hne) Hd HS Hg) as [Ha HF].
  destruct (soon_owed _ (moment c dt) _ _ _ x S Hc eq_refl eq_refl Hx HS) as (m & Hm & ES).
  assert (Hin : In y (calls_of k (invoked s4 (l_w s)))) by (eapply nth_error_In; exact Hy).
  rewrite Forall_forall in HF. specialize (HF _ Hin). apply (map_nth_error fst) in Hy. destruct y as [u o]. cbn [fst snd] in *. subst o. f_equal.
  assert (Hs : nth_error S i = Some (x + Z.of_nat i * DAY)).
  { rewrite ES. rewrite nth_error_map. rewrite (nth_error_nth' (seq 0 m) 0%nat) by (rewrite seq_length; lia). rewrite seq_nth by lia. reflexivity. }
  destruct Ha as [t [Ha|Ha]].
  - rewrite Ha, nth_error_app1 in Hs by (apply nth_error_Some; congruence). congruence.
  - rewrite Ha, nth_error_app1 in Hy by (apply nth_error_Some; congruence). congruence.
Qed.
Print Assumptions C151_calls.

(** If the event source is set up in time the first call is for the moment asked for ... *)
Theorem C151_soon :
  forall fuel cfg sc tz st now calls ns dates s4 s ps,
    runs fuel cfg sc tz st None now calls ns dates s4 s ->
    cf_hist cfg = false ->
    market_period sc s4 = raw_of ps -> Forall (fun p => tod_ok (fst p) /\ tod_ok (snd p)) ps ->
    Forall (fun p => fst p mod US = 0 /\ snd p mod US = 0) ps -> ps <> [] ->
    (1441 <= fuel)%nat -> (Z.to_nat (cf_count cfg) < fuel)%nat -> 2 <= cf_count cfg ->
    forall k n id c dt,
      nth_error (asked calls) k = Some (n, id, soon c dt) ->
      nth_error dates (List.length (st_srcs s4) - List.length (asked calls) + k) = Some (dt_date (now k)) ->
      dget n (st_ns s4) = Some (OUser id) -> 0 <= dt < DAY -> c <= now k <= moment c dt ->
      forall y rest, calls_of k (invoked s4 (l_w s)) = y :: rest -> y = (moment c dt, Some (OUser id)).
Proof.
  intros fuel cfg sc tz st now calls ns dates s4 s ps Hr Hh Hmp Hps Hw Hne Hf Hf2 Hc k n id c dt Hk Hd Hg Hdt Hx y rest Hy.
  pose proof (moment_bounds c dt) as B.
  rewrite (C151_calls fuel cfg sc tz st now calls ns dates s4 s ps Hr Hh Hmp Hps Hw Hne Hf Hf2 Hc k n id c dt (moment c dt) Hk Hd Hg) with (i := 0%nat) (y := y).
  - f_equal. lia.
  - split; [lia|]. replace (moment c dt - moment c dt) with 0 by lia. reflexivity.
  - rewrite Hy. reflexivity.
  - lia.
Qed.
Print Assumptions C151_soon.

(** ... and if it is set up later than that, it is for the same time of the following day. *)
Theorem C151_late :
  forall fuel cfg sc tz st now calls ns dates s4 s ps,
    runs fuel cfg sc tz st None now calls ns dates s4 s ->
    cf_hist cfg = false ->
    market_period sc s4 = raw_of ps -> Forall (fun p => tod_ok (fst p) /\ tod_ok (snd p)) ps ->
    Forall (fun p => fst p mod US = 0 /\ snd p mod US = 0) ps -> ps <> [] ->
    (1441 <= fuel)%nat -> (Z.to_nat (cf_count cfg) < fuel)%nat -> 2 <= cf_count cfg ->
    forall k n id c dt,
      nth_error (asked calls) k = Some (n, id, soon c dt) ->
      nth_error dates (List.length (st_srcs s4) - List.length (asked calls) + k) = Some (dt_date (now k)) ->
      dget n (st_ns s4) = Some (OUser id) -> moment c dt < now k <= moment c dt + DAY ->
      forall y rest, calls_of k (invoked s4 (l_w s)) = y :: rest -> y = (moment c dt + DAY, Some (OUser id)).
Proof.
  intros fuel cfg sc tz st now calls ns dates s4 s ps Hr Hh Hmp Hps Hw Hne Hf Hf2 Hc k n id c dt Hk Hd Hg Hx y rest Hy.
  rewrite (C151_calls fuel cfg sc tz st now calls ns dates s4 s ps Hr Hh Hmp Hps Hw Hne Hf Hf2 Hc k n id c dt (moment c dt + DAY) Hk Hd Hg) with (i := 0%nat) (y := y).
  - f_equal. lia.
  - split; [lia|]. replace (moment c dt + DAY - moment c dt) with DAY by lia. reflexivity.
  - rewrite Hy. reflexivity.
  - lia.
Qed.
Print Assumptions C151_late.

(** At every sleep the function has been called for exactly the days whose moment has come. *)
Theorem C151_at_rest :
  forall fuel cfg sc tz st now calls ns dates s4 s0 s ls ps,
    start fuel cfg sc tz st None now calls ns dates = Some (s4, s0) -> List.length dates = List.length (st_srcs s4) ->
    Forall ok_label ls -> l_exec (sched_handler fuel (loop_cfg cfg sc s4) tz) s0 ls = Some s ->
    cf_hist cfg = false -> 8 <= cf_count cfg -> (1441 <= fuel)%nat -> (3 * Z.to_nat (cf_count cfg) < fuel)%nat -> tz mod US = 0 ->
    market_period sc s4 = raw_of ps -> Forall (fun p => tod_ok (fst p) /\ tod_ok (snd p)) ps ->
    Forall (fun p => fst p mod US = 0 /\ snd p mod US = 0) ps -> ps <> [] ->
    Forall (not_before (starts false st now (List.length (asked calls)))) ls ->
    forall clock ex s' m,
      l_step (sched_handler fuel (loop_cfg cfg sc s4) tz) s (LTurn clock ex) = Some s' -> l_mode s' = Arming m ->
      Forall (fun mc => snd mc <= clock) (l_log s) ->
      forall k n id c dt x j,
        nth_error (asked calls) k = Some (n, id, soon c dt) -> dget n (st_ns s4) = Some (OUser id) ->
        nth_error dates (List.length (st_srcs s4) - List.length (asked calls) + k) = Some (dt_date (now k)) ->
        first_from (now k) (moment c dt) x -> Z.of_nat j < cf_count cfg - 1 ->
        x + Z.of_nat j * DAY - DAY <= clock * 1000 + tz < x + Z.of_nat j * DAY ->
        calls_of k (invoked s4 (l_w s)) = map (fun i => (x + Z.of_nat i * DAY, Some (OUser id))) (seq 0 j).
Proof.
  intros fuel cfg sc tz st now calls ns dates s4 s0 s ls ps Hs Hl Hok Hx Hh Hc Hf Hf3 Htz Hmp Hps Hw Hne Hn clock ex s' m Hst Hm Hlog k n id c dt x j Hk Hg Hd Hfx Hj Hcl.
  destruct (owed_exists (now k) [dt_time (moment c dt)] (dt_date (now k)) (cf_count cfg)) as [S HS].
  destruct (soon_owed _ (moment c dt) _ _ _ x S (Z.le_trans 2 8 _ ltac:(discriminate) Hc) eq_refl eq_refl Hfx HS) as (N & HN & ES).
  assert (Hjn : (j < N)%nat) by lia.
  rewrite (C137_at_rest fuel cfg sc tz st now calls ns dates s4 s0 s ls ps Hs Hl Hok Hx Hh Hc Hf Hf3 Htz Hmp Hps Hw Hne Hn clock ex s' m Hst Hm Hlog
    k n id (soon c dt) [dt_time (moment c dt)] _ S Hk (soon_owes ps c dt Hne) Hg Hd HS).
  - rewrite ES. clear - Hcl Hjn. rewrite <- (map_map (fun i => x + Z.of_nat i * DAY) (fun y => (y, Some (OUser id)))). f_equal.
    replace N with (j + (N - j))%nat by lia. rewrite seq_app, map_app, filter_app. cbn [Nat.add].
    set (T := clock * 1000 + tz) in *. clearbody T. assert (HD : 0 < DAY) by reflexivity. set (D := DAY) in *. clearbody D.
    assert (X : forall l, (forall i, In i l -> (i < j)%nat) -> filter (fun y => y <=? T) (map (fun i => x + Z.of_nat i * D) l) = map (fun i => x + Z.of_nat i * D) l).
    { induction l as [|i l IH]; intro H; [reflexivity|]. cbn [map filter]. rewrite IH by (intros; apply H; right; assumption).
      destruct (Z.leb_spec (x + Z.of_nat i * D) T) as [_|Q]; [reflexivity|]. exfalso. pose proof (H i (or_introl eq_refl)). nia. }
    assert (Y : forall l, (forall i, In i l -> (j <= i)%nat) -> filter (fun y => y <=? T) (map (fun i => x + Z.of_nat i * D) l) = []).
    { induction l as [|i l IH]; intro H; [reflexivity|]. cbn [map filter]. rewrite IH by (intros; apply H; right; assumption).
      destruct (Z.leb_spec (x + Z.of_nat i * D) T) as [Q|_]; [|reflexivity]. exfalso. pose proof (H i (or_introl eq_refl)). nia. }
    rewrite X, Y, app_nil_r; [reflexivity| |]; intros i Hi; apply in_seq in Hi; lia.
  - exists (x + Z.of_nat j * DAY). split; [|lia]. rewrite ES. apply in_map_iff. exists j. split; [reflexivity|]. apply in_seq. lia.
Qed.
Print Assumptions C151_at_rest.

(** ** demo_order_minute.py *)
Lemma asked_minute ord can no nc c : f_name ord = Some no -> f_callable ord = true -> f_name can = Some nc -> f_callable can = true ->
  forall m, asked (minute_calls m ord can c) =
    flat_map (fun i => [(no, f_id ord, soon c (Z.of_nat i * 60 * US)); (nc, f_id can, soon c (Z.of_nat i * 60 * US + 30 * US))]) (seq 0 m).
Proof.
  intros E1 E2 E3 E4 m. unfold minute_calls. induction (seq 0 m) as [|i l IH]; [reflexivity|]. cbn [flat_map app asked]. fold (asked (flat_map (fun i => [URun ord (soon c (Z.of_nat i * 60 * US)); URun can (soon c (Z.of_nat i * 60 * US + 30 * US))]) l)).
  rewrite E1, E2, E3, E4, IH. reflexivity.
Qed.
Lemma nth_pairs {A} (f g : nat -> A) : forall m b i, (i < m)%nat ->
  nth_error (flat_map (fun i => [f i; g i]) (seq b m)) (2 * i) = Some (f (b + i)%nat) /\
  nth_error (flat_map (fun i => [f i; g i]) (seq b m)) (2 * i + 1) = Some (g (b + i)%nat).
Proof.
  induction m as [|m IH]; intros b i H; [lia|]. cbn [seq flat_map app]. destruct i as [|i].
  - rewrite Nat.add_0_r. split; reflexivity.
  - replace (2 * S i)%nat with (S (S (2 * i))) by lia. cbn [nth_error Nat.add]. replace (b + S i)%nat with (S b + i)%nat by lia. apply IH. lia.
Qed.
Lemma asked_app a b : asked (a ++ b) = asked a ++ asked b.
Proof. apply flat_map_app. Qed.

(** The example asks for twenty orders, a minute apart from now on, each to be cancelled half a
    minute later.  Its first order is placed a day late, unless the clock showed a whole
    second and had not moved when the event source was set up; all others, and all cancels, are
    on time if the set-up is. *)
Theorem C151_minute :
  forall fuel cfg sc tz st now pre ns dates s4 s ps m ord can no nc c,
    runs fuel cfg sc tz st None now (pre ++ minute_calls m ord can c) ns dates s4 s ->
    cf_hist cfg = false ->
    market_period sc s4 = raw_of ps -> Forall (fun p => tod_ok (fst p) /\ tod_ok (snd p)) ps ->
    Forall (fun p => fst p mod US = 0 /\ snd p mod US = 0) ps -> ps <> [] ->
    (1441 <= fuel)%nat -> (Z.to_nat (cf_count cfg) < fuel)%nat -> 2 <= cf_count cfg ->
    asked pre = [] -> f_name ord = Some no -> f_callable ord = true -> f_name can = Some nc -> f_callable can = true ->
    dget no (st_ns s4) = Some (OUser (f_id ord)) -> dget nc (st_ns s4) = Some (OUser (f_id can)) ->
    (forall k, (k < 2 * m)%nat ->
       c <= now k /\ nth_error dates (List.length (st_srcs s4) - List.length (asked (pre ++ minute_calls m ord can c)) + k) = Some (dt_date (now k))) ->
    (m <= 1439)%nat ->
    (forall y rest, (0 < m)%nat -> moment c 0 < now 0%nat <= moment c 0 + DAY -> calls_of 0 (invoked s4 (l_w s)) = y :: rest -> y = (moment c 0 + DAY, Some (OUser (f_id ord)))) /\
    (forall i y rest, (i < m)%nat -> now (2 * i)%nat <= moment c (Z.of_nat i * 60 * US) ->
       calls_of (2 * i) (invoked s4 (l_w s)) = y :: rest -> y = (moment c (Z.of_nat i * 60 * US), Some (OUser (f_id ord)))) /\
    (forall i y rest, (i < m)%nat -> now (2 * i + 1)%nat <= moment c (Z.of_nat i * 60 * US + 30 * US) ->
       calls_of (2 * i + 1) (invoked s4 (l_w s)) = y :: rest -> y = (moment c (Z.of_nat i * 60 * US + 30 * US), Some (OUser (f_id can)))).
Proof.
  intros fuel cfg sc tz st now pre ns dates s4 s ps m ord can no nc c Hr Hh Hmp Hps Hw Hne Hf Hf2 Hc Hpre E1 E2 E3 E4 G1 G2 Hn Hm.
  assert (Ea : asked (pre ++ minute_calls m ord can c) = flat_map (fun i => [(no, f_id ord, soon c (Z.of_nat i * 60 * US)); (nc, f_id can, soon c (Z.of_nat i * 60 * US + 30 * US))]) (seq 0 m)).
  { rewrite asked_app, Hpre. cbn [app]. apply asked_minute; assumption. }
  assert (Hnth : forall i, (i < m)%nat -> nth_error (asked (pre ++ minute_calls m ord can c)) (2 * i) = Some (no, f_id ord, soon c (Z.of_nat i * 60 * US)) /\
      nth_error (asked (pre ++ minute_calls m ord can c)) (2 * i + 1) = Some (nc, f_id can, soon c (Z.of_nat i * 60 * US + 30 * US))).
  { intros i Hi. rewrite Ea. exact (nth_pairs (fun i => (no, f_id ord, soon c (Z.of_nat i * 60 * US))) (fun i => (nc, f_id can, soon c (Z.of_nat i * 60 * US + 30 * US))) m 0 i Hi). }
  clear Ea. split; [|split].
  - intros y rest H0 Hx Hy. destruct (Hn 0%nat ltac:(lia)) as [_ Hd].
    refine (C151_late fuel cfg sc tz st now _ ns dates s4 s ps Hr Hh Hmp Hps Hw Hne Hf Hf2 Hc 0%nat no (f_id ord) c 0 _ Hd G1 Hx y rest Hy).
    exact (proj1 (Hnth 0%nat H0)).
  - intros i y rest Hi Hx Hy. destruct (Hn (2 * i)%nat ltac:(lia)) as [Hcn Hd].
    refine (C151_soon fuel cfg sc tz st now _ ns dates s4 s ps Hr Hh Hmp Hps Hw Hne Hf Hf2 Hc (2 * i)%nat no (f_id ord) c _ (proj1 (Hnth i Hi)) Hd G1 _ (conj Hcn Hx) y rest Hy).
    unfold DAY, US in *. lia.
  - intros i y rest Hi Hx Hy. destruct (Hn (2 * i + 1)%nat ltac:(lia)) as [Hcn Hd].
    refine (C151_soon fuel cfg sc tz st now _ ns dates s4 s ps Hr Hh Hmp Hps Hw Hne Hf Hf2 Hc (2 * i + 1)%nat nc (f_id can) c _ (proj2 (Hnth i Hi)) Hd G2 _ (conj Hcn Hx) y rest Hy).
    unfold DAY, US in *. lia.
Qed.
Print Assumptions C151_minute.

(** ** the examples mean: what is scheduled for a few seconds ahead is called then *)
Definition soon_called : Prop :=
  forall fuel cfg sc tz st now calls ns dates s4 s,
    runs fuel cfg sc tz st None now calls ns dates s4 s -> cf_hist cfg = false ->
    forall clock s' m,
      l_step (sched_handler fuel (loop_cfg cfg sc s4) tz) s (LTurn clock false) = Some s' -> l_mode s' = Arming m ->
      forall k n id c dt, nth_error (asked calls) k = Some (n, id, soon c dt) -> 5 * US <= dt -> c <= now k -> moment c dt <= clock * 1000 + tz ->
        In (moment c dt) (map fst (calls_of k (invoked s4 (l_w s)))).
(** a process that calls run_daily at 9:29:30.5 for five seconds ahead, for a minute ahead and
    for now; an account sync takes six seconds before the event sources are set up *)
Definition so_c : Z := 20000 * DAY + 34170500000.
Definition so_calls : list ucall :=
  [URun (Fn 1 (Some (lit "f")) true) (soon so_c (5 * US)); URun (Fn 2 (Some (lit "g")) true) (soon so_c (60 * US));
   URun (Fn 3 (Some (lit "h")) true) (soon so_c 0)].
Definition so_now (k : nat) : Z := so_c + 6 * US + Z.of_nat k.
Definition so_labels : list (label scb sout) := [LAsync; LTurn (demo_ms 34231) false; demo_done].
Notation so_start := (start 1500 cfg_default scfg_default demo_tz 0 None so_now so_calls demo_ns [20000; 20000; 20000]).
Definition so_state : option (strat * lstate scb sworld) :=
  match so_start with
  | Some (s4, s0) => option_map (fun s => (s4, s)) (l_exec (sched_handler 1500 (loop_cfg cfg_default scfg_default s4) demo_tz) s0 so_labels)
  | None => None
  end.
Definition so_sleeps (s4 : strat) (s : lstate scb sworld) : bool :=
  match l_step (sched_handler 1500 (loop_cfg cfg_default scfg_default s4) demo_tz) s (LTurn (demo_ms 34231) false) with
  | Some s' => match l_mode s' with Arming _ => true | _ => false end
  | None => false
  end.
Example C151_demo :
  option_map (fun x => let '(s4, s) := x in
    (List.length (st_srcs s4), map (fun k => calls_of k (invoked s4 (l_w s))) [0; 1; 2]%nat, so_sleeps s4 s)) so_state =
  Some (3%nat, [[]; [(20000 * DAY + 34230 * US, Some (OUser 2))]; []], true) /\
  map (fun dt => moment so_c dt) [5 * US; 60 * US; 0] = map (fun s => 20000 * DAY + s * US) [34175; 34230; 34170] /\
  soon so_c (60 * US) = lit "09:30:30".
Proof. vm_compute. repeat split. Qed.
Lemma so_runs : exists s4 s, so_state = Some (s4, s) /\ runs 1500 cfg_default scfg_default demo_tz 0 None so_now so_calls demo_ns [20000; 20000; 20000] s4 s.
Proof.
  assert (G : forall st : option (strat * lstate scb sworld), st = so_start ->
    match st with Some (s4, s0) => option_map (fun s => (s4, s)) (l_exec (sched_handler 1500 (loop_cfg cfg_default scfg_default s4) demo_tz) s0 so_labels) | None => None end = so_state).
  { intros st ->. unfold so_state. reflexivity. }
  assert (G0 : option_map (fun x => List.length (st_srcs (fst x))) so_state = Some 3%nat) by (vm_compute; reflexivity).
  remember so_start as st eqn:E0. specialize (G st eq_refl). rewrite <- G in G0. revert G G0. generalize so_state. intros ds G G0.
  destruct st as [[s4 s0]|]; [|discriminate G0].
  destruct (l_exec (sched_handler 1500 (loop_cfg cfg_default scfg_default s4) demo_tz) s0 so_labels) as [s|] eqn:E1; [|discriminate G0].
  cbn [option_map fst] in G, G0. exists s4, s. split; [symmetry; exact G|]. exists s0, so_labels. split; [symmetry; exact E0|].
  split; [injection G0 as ->; reflexivity|]. split; [repeat constructor|exact E1].
Qed.
(** False: the set-up of the event sources comes after all of process_initialize, and a moment
    that has passed by then waits for the next day. *)
Theorem C151_soon_called_refuted : ~ soon_called.
Proof.
  intro H. destruct so_runs as (s4 & s & Es & Hr).
  assert (X : option_map (fun x => let '(s4, s) := x in (calls_of 0 (invoked s4 (l_w s)), so_sleeps s4 s)) so_state = Some ([], true)) by (vm_compute; reflexivity).
  rewrite Es in X. cbn [option_map] in X. injection X as Xc Xs. unfold so_sleeps in Xs.
  destruct (l_step (sched_handler 1500 (loop_cfg cfg_default scfg_default s4) demo_tz) s (LTurn (demo_ms 34231) false)) as [s'|] eqn:Est; [|discriminate Xs].
  destruct (l_mode s') as [| | m | |] eqn:Em; try discriminate Xs.
  pose proof (H _ _ _ _ _ _ _ _ _ _ _ Hr eq_refl _ _ _ Est Em 0%nat (lit "f") 1%nat so_c (5 * US) eq_refl) as K.
  rewrite Xc in K. apply K; vm_compute; discriminate.
Qed.
Print Assumptions C151_soon_called_refuted.
(** two minutes of demo_order_minute from 9:29:30.5 on, at 9:30:31: the first order has not been
    placed, the first cancel and the second order have been *)
Definition mi_calls : list ucall := minute_calls 2 (Fn 1 (Some (lit "f")) true) (Fn 2 (Some (lit "g")) true) so_c.
Definition mi_now (k : nat) : Z := so_c + 100 + Z.of_nat k.
Example C151_minute_demo :
  option_map (fun x => let '(s4, s0) := x in
    option_map (fun s => map (fun k => map fst (calls_of k (invoked s4 (l_w s)))) [0; 1; 2; 3]%nat)
      (l_exec (sched_handler 1500 (loop_cfg cfg_default scfg_default s4) demo_tz) s0
         [LAsync; LTurn (demo_ms 34200) false; demo_done; LTurn (demo_ms 34200) false; LArm; LTimer; LTurn (demo_ms 34231) false; demo_done]))
    (start 1500 cfg_default scfg_default demo_tz 0 None mi_now mi_calls demo_ns [20000; 20000; 20000; 20000]) =
  Some (Some [[]; [20000 * DAY + 34200 * US]; [20000 * DAY + 34230 * US]; []]) /\
  asked mi_calls = [(lit "f", 1%nat, lit "09:29:30"); (lit "g", 2%nat, lit "09:30:00"); (lit "f", 1%nat, lit "09:30:30"); (lit "g", 2%nat, lit "09:31:00")].
Proof. vm_compute. split; reflexivity. Qed.
Example C151_demo_hyp :
  first_from (so_now 0) (moment so_c (5 * US)) (moment so_c (5 * US) + DAY) /\ first_from (so_now 1) (moment so_c (60 * US)) (moment so_c (60 * US)) /\
  so_c <= so_now 1 <= moment so_c (60 * US) /\ moment so_c (5 * US) < so_now 0 <= moment so_c (5 * US) + DAY /\
  moment so_c 0 < mi_now 0 <= moment so_c 0 + DAY /\ 2 <= cf_count cfg_default.
Proof. repeat split; vm_compute; congruence. Qed.
