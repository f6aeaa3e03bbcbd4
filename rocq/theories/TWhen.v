(** C126: which time texts a schedule takes, and what they mean. *)
From Coq Require Import Permutation Sorted.
From Verif Require Import PyBase PyStr MTime MTimeExpr MEventSource MQueue MLoop MSched MBus MStrategy MProcess
  SEvent SExpr SWhen SStrategy SProcess STimes LStr LEventSource LEventSource2 LTimeExpr LWhen LStrategy LSched LSched2 LSched3 LLive LProcess TTimes.
Open Scope list_scope.
Open Scope Z_scope.

(** what int() takes, and the number it is *)
Theorem C126_int : forall s v, py_int s = Some v <-> int_text s v.
Proof. exact py_int_iff. Qed.
Print Assumptions C126_int.

(** a schedule takes a text for an instant exactly if that is what the text means *)
Theorem C126_exact :
  forall ps t v, ps <> [] -> (expr_offset ps t = Ok v <-> means (opening ps) (closing ps) t v).
Proof. exact means_iff. Qed.
Print Assumptions C126_exact.

(** a text means one instant at most *)
Theorem C126_one : forall opn cls t v w, means opn cls t v -> means opn cls t w -> v = w.
Proof.
  intros opn cls t v w Hv Hw.
  pose proof (proj2 (means_iff [(opn, cls)] t v ltac:(discriminate)) Hv) as Ev.
  pose proof (proj2 (means_iff [(opn, cls)] t w ltac:(discriminate)) Hw) as Ew.
  rewrite Ev in Ew. apply Ok_inj in Ew. exact Ew.
Qed.
Print Assumptions C126_one.

(** Any other text is refused: with a ':' in it as a bad value; without, as a bad
    parameter, except that a well-formed offset from an unknown base is a missing key. *)
Theorem C126_else :
  forall ps t, ps <> [] -> (forall v, ~ means (opening ps) (closing ps) t v) ->
    (In 58%N t -> expr_offset ps t = Err ValueError) /\
    (no_colon t ->
       (expr_offset ps t = Err KeyError /\
        exists b gs (plus : bool) nl, no_pm b /\ offset_wf gs /\ (nl = [] \/ nl = [10%N]) /\ t = b ++ lit (if plus then "+" else "-") ++ offset_text gs ++ nl) \/
       (expr_offset ps t = Err InvalidParam /\
        forall b gs (plus : bool) nl, no_pm b -> offset_wf gs -> nl = [] \/ nl = [10%N] -> t <> b ++ lit (if plus then "+" else "-") ++ offset_text gs ++ nl)).
Proof.
  intros ps t Hp Hno.
  assert (Hx : exists x, expr_offset ps t = Err x).
  { destruct (expr_offset ps t) as [v|x] eqn:E; [|eauto]. apply means_iff in E; [|exact Hp]. destruct (Hno v E). }
  destruct Hx as (x & Hx). split.
  - intros Hc. rewrite Hx. f_equal. unfold expr_offset in Hx. destruct (has_char 58%N t) eqn:E; [|apply colon_iff in E; contradiction].
    unfold clock_time, mk_time in Hx. destruct (split_on 58%N t) as [|h [|m r]]; try congruence.
    destruct (py_int h), (py_int m), (match r with [] => Some 0 | s :: _ => py_int s end); try congruence.
    destruct (_ && _); congruence.
  - intros Hc. apply colon_iff in Hc. unfold expr_offset in *. rewrite Hc in *. destruct ps as [|p0 ps]; [congruence|].
    assert (Hsp : forall b gs (plus : bool) nl, no_pm b -> offset_wf gs -> nl = [] \/ nl = [10%N] ->
      re_split_pm (b ++ lit (if plus then "+" else "-") ++ offset_text gs ++ nl) = [b; lit (if plus then "+" else "-"); offset_text gs ++ nl]).
    { intros b gs plus nl Hb Hg Hn. assert (Hn' : no_pm (offset_text gs ++ nl)) by (apply Forall_app; split; [apply offset_no_pm, Hg|apply tail_no_pm, Hn]).
      destruct plus; apply re_split_pm_one; auto. }
    unfold expr_to_time, parse_expr in *. destruct (re_split_pm t) as [|a [|c [|b [|y l]]]] eqn:E.
    + right. split; [reflexivity|]. intros b gs plus nl Hb Hg Hn ->. rewrite Hsp in E by assumption. discriminate.
    + destruct (allowed_base a) eqn:Ea.
      * exfalso. cbn [rbind] in Hx. unfold allowed_base in Ea. destruct (str_eqb a (lit "open")); [discriminate|]. cbn [orb] in Ea. rewrite Ea in Hx. discriminate.
      * right. split; [reflexivity|]. intros b gs plus nl Hb Hg Hn ->. rewrite Hsp in E by assumption. discriminate.
    + right. split; [reflexivity|]. intros b gs plus nl Hb Hg Hn ->. rewrite Hsp in E by assumption. discriminate.
    + destruct (parse_offset b) as [o|z] eqn:Eo.
      * left. cbn [rbind] in *. destruct (str_eqb a (lit "open")); [discriminate|]. destruct (str_eqb a (lit "close")); [discriminate|]. split; [reflexivity|].
        destruct (re_split_pm_inv3 _ _ _ _ E) as (c0 & -> & Hc0 & -> & Ha & Hb). destruct (parse_offset_inv _ _ Eo) as (gs & nl & Hg & Hn & -> & _).
        unfold is_pm in Hc0. apply orb_true_iff in Hc0. destruct Hc0 as [Hc0|Hc0]; apply N.eqb_eq in Hc0; subst c0.
        -- exists a, gs, true, nl. auto.
        -- exists a, gs, false, nl. auto.
      * right. cbn [rbind]. apply parse_offset_err in Eo as Ez. subst z. split; [reflexivity|]. intros b' gs plus nl Hb Hg Hn ->. rewrite Hsp in E by assumption.
        assert (Eb : b = offset_text gs ++ nl) by congruence. subst b. rewrite (parse_offset_ok gs nl Hg Hn) in Eo. discriminate.
    + right. split; [reflexivity|]. intros b' gs plus nl Hb Hg Hn ->. rewrite Hsp in E by assumption. discriminate.
Qed.
Print Assumptions C126_else.

(** ** started tasks *)
Lemma gen_loop_empty cfg today : cf_hist cfg = false -> 0 < cf_count cfg -> forall fuel es es2,
  es_daily es = [] -> es_events es = [] -> es_end es = None -> gen_loop fuel cfg today es <> GOk es2.
Proof.
  intros Hh Hc. induction fuel as [|f IH]; intros es es2 H1 H2 H3; cbn [gen_loop]; [discriminate|]. rewrite H2.
  destruct (es_days es) as [|d ds] eqn:Ed.
  - unfold get_days. rewrite Hh, H3. cbn [orb].
    destruct (day_range today (cf_count cfg)) as [|d ds] eqn:Er; [apply (f_equal (@length Z)) in Er; rewrite day_range_length in Er; cbn in Er; lia|].
    rewrite H1. cbn [add_daily_events]. apply IH; assumption || reflexivity.
  - rewrite H1. cbn [add_daily_events]. apply IH; assumption || reflexivity.
Qed.

Lemma peek_empty fuel cfg today es r es2 : cf_hist cfg = false -> 0 < cf_count cfg ->
  es_daily es = [] -> es_events es = [] -> es_end es = None -> peek_next_event fuel cfg today es <> GOk (r, es2).
Proof.
  intros Hh Hc H1 H2 H3. unfold peek_next_event, gen_events.
  destruct (reset_if_needed cfg today es) as [es1|x] eqn:E; [|discriminate].
  assert (G : es_daily es1 = [] /\ es_events es1 = [] /\ es_end es1 = None).
  { revert E. unfold reset_if_needed. destruct (es_need es).
    - destruct (get_days cfg today _) as [[ds h]|x]; [|discriminate]. cbn [rbind]. intros E. apply Ok_inj in E. subst es1. auto.
    - intros E. apply Ok_inj in E. subst es1. auto. }
  destruct G as (G1 & G2 & G3). rewrite G2. pose proof (gen_loop_empty cfg today Hh Hc fuel es1) as L.
  destruct (gen_loop fuel cfg today es1) as [e|x|]; try discriminate. exfalso. exact (L e G1 G2 G3 eq_refl).
Qed.

Lemma dict_owes ps t v : ps <> [] -> expr_offset ps (time_dict t) = Ok v -> owes ps t [v].
Proof.
  intros Hp H. destruct (keyword_offsets ps Hp) as (K1 & K2 & K3 & K4). revert H. unfold time_dict.
  destruct (str_eqb_spec t (lit "open")) as [->|]; [rewrite K1; intros E; apply Ok_inj in E; subst v; apply owes_text, mean_base; constructor|].
  destruct (str_eqb_spec t (lit "close")) as [->|]; [rewrite K2; intros E; apply Ok_inj in E; subst v; apply owes_text, mean_base; constructor|].
  destruct (str_eqb_spec t (lit "before_open")) as [->|]; [rewrite K3; intros E; apply Ok_inj in E; subst v; apply owes_before|].
  destruct (str_eqb_spec t (lit "after_close")) as [->|]; [rewrite K4; intros E; apply Ok_inj in E; subst v; apply owes_after|].
  intros E. apply means_iff in E; [|exact Hp]. apply owes_text, E.
Qed.

Lemma setup_count fuel cfg sc st : cf_hist cfg = false -> forall now calls ns s4, Forall no_account calls ->
  setup fuel cfg sc st None now true calls None (strat_new ns) = (GOk tt, s4) -> length (st_srcs s4) = length (asked calls).
Proof.
  intros Hh now calls ns s4 Hna. unfold setup, schedule_all_tasks. set (s3 := set_allowed false _).
  destruct (schedule_descs fuel cfg sc st None now (st_sched s3) s3) as [s5|x|] eqn:E5; try discriminate.
  intros Es. assert (Ep : forall a b : gres unit * strat, a = b -> snd a = snd b) by (intros a b ->; reflexivity). apply Ep in Es. cbn [snd] in Es. subst s5. clear Ep.
  destruct (schedule_descs_tasks fuel cfg sc st Hh now (st_sched s3) s3 s4 E5) as (ts' & T1 & T2 & _).
  assert (S0 : st_srcs s3 = []) by (apply (uexec_no_account fuel sc st calls Hna); reflexivity). rewrite S0 in T1. cbn [app] in T1.
  assert (Es3 : st_sched s3 = map desc_of (asked calls)).
  { destruct (uexec_sched fuel sc st None calls (set_allowed true (make_apis sc (strat_new ns))) eq_refl) as [_ H]. exact H. }
  rewrite T1, T2, Es3. apply map_length.
Qed.

(** A task that started (live mode) was given times that mean something: each asks for
    calls at certain times of the day, one at least. *)
Theorem C126_started :
  forall fuel cfg sc tz st now calls ns dates s4 s0 ps,
    start fuel cfg sc tz st None now calls ns dates = Some (s4, s0) -> length dates = length (st_srcs s4) ->
    cf_hist cfg = false -> 0 < cf_count cfg -> (1441 <= fuel)%nat -> market_period sc s4 = raw_of ps ->
    ps <> [] -> Forall (fun p => tod_ok (fst p) /\ tod_ok (snd p)) ps -> Forall (fun p => fst p mod US = 0) ps ->
    forall n id t, In (n, id, t) (asked calls) -> exists offs, owes ps t offs /\ offs <> [].
Proof.
  intros fuel cfg sc tz st now calls ns dates s4 s0 ps Hs Hl Hh Hc Hf Hmp Hne Hps Hw n id t Hin.
  unfold start in Hs. destruct (setup fuel cfg sc st None now true calls None (strat_new ns)) as [[[]|x|] s5] eqn:Es; try discriminate.
  destruct (boot fuel (loop_cfg cfg sc s5) tz (st_srcs s5) dates) as [s0'|] eqn:Eb; [|discriminate].
  assert (E1 : s5 = s4 /\ s0' = s0).
  { clear - Hs. assert (G : forall A B (a a' : A) (b b' : B), Some (a, b) = Some (a', b') -> a = a' /\ b = b') by (intros ? ? ? ? ? ? H; injection H; auto). exact (G _ _ _ _ _ _ Hs). }
  destruct E1 as [-> ->]. clear Hs.
  destruct (setup_srcs fuel cfg sc st Hh now calls ns s4 Es) as (pre & ts & H1 & H2 & H3 & H4).
  apply In_nth_error in Hin as (k & Hk).
  assert (Hlt : (k < length ts)%nat) by (rewrite H2; apply nth_error_Some; congruence).
  destruct (nth_error ts k) as [es|] eqn:Ets; [|apply nth_error_None in Ets; lia].
  assert (Hsrc : nth_error (st_srcs s4) (length pre + k) = Some es) by (rewrite H1, nth_error_app2 by lia; replace (length pre + k - length pre)%nat with k by lia; exact Ets).
  destruct (nth_error dates (length pre + k)) as [d|] eqn:Ed.
  2:{ apply nth_error_None in Ed. rewrite Hl, H1, app_length in Ed. lia. }
  destruct (schedule_all_srcs fuel (loop_cfg cfg sc s4) tz ltac:(lia) dates _ _ _ Eb) as [_ HB]. destruct (HB _ _ Ed) as (es' & r & es2 & E1 & E2 & _).
  cbn [plus l_init l_w w_srcs] in E1. rewrite Hsrc in E1. assert (es' = es) as -> by congruence.
  destruct (H4 k _ es Hk Ets) as (l & L1 & L2 & L3 & L4 & L5 & L6).
  assert (Hl0 : l <> []).
  { intros ->. exact (peek_empty fuel (loop_cfg cfg sc s4) d es r es2 Hh Hc L5 L4 L3 E2). }
  unfold entries_of, desc_of in L1. cbn [d_time fst snd] in L1.
  destruct (str_eqb_spec (time_dict t) (lit "every_minute")) as [Ee|Ne].
  - assert (t = lit "every_minute") as ->.
    { revert Ee. unfold time_dict. destruct (str_eqb t (lit "open")); [discriminate|]. destruct (str_eqb t (lit "close")); [discriminate|].
      destruct (str_eqb t (lit "before_open")); [discriminate|]. destruct (str_eqb t (lit "after_close")); [discriminate|]. auto. }
    destruct (periods_entries_ok ps fuel MINUTE (dt_date (now k)) ltac:(reflexivity) ps) as (ls & ent & E & Hls & He).
    { eapply Forall_impl; [|exact Hps]. intros p [Ha Hb]. split; [exact Ha|]. split; [exact Hb|]. apply minute_fuel; [exact Ha|exact Hb|lia]. }
    rewrite (concat_trunc MINUTE ps ls) in He by (assumption || reflexivity).
    exists (concat ls). split; [apply owes_minutes; exact Hls|]. intros E0. rewrite E0 in He.
    rewrite Hmp in L1. apply Hl0. rewrite L1 in E. inversion He; subst. congruence.
  - assert (l = [time_dict t]) as -> by congruence. destruct L6 as [L6|L6]; [|discriminate].
    destruct (peek_checked _ _ _ _ _ _ _ E2 Hh Hc L3 L2 L6 (time_dict t, cls_of k (desc_of (n, id, t)))) as (v & Hv); [rewrite L5; left; reflexivity|].
    cbn [fst loop_cfg cf_mp] in Hv. rewrite Hmp, periods_of_raw in Hv. exists [v]. split; [apply dict_owes; assumption|discriminate].
Qed.
Print Assumptions C126_started.

(** A process_initialize that does not enable the account starts (live mode; at least eight
    days generated at a time) exactly if each of its times means something; an entry for
    every minute needs a minute in the market periods. *)
Theorem C126_starts :
  forall fuel cfg sc tz st now calls ns dates ps,
    cf_hist cfg = false -> 8 <= cf_count cfg -> (1441 <= fuel)%nat -> (Z.to_nat (cf_count cfg) < fuel)%nat ->
    Forall no_account calls ->
    market_period sc (snd (setup fuel cfg sc st None now true calls None (strat_new ns))) = raw_of ps ->
    ps <> [] -> Forall (fun p => tod_ok (fst p) /\ tod_ok (snd p)) ps -> Forall (fun p => fst p mod US = 0) ps ->
    length dates = length (asked calls) -> (forall k d, nth_error dates k = Some d -> now k < (d + 1) * DAY) ->
    ((exists s4 s0, start fuel cfg sc tz st None now calls ns dates = Some (s4, s0)) <->
     Forall (fun a => exists offs, owes ps (snd a) offs /\ offs <> []) (asked calls)).
Proof.
  intros fuel cfg sc tz st now calls ns dates ps Hh Hc Hf1 Hf2 Hna Hmp Hne Hps Hw Hl Hnow. split.
  - intros (s4 & s0 & Hs).
    assert (Es : snd (setup fuel cfg sc st None now true calls None (strat_new ns)) = s4 /\ exists u, fst (setup fuel cfg sc st None now true calls None (strat_new ns)) = GOk u).
    { revert Hs. unfold start. destruct (setup fuel cfg sc st None now true calls None (strat_new ns)) as [[u|x|] s5]; try discriminate.
      destruct (boot _ _ _ _ _); [|discriminate]. intros Hs. assert (G : forall A B (a a' : A) (b b' : B), Some (a, b) = Some (a', b') -> a = a') by (intros ? ? ? ? ? ? H; injection H; auto).
      cbn [snd fst]. split; [exact (G _ _ _ _ _ _ Hs)|eauto]. }
    destruct Es as [Es (u & Eu)]. rewrite Es in Hmp.
    assert (Hlen : length dates = length (st_srcs s4)).
    { pose proof (setup_count fuel cfg sc st Hh now calls ns s4 Hna) as L. rewrite Hl. symmetry. apply L. destruct u. rewrite <- Eu, <- Es. apply surjective_pairing. }
    apply Forall_forall. intros [[n id] t] Hin. cbn [snd].
    exact (C126_started fuel cfg sc tz st now calls ns dates s4 s0 ps Hs Hlen Hh ltac:(lia) Hf1 Hmp Hne Hps Hw n id t Hin).
  - intros Hok. destruct (C75_proper_starts_partial fuel cfg sc tz st now calls ns dates ps Hh Hc Hf1 Hf2 Hna Hmp Hne Hps Hw Hok Hl Hnow) as (s4 & s0 & H & _). eauto.
Qed.
Print Assumptions C126_starts.

(** ** examples: morning 9:30 to 11:30, afternoon 13:00 to 15:00 *)
Example C126_demo :
  means (opening t_ps) (closing t_ps) (lit "open+1h2h") (41400 * US) /\
  means (opening t_ps) (closing t_ps) (lit "close-30m" ++ [10%N]) (52200 * US) /\
  means (opening t_ps) (closing t_ps) (lit " 09 :+3_0: 5 :anything:0") (34205 * US) /\
  means (opening t_ps) (closing t_ps) (lit "-0:00") 0 /\
  expr_offset t_ps (lit "open" ++ [10%N]) = Err InvalidParam /\
  expr_offset t_ps (lit "noon+1h") = Err KeyError /\
  expr_offset t_ps (lit "open+100m") = Err InvalidParam /\
  expr_offset t_ps (lit "24:00") = Err ValueError /\
  expr_offset t_ps (lit "9:3__0") = Err ValueError /\
  expr_offset t_ps ([28%N] ++ lit "9:30") = Err ValueError /\
  expr_offset t_ps ([12288%N] ++ lit "9:30") = Ok (34200 * US).
Proof.
  split; [apply (means_iff t_ps); [discriminate|vm_compute; reflexivity]|].
  split; [apply (means_iff t_ps); [discriminate|vm_compute; reflexivity]|].
  split; [apply (means_iff t_ps); [discriminate|vm_compute; reflexivity]|].
  split; [apply (means_iff t_ps); [discriminate|vm_compute; reflexivity]|].
  repeat split; vm_compute; reflexivity.
Qed.

(** the grammar itself, without going through the model *)
Example C126_demo_means : means (34200 * US) (54000 * US) (lit " 9:3_0") (34200 * US).
Proof.
  change (lit " 9:3_0") with ((lit " " ++ [] ++ lit "9" ++ []) ++ lit ":" ++ ([] ++ [] ++ (lit "3" ++ lit "_" ++ lit "0") ++ [])).
  change (34200 * US) with ((decimal (lit "9") * 3600 + decimal (lit "3" ++ lit "0") * 60) * US) at 2. apply mean_hm.
  - intros X. cbn in X. intuition discriminate.
  - intros X. cbn in X. intuition discriminate.
  - apply int_plus; [|constructor|apply du_last; [discriminate|repeat constructor]|auto]. constructor; [right; left; reflexivity|constructor].
  - apply int_plus; [constructor|constructor| |auto]. apply du_more; [discriminate|repeat constructor|apply du_last; [discriminate|repeat constructor]].
  - vm_compute. split; [discriminate|reflexivity].
  - vm_compute. split; [discriminate|reflexivity].
Qed.

(** C126_starts on a task with two odd but understood times, and one with a text that means nothing *)
Definition w_calls : list ucall := [URun (t_fn (lit "f")) (lit "9:31:0:x"); URun (t_fn (lit "f")) (lit "close-1m2m" ++ [10%N])].
Definition w_start (calls : list ucall) := start 1441 t_cfg scfg_default 0 t_now None (fun _ => t_now) calls [(lit "f", OUser 1)] (map (fun _ => 700000) calls).
Example C126_demo_starts :
  Forall no_account w_calls /\ (exists offs, owes t_ps (lit "9:31:0:x") offs /\ offs <> []) /\
  option_map (fun x => map (fun m => m_time (snd m)) (l_q (snd x))) (w_start w_calls) =
    Some [dt_to_milliseconds 0 (700000 * DAY + 34260 * US); dt_to_milliseconds 0 (700000 * DAY + 53880 * US)] /\
  w_start (URun (t_fn (lit "f")) (lit "close-1m2") :: w_calls) = None.
Proof.
  split; [repeat constructor|]. split; [|split; vm_compute; reflexivity].
  exists [34260 * US]. split; [apply owes_text, (means_iff t_ps); [discriminate|vm_compute; reflexivity]|discriminate].
Qed.
