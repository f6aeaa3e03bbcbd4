(** Processes whose sources are bounded never hang (C125). *)
From Verif Require Import PyBase PyStr MTime MTimeExpr MEventSource MQueue MLoop MSched MBus MStrategy SEvent SExpr SStrategy LLoop
  LTimeExpr LEventSource LEventSource2 SBound LBound LStrategy LStrategy2 LSched LSched2 LSched3 MProcess SProcess LProcess SEnd LEnd LHist.
Open Scope Z_scope.

(** enough fuel for the days still to come *)
Definition room (fuel : nat) (cfg : escfg) (es : esrc) : Prop :=
  bounded cfg es = true /\
  if es_need es then exists a, es_start es = Some a /\ (length (days_of cfg 0 a (es_end es)) < fuel)%nat
  else es_his es = true /\ (length (es_days es) < fuel)%nat.

Lemma bounded_days cfg es today a : bounded cfg es = true -> days_of cfg today a (es_end es) = days_of cfg 0 a (es_end es).
Proof.
  unfold bounded, days_of. destruct (es_end es); [reflexivity|]. destruct (cf_hist cfg); [reflexivity|discriminate].
Qed.
Lemma gen_loop_room cfg today : forall fuel es, bounded cfg es = true -> es_his es = true -> (length (es_days es) < fuel)%nat ->
  match gen_loop fuel cfg today es with
  | GOk es' => bounded cfg es' = true /\ es_need es' = es_need es /\ es_his es' = true /\ (length (es_days es') <= length (es_days es))%nat
  | GErr _ => True
  | GFuel => False
  end.
Proof.
  induction fuel as [|f IH]; intros es Hb Hh Hf; [lia|]. cbn [gen_loop].
  destruct (es_events es) as [|e0 evs0]; [|auto]. destruct (es_days es) as [|d days] eqn:Ed.
  - unfold get_days. unfold bounded in Hb. rewrite Hb, Hh. cbn. unfold bounded. cbn. rewrite Hb. repeat split. cbn. lia.
  - destruct (add_daily_events cfg es d (es_daily es) []) as [evs|]; [|exact I]. cbn [length] in Hf.
    specialize (IH (es_set_gen evs days (es_need es) (es_his es) es) Hb Hh ltac:(cbn; lia)).
    destruct (gen_loop f cfg today _) as [es'| |]; [|exact I|exact IH]. cbn in IH. cbn [length]. destruct IH as (A & B & C & D).
    split; [exact A|]. split; [exact B|]. split; [exact C|lia].
Qed.
Lemma gen_room cfg today fuel es : room fuel cfg es ->
  match gen_events fuel cfg today es with
  | GOk es' => bounded cfg es' = true /\ es_need es' = false /\ es_his es' = true /\ (length (es_days es') < fuel)%nat
  | GErr _ => True
  | GFuel => False
  end.
Proof.
  intros [Hb Hr]. unfold gen_events.
  assert (H : exists es1, reset_if_needed cfg today es = Ok es1 /\ bounded cfg es1 = true /\ es_need es1 = false /\ es_his es1 = true /\ (length (es_days es1) < fuel)%nat).
  { destruct (es_need es) eqn:En.
    - destruct Hr as (a & Ha & Hl). rewrite (reset_fresh cfg today a es Ha En). eexists. split; [reflexivity|].
      cbn. rewrite (bounded_days cfg es today a Hb). repeat split; assumption.
    - exists es. unfold reset_if_needed. rewrite En. destruct Hr. repeat split; assumption. }
  destruct H as (es1 & -> & B1 & N1 & H1 & L1). destruct (es_events es1) as [|e0 evs0]; [|repeat split; assumption].
  pose proof (gen_loop_room cfg today fuel es1 B1 H1 L1) as G. destruct (gen_loop fuel cfg today es1) as [es2| |]; [|exact I|exact G].
  destruct G as (A & B & C & D). repeat split; [exact A|cbn; congruence|exact C|cbn; lia].
Qed.
Lemma peek_room cfg today fuel es : room fuel cfg es ->
  match peek_next_event fuel cfg today es with GOk (_, es') => room fuel cfg es' | GErr _ => True | GFuel => False end.
Proof.
  intros H. unfold peek_next_event. pose proof (gen_room cfg today fuel es H) as G. destruct (gen_events fuel cfg today es) as [es1| |]; [|exact I|exact G].
  destruct G as (A & B & C & D). split; [exact A|]. rewrite B. auto.
Qed.
Lemma get_room cfg today fuel es : room fuel cfg es ->
  match get_next_event fuel cfg today es with GOk (_, es') => room fuel cfg es' | GErr _ => True | GFuel => False end.
Proof.
  intros H. unfold get_next_event. pose proof (gen_room cfg today fuel es H) as G. destruct (gen_events fuel cfg today es) as [es1| |]; [|exact I|exact G].
  destruct G as (A & B & C & D). destruct (es_events es1); (split; [exact A|]; cbn; rewrite B; auto).
Qed.

(** ** the loop *)
Section Loop.
  Variables (fuel : nat) (cfg : escfg) (tz : Z).
  Notation h := (sched_handler fuel cfg tz).
  Definition fine (w : sworld) : Prop := w_hung w = false /\ Forall (room fuel cfg) (w_srcs w).

  Lemma fine_set k es w : fine w -> room fuel cfg es -> fine (set_src k es w).
  Proof.
    intros [A B] H. split; [exact A|]. cbn. revert k. induction B as [|x l Hx B IH]; intros k; destruct k; cbn [lset]; constructor; auto.
  Qed.
  Lemma push_fine sid k date es w : fine w -> room fuel cfg es -> fine (fst (fst (push_next fuel cfg tz sid k date es w))).
  Proof.
    intros Hw He. unfold push_next. pose proof (peek_room cfg date fuel es He) as G.
    destruct (peek_next_event fuel cfg date es) as [[[[dt c]|] es2]|x|]; cbn; [apply fine_set; assumption|apply fine_set; assumption|exact Hw|destruct G].
  Qed.
  Lemma handler_fine cb o w : fine w -> fine (fst (fst (h cb o w))).
  Proof.
    intros Hw. destruct cb as [sid k|]; [|exact Hw]. cbn [sched_handler]. unfold sched_callback. destruct (negb _); [exact Hw|].
    destruct (nth_error (w_srcs w) k) as [es|] eqn:E; [|exact Hw].
    assert (He : room fuel cfg es) by (destruct Hw as [_ Hw]; rewrite Forall_forall in Hw; apply Hw; eapply nth_error_In; exact E).
    pose proof (get_room cfg (o_date o) fuel es He) as G. destruct (get_next_event fuel cfg (o_date o) es) as [[[e|] es1]|x|].
    - assert (H1 : fine (add_emit k e (set_src k es1 w))) by exact (fine_set k es1 w Hw G).
      destruct (o_exn o); [exact H1|]. pose proof (push_fine sid k (o_date2 o) es1 _ H1 G) as P.
      destruct (push_next fuel cfg tz sid k (o_date2 o) es1 (add_emit k e (set_src k es1 w))) as [[w2 acts] x]. exact P.
    - apply fine_set; assumption.
    - exact Hw.
    - destruct G.
  Qed.
  Lemma fine_exec ls : forall s s', fine (l_w s) -> l_exec h s ls = Some s' -> fine (l_w s').
  Proof.
    induction ls as [|l ls IH]; intros s s' Hw Hx; cbn [l_exec] in Hx; [injection Hx as <-; exact Hw|].
    destruct (l_step h s l) as [s1|] eqn:E; [|discriminate]. eapply IH; [|exact Hx].
    destruct (step_w _ _ _ _ E) as [->|(m & o & _ & _ & ->)]; [exact Hw|]. apply handler_fine. exact Hw.
  Qed.
  Lemma acts_w (acts : list (act scb)) : forall s : lstate scb sworld, l_w (fold_left (fun st a => do_act a st) acts s) = l_w s.
  Proof.
    induction acts as [|a acts IH]; intros s; [reflexivity|]. cbn [fold_left]. rewrite IH. destruct a as [t p cb|]; [reflexivity|]. cbn. unfold do_stop. destruct (l_stop s); reflexivity.
  Qed.
  Lemma schedule_fine k date s s' : fine (l_w s) -> schedule fuel cfg tz k date s = Some s' -> fine (l_w s').
  Proof.
    intros Hw. unfold schedule. cbn [w_srcs]. set (w1 := SW _ _ _ _ _). destruct (nth_error (w_srcs (l_w s)) k) as [es|] eqn:E; [|discriminate].
    assert (He : room fuel cfg es) by (destruct Hw as [_ Hw]; rewrite Forall_forall in Hw; apply Hw; eapply nth_error_In; exact E).
    pose proof (push_fine (w_sid (l_w s) + 1) k date es w1 Hw He) as P.
    destruct (push_next fuel cfg tz (w_sid (l_w s) + 1) k date es w1) as [[w2 acts] [x|]]; [discriminate|]. destruct (w_hung w2); [discriminate|].
    intros X; injection X as <-. rewrite acts_w. exact P.
  Qed.
  Lemma boot_fine srcs dates s0 : Forall (room fuel cfg) srcs -> boot fuel cfg tz srcs dates = Some s0 -> fine (l_w s0).
  Proof.
    intros H. unfold boot. assert (H0 : fine (l_w (l_init (C := scb) (SW srcs [] 0 [] false)))) by (split; [reflexivity|exact H]).
    revert H0. generalize (l_init (C := scb) (SW srcs [] 0 [] false)). generalize 0%nat. clear H. induction dates as [|d dates IH]; intros k s Hs; cbn [schedule_all].
    - intros X; injection X as <-. exact Hs.
    - destruct (schedule fuel cfg tz k d s) as [s1|] eqn:E; [|discriminate]. apply IH. eapply schedule_fine; eassumption.
  Qed.
End Loop.

(** ** setup *)
Section Setup.
  Variables (fuel : nat) (cfg : escfg) (sc : scfg) (st : Z) (en : option Z) (P : esrc -> Prop).
  Notation alls s := (Forall P (st_srcs s)).
  Hypothesis Psync : forall l, P (add_entries sync_cls l (es_new (Some st) en)).

  Lemma ustep_all c s : alls s -> alls (snd (ustep fuel sc st en c s)).
  Proof.
    intros H. destruct c as [f t|k e|n o]; cbn [ustep].
    - unfold run_daily. destruct (f_name f); [|exact H]. destruct (negb (st_allowed s)); [exact H|]. destruct (negb (f_callable f)); exact H.
    - unfold set_options, setup_account, setup_timer.
      destruct (negb (st_allowed s)); [exact H|]. destruct (parse_opts k) as [o|x]; [|exact H]. destruct (e_dir e); [|exact H].
      destruct (match so_use o with Some b => b | None => sc_setup sc end); [|exact H].
      destruct (negb (so_acct o)); [exact H|]. destruct (e_load e); [|exact H]. destruct (e_gate e); [|exact H].
      destruct (need_bal sc o || need_ord sc o); [|exact H].
      destruct (sync_entries fuel sc (e_now e) o) as [l| |]; [|exact H|exact H].
      cbn [snd add_src set_bus st_srcs new_acc set_use set_opts]. apply Forall_app. split; [exact H|]. constructor; [apply Psync|constructor].
    - exact H.
  Qed.
  Lemma uexec_all cs : forall s, alls s -> alls (uexec fuel sc st en cs s).
  Proof. induction cs as [|c cs IH]; intros s H; [exact H|]. cbn [MStrategy.uexec]. apply IH. apply ustep_all. exact H. Qed.
  Lemma descs_all now ds : (forall k c l es0, (k < length ds)%nat -> es_setup cfg (now k) (es_new (Some st) en) = Ok es0 -> P (add_entries c l es0)) ->
    forall dsb s s', ds = dsb ++ skipn (length dsb) ds -> st_count s = length dsb -> alls s ->
    schedule_descs fuel cfg sc st en now (skipn (length dsb) ds) s = GOk s' -> alls s'.
  Proof.
    intros Hw dsb s s' Hd Hc. remember (skipn (length dsb) ds) as rest eqn:Er. clear Er. revert dsb s s' Hd Hc.
    induction rest as [|d rest IH]; intros dsb s s' Hd Hc Hr; cbn [schedule_descs]; [intros X; injection X as <-; exact Hr|].
    destruct (schedule_one fuel cfg sc st en (now (st_count s)) d s) as [s1|x|] eqn:E1; try discriminate.
    apply (IH (dsb ++ [d])).
    - rewrite <- app_assoc. exact Hd.
    - destruct (schedule_one_frame _ _ _ _ _ _ _ _ _ E1) as (_ & _ & _ & _ & F5 & _). rewrite F5, app_length, Hc. cbn. lia.
    - unfold schedule_one in E1. destruct (es_setup cfg (now (st_count s)) (es_new (Some st) en)) as [es0|] eqn:Es; [|discriminate].
      destruct (if str_eqb (d_time d) (lit "every_minute") then _ else _) as [l|x|]; try discriminate.
      assert (G : forall a b : strat, GOk a = GOk b -> a = b) by (clear; intros a b E; injection E; auto).
      apply G in E1. subst s1. cbn [st_srcs inc_count add_src set_bus]. apply Forall_app. split; [exact Hr|]. constructor; [|constructor].
      apply (Hw (st_count s)); [|exact Es]. rewrite Hd, app_length, Hc. cbn. lia.
  Qed.
  Lemma setup_all now calls ns s4 :
    (forall k c l es0, (k < length (asked calls))%nat -> es_setup cfg (now k) (es_new (Some st) en) = Ok es0 -> P (add_entries c l es0)) ->
    setup fuel cfg sc st en now true calls None (strat_new ns) = (GOk tt, s4) -> alls s4.
  Proof.
    intros Hk Hs. pose proof (setup_sched fuel cfg sc st en now calls None ns) as Hd. rewrite Hs in Hd. cbn [snd] in Hd.
    unfold MStrategy.setup, schedule_all_tasks in Hs. set (s1 := set_allowed true (make_apis sc (strat_new ns))) in *.
    set (s3 := set_allowed false (uexec fuel sc st en calls s1)) in *.
    destruct (schedule_descs fuel cfg sc st en now (st_sched s3) s3) as [s5|x|] eqn:E; try discriminate.
    assert (Ep : forall a b : gres unit * strat, a = b -> snd a = snd b) by (intros a b ->; reflexivity).
    apply Ep in Hs. cbn [snd] in Hs. subst s5. clear Ep.
    destruct (schedule_descs_frame _ _ _ _ _ _ _ _ _ E) as (_ & G2 & _).
    apply (descs_all now (st_sched s3)) with (dsb := []) (s := s3); [|reflexivity|unfold s3; cbn; rewrite uexec_count; reflexivity| |exact E].
    - intros k c l es0 Hl. apply Hk. replace (length (asked calls)) with (length (st_sched s3)); [exact Hl|]. rewrite <- G2, Hd. apply map_length.
    - unfold s3. cbn [st_srcs set_allowed]. apply uexec_all. constructor.
  Qed.
End Setup.

Section Rooms.
  Variables (fuel : nat) (cfg : escfg) (sc : scfg) (st : Z) (en : option Z).
  Hypothesis Hb : cf_hist cfg = true \/ en <> None.
  Notation wide a := (length (days_of cfg 0 a en) < fuel)%nat.

  Lemma bounded_en es : es_end es = en -> bounded cfg es = true.
  Proof. intros E. unfold bounded. rewrite E. destruct Hb as [->|H]; [reflexivity|]. destruct en; [apply orb_true_r|congruence]. Qed.
  Lemma room_added es c l : es_end es = en -> (exists a, es_start es = Some a /\ wide a) -> room fuel cfg es -> room fuel cfg (add_entries c l es).
  Proof.
    intros He (a & Ha & Hw) Hr. destruct (add_entries_fields c l es) as (F1 & F2 & F3 & F4 & F5). destruct l as [|e l]; [exact Hr|].
    split; [apply bounded_en; congruence|]. rewrite F5, F1, F2, He. exists a. auto.
  Qed.
  Lemma setup_room now es0 : wide (begins cfg st now) -> es_setup cfg now (es_new (Some st) en) = Ok es0 -> room fuel cfg es0 /\
    es_end es0 = en /\ es_start es0 = Some (begins cfg st now).
  Proof.
    intros Hw. unfold es_setup. cbn [es_start es_new].
    replace (if cf_hist cfg then Some st else Some now) with (Some (begins cfg st now)) by (unfold begins; destruct (cf_hist cfg); reflexivity).
    rewrite (reset_fresh cfg (dt_date now) (begins cfg st now)) by reflexivity.
    intros X; injection X as <-. split; [|split; reflexivity]. split; [apply bounded_en; reflexivity|]. cbn [es_set_gen es_need es_his es_days es_end es_set_start es_new].
    split; [reflexivity|]. change en with (es_end (es_new (Some st) en)) at 1. rewrite bounded_days by (apply bounded_en; reflexivity). exact Hw.
  Qed.
  Lemma setup_rooms now calls ns s4 : wide st -> (forall k, (k < length (asked calls))%nat -> wide (begins cfg st (now k))) ->
    setup fuel cfg sc st en now true calls None (strat_new ns) = (GOk tt, s4) -> Forall (room fuel cfg) (st_srcs s4).
  Proof.
    intros Hw Hk. apply setup_all.
    - intros l. apply room_added; [reflexivity|exists st; auto|]. split; [apply bounded_en; reflexivity|]. cbn. exists st. auto.
    - intros k c l es0 Hl Hs. destruct (setup_room _ _ (Hk k Hl) Hs) as (R & Ee & Ea). apply room_added; [exact Ee| |exact R]. eauto.
  Qed.
End Rooms.

Lemma never_hangs fuel cfg sc tz st en now calls ns dates s4 s0 ls s :
  (cf_hist cfg = true \/ en <> None) ->
  (forall a, In a (st :: if cf_hist cfg then [] else map now (seq 0 (length (asked calls)))) -> (Z.to_nat (match en with Some e => dt_date e - dt_date a + 1 | None => cf_count cfg end) < fuel)%nat) ->
  start fuel cfg sc tz st en now calls ns dates = Some (s4, s0) ->
  l_exec (sched_handler fuel (loop_cfg cfg sc s4) tz) s0 ls = Some s -> w_hung (l_w s) = false.
Proof.
  intros Hb Hf Hs Hx.
  assert (Hw : forall a, In a (st :: if cf_hist cfg then [] else map now (seq 0 (length (asked calls)))) -> (length (days_of cfg 0 a en) < fuel)%nat).
  { intros a Ha. apply Hf in Ha. unfold days_of. destruct en as [e|]; [rewrite day_range_length; exact Ha|]. destruct (cf_hist cfg); rewrite day_range_length; exact Ha. }
  destruct (start_parts fuel cfg sc tz st en now calls ns dates s4 s0 Hs) as [Hbt Hst].
  assert (R : Forall (room fuel (loop_cfg cfg sc s4)) (st_srcs s4)).
  { apply (setup_rooms fuel cfg sc st en Hb now calls ns s4) in Hst; [exact Hst|apply Hw; left; reflexivity|].
    intros k Hk. apply Hw. unfold begins. destruct (cf_hist cfg); [left; reflexivity|right]. apply in_map. apply in_seq. lia. }
  apply (boot_fine fuel (loop_cfg cfg sc s4) tz _ dates s0) in R; [|exact Hbt]. apply (fine_exec fuel _ tz ls s0 s R Hx).
Qed.

(** ** live processes *)
Section Live.
  Variables (fuel : nat) (cfg : escfg) (tz : Z) (A : list Z).
  Hypothesis Hmp : times_ok (cf_mp cfg).
  Hypothesis Hh : cf_hist cfg = false.
  Hypothesis Hc : 8 <= cf_count cfg.
  Hypothesis Hf : (3 * Z.to_nat (cf_count cfg) < fuel)%nat.
  Notation h := (sched_handler fuel cfg tz).

  Definition after (d : Z) : Prop := Forall (fun a => a < (d + 1) * DAY) A.
  Definition busy (es : esrc) : Prop := slim cfg es /\ es_end es = None /\ es_daily es <> [] /\ exists a, In a A /\ es_start es = Some a.

  Lemma busy_kin a b : busy a -> slim cfg b -> kin a b -> busy b.
  Proof. intros (_ & B & C & D) S (K1 & K2 & K3). unfold busy. rewrite K1, K2, K3. auto. Qed.
  Lemma busy_gen d es : after d -> busy es -> gen_events fuel cfg d es <> GFuel.
  Proof.
    intros Hd ((_ & S2) & B & C & a & Ha & D). unfold after in Hd. rewrite Forall_forall in Hd.
    apply (live_terminates cfg d a); auto. unfold ahead in S2. rewrite B in S2. destruct (es_start es); lia.
  Qed.
  Lemma busy_peek d es : after d -> busy es ->
    match peek_next_event fuel cfg d es with GOk (_, es') => busy es' | GErr _ => True | GFuel => False end.
  Proof.
    intros Hd Hb. pose proof (busy_gen d es Hd Hb) as G. destruct (peek_next_event fuel cfg d es) as [[r es']| |] eqn:E; [|exact I|].
    - destruct (peek_slim _ _ _ _ _ _ (proj1 Hb) E) as [S K]. eapply busy_kin; eassumption.
    - unfold peek_next_event in E. destruct (gen_events fuel cfg d es); [discriminate|discriminate|congruence].
  Qed.
  Lemma busy_get d es : after d -> busy es ->
    match get_next_event fuel cfg d es with GOk (_, es') => busy es' | GErr _ => True | GFuel => False end.
  Proof.
    intros Hd Hb. pose proof (busy_gen d es Hd Hb) as G. destruct (get_next_event fuel cfg d es) as [[r es']| |] eqn:E; [|exact I|].
    - destruct (get_slim _ _ _ _ _ _ (proj1 Hb) E) as [S K]. eapply busy_kin; eassumption.
    - unfold get_next_event in E. destruct (gen_events fuel cfg d es) as [e1| |]; [destruct (es_events e1); discriminate|discriminate|congruence].
  Qed.

  Definition going (w : sworld) : Prop := w_hung w = false /\ Forall busy (w_srcs w).
  Lemma going_set k es w : going w -> busy es -> going (set_src k es w).
  Proof.
    intros [B0 B] H. split; [exact B0|]. cbn. revert k. induction B as [|x l Hx B IH]; intros k; destruct k; cbn [lset]; constructor; auto.
  Qed.
  Lemma going_handler cb o w : after (o_date o) -> after (o_date2 o) -> going w -> going (fst (fst (h cb o w))).
  Proof.
    intros D1 D2 Hw. destruct cb as [sid k|]; [|exact Hw]. cbn [sched_handler]. unfold sched_callback. destruct (negb _); [exact Hw|].
    destruct (nth_error (w_srcs w) k) as [es|] eqn:E; [|exact Hw].
    assert (He : busy es) by (destruct Hw as [_ Hw]; rewrite Forall_forall in Hw; apply Hw; eapply nth_error_In; exact E).
    pose proof (busy_get (o_date o) es D1 He) as G. destruct (get_next_event fuel cfg (o_date o) es) as [[[e|] es1]|x|].
    - assert (H1 : going (add_emit k e (set_src k es1 w))) by exact (going_set k es1 w Hw G).
      destruct (o_exn o); [exact H1|]. unfold push_next. pose proof (busy_peek (o_date2 o) es1 D2 G) as P.
      destruct (peek_next_event fuel cfg (o_date2 o) es1) as [[[[dt c]|] es2]|x|]; cbn [fst]; [apply going_set; assumption|apply going_set; assumption|exact H1|destruct P].
    - apply going_set; assumption.
    - exact Hw.
    - destruct G.
  Qed.
  Definition saw (l : label scb sout) : Prop := match l with LDone o => after (o_date o) /\ after (o_date2 o) | _ => True end.
  Lemma going_exec ls : forall s s', Forall saw ls -> going (l_w s) -> l_exec h s ls = Some s' -> going (l_w s').
  Proof.
    induction ls as [|l ls IH]; intros s s' Hs Hw Hx; cbn [l_exec] in Hx; [injection Hx as <-; exact Hw|].
    destruct (l_step h s l) as [s1|] eqn:E; [|discriminate]. inversion Hs; subst. eapply IH; [assumption| |exact Hx].
    destruct (step_w _ _ _ _ E) as [->|(m & o & _ & El & ->)]; [exact Hw|]. subst l. apply going_handler; [apply H1|apply H1|exact Hw].
  Qed.
End Live.

Section LiveBoot.
  Variables (fuel : nat) (cfg : escfg) (tz : Z) (A : list Z).
  Hypothesis Hh : cf_hist cfg = false.
  Hypothesis Hc : 0 < cf_count cfg.

  Definition idle (es : esrc) : Prop := slim cfg es /\ es_end es = None /\ (exists a, In a A /\ es_start es = Some a) /\ es_events es = [].
  (** a source without entries does not get through the start *)
  Lemma idle_peek d es r es' : idle es -> peek_next_event fuel cfg d es = GOk (r, es') -> busy cfg A es'.
  Proof.
    intros (S & E & (a & Ha & St) & Ev) Hp. destruct (peek_slim _ _ _ _ _ _ S Hp) as [S' K].
    assert (Hd : es_daily es <> []).
    { intros D. destruct (empty_live_never cfg es Hh Hc E D ltac:(congruence) (fun _ => Ev) fuel d) as [X _]. congruence. }
    apply (busy_kin cfg A es); [|exact S'|exact K]. split; [exact S|]. split; [exact E|]. split; [exact Hd|]. eauto.
  Qed.
  Definition booting (k : nat) (w : sworld) : Prop :=
    w_hung w = false /\ forall j es, nth_error (w_srcs w) j = Some es -> if (j <? k)%nat then busy cfg A es else idle es.
  Lemma booting_step k d s s' : booting k (l_w s) -> schedule fuel cfg tz k d s = Some s' ->
    booting (S k) (l_w s') /\ length (w_srcs (l_w s')) = length (w_srcs (l_w s)).
  Proof.
    intros [B1 B2]. unfold schedule. cbn [w_srcs]. set (w1 := SW _ _ _ _ _). destruct (nth_error (w_srcs (l_w s)) k) as [es|] eqn:E; [|discriminate].
    pose proof (B2 k es E) as He. rewrite Nat.ltb_irrefl in He. unfold push_next.
    assert (G : forall r es2, peek_next_event fuel cfg d es = GOk (r, es2) -> booting (S k) (set_src k es2 w1)).
    { intros r es2 Hp. split; [exact B1|]. intros j es' Hj. cbn [set_src w_srcs w1] in Hj. destruct (Nat.eq_dec j k) as [->|Hne].
      - rewrite nth_lset_same in Hj by (apply nth_error_Some; congruence). injection Hj as <-.
        replace (k <? S k)%nat with true by (symmetry; apply Nat.ltb_lt; lia). eapply idle_peek; eassumption.
      - rewrite nth_lset_other in Hj by congruence. pose proof (B2 j es' Hj) as X. destruct (Nat.ltb_spec j k), (Nat.ltb_spec j (S k)); try exact X; lia. }
    assert (L : forall es2, length (w_srcs (set_src k es2 w1)) = length (w_srcs (l_w s))) by (intros; cbn; apply lset_length).
    destruct (peek_next_event fuel cfg d es) as [[[[dt c]|] es2]|x|] eqn:Ep; [| |discriminate|discriminate].
    - destruct (w_hung (set_src k es2 w1)); [discriminate|]. intros X. apply (f_equal (option_map (@l_w scb sworld))) in X. cbn [option_map] in X. rewrite acts_w in X. injection X as <-. split; [exact (G _ _ eq_refl)|apply L].
    - destruct (w_hung (set_src k es2 w1)); [discriminate|]. intros X. apply (f_equal (option_map (@l_w scb sworld))) in X. cbn [option_map] in X. rewrite acts_w in X. injection X as <-. split; [exact (G _ _ eq_refl)|apply L].
  Qed.
  Lemma booting_all dates : forall k s s', booting k (l_w s) -> schedule_all fuel cfg tz k dates s = Some s' ->
    booting (k + length dates) (l_w s') /\ length (w_srcs (l_w s')) = length (w_srcs (l_w s)).
  Proof.
    induction dates as [|d dates IH]; intros k s s' Hb; cbn [MSched.schedule_all length].
    - intros X; injection X as <-. rewrite Nat.add_0_r. auto.
    - destruct (schedule fuel cfg tz k d s) as [s1|] eqn:E; [|discriminate]. intros Hx. destruct (booting_step _ _ _ _ Hb E) as [B1 L1].
      destruct (IH _ _ _ B1 Hx) as [B2 L2]. replace (k + S (length dates))%nat with (S k + length dates)%nat by lia. split; [exact B2|congruence].
  Qed.
  Lemma boot_going srcs dates s0 : Forall idle srcs -> length dates = length srcs -> boot fuel cfg tz srcs dates = Some s0 -> going cfg A (l_w s0).
  Proof.
    intros Hi Hl Hb. unfold boot in Hb. assert (H0 : booting 0 (l_w (l_init (C := scb) (SW srcs [] 0 [] false)))).
    { split; [reflexivity|]. intros j es Hj. cbn in Hj. rewrite Forall_forall in Hi. apply Hi. eapply nth_error_In; exact Hj. }
    destruct (booting_all dates 0 _ _ H0 Hb) as [[B1 B2] L]. cbn in L. split; [exact B1|]. apply Forall_forall. intros es Hin. apply In_nth_error in Hin as (j & Hj). pose proof (B2 j es Hj) as X.
      assert (Hlt : (j < length (w_srcs (l_w s0)))%nat) by (apply nth_error_Some; congruence).
    destruct (Nat.ltb_spec j (0 + length dates)); [exact X|lia].
  Qed.
End LiveBoot.

Lemma live_never_hangs fuel cfg sc tz st now calls ns dates s4 s0 ls s :
  cf_hist cfg = false -> 8 <= cf_count cfg -> (3 * Z.to_nat (cf_count cfg) < fuel)%nat -> times_ok (cf_mp (loop_cfg cfg sc s4)) ->
  start fuel cfg sc tz st None now calls ns dates = Some (s4, s0) -> length dates = length (st_srcs s4) ->
  Forall (saw (st :: map now (seq 0 (length (asked calls))))) ls ->
  l_exec (sched_handler fuel (loop_cfg cfg sc s4) tz) s0 ls = Some s -> w_hung (l_w s) = false.
Proof.
  intros Hh Hc Hf Hmp Hs Hl Hsaw Hx. set (A := st :: map now (seq 0 (length (asked calls)))) in *.
  destruct (start_parts fuel cfg sc tz st None now calls ns dates s4 s0 Hs) as [Hbt Hst].
  destruct (start_slim fuel cfg sc st None tz now calls ns dates s4 s0 Hs) as [Hslim _].
  assert (R : Forall (fun es => es_end es = None /\ (exists a, In a A /\ es_start es = Some a) /\ es_events es = []) (st_srcs s4)).
  { apply (setup_all fuel cfg sc st None (fun es => es_end es = None /\ (exists a, In a A /\ es_start es = Some a) /\ es_events es = [])) in Hst; [exact Hst| |].
    - intros l. destruct (add_entries_fields sync_cls l (es_new (Some st) None)) as (F1 & F2 & F3 & _). rewrite F1, F2, F3. split; [reflexivity|].
      split; [|reflexivity]. exists st. split; [left; reflexivity|reflexivity].
    - intros k c l es0 Hk Hes. destruct (add_entries_fields c l es0) as (F1 & F2 & F3 & _). rewrite F1, F2, F3.
      destruct (es_setup_any cfg st None (now k)) as (es1 & E & E1 & E2 & _ & E3). rewrite Hes in E. injection E as <-.
      split; [exact E2|]. split; [|exact E3]. exists (begins cfg st (now k)). split; [|exact E1]. unfold begins. rewrite Hh. right. apply in_map, in_seq. lia. }
  assert (R2 : Forall (idle (loop_cfg cfg sc s4) A) (st_srcs s4)).
  { rewrite Forall_forall in *. intros es Hin. split; [apply Hslim; exact Hin|]. apply R. exact Hin. }
  apply (going_exec fuel (loop_cfg cfg sc s4) tz A Hmp Hh Hc Hf ls s0 s Hsaw); [|exact Hx].
  apply (boot_going fuel (loop_cfg cfg sc s4) tz A Hh) with (srcs := st_srcs s4) (dates := dates); [|exact R2|exact Hl|exact Hbt].
  change (0 < cf_count cfg). lia.
Qed.
