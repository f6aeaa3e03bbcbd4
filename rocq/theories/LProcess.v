(** Task processes: what run_daily entries mean, and the calls their functions get. *)
From Coq Require Import Permutation Sorted.
From Verif Require Import PyBase PyStr LStr MTime MTimeExpr LTimeExpr SExpr MEventSource MQueue MLoop MSched MBus SBus LBus
  SQueue LQueue LLoop SEvent SSched LSort LEventSource LEventSource2 LSched LSched2 LSched3 MStrategy SStrategy LStrategy LStrategy2
  LLive LTie MProcess SWhen LWhen SProcess.
Open Scope Z_scope.

(** ** lists *)
Lemma sorted_ext (l1 : list Z) : forall l2, StronglySorted Z.lt l1 -> StronglySorted Z.lt l2 ->
  (forall x, In x l1 <-> In x l2) -> l1 = l2.
Proof.
  induction l1 as [|a l1 IH]; intros [|b l2] H1 H2 H.
  - reflexivity.
  - exfalso. apply (proj2 (H b)). left; reflexivity.
  - exfalso. apply (proj1 (H a)). left; reflexivity.
  - inversion H1 as [|? ? S1 F1]; inversion H2 as [|? ? S2 F2]; subst. rewrite Forall_forall in F1, F2.
    assert (E : a = b).
    { destruct (proj1 (H a) (or_introl eq_refl)) as [->|Ha]; [reflexivity|]. destruct (proj2 (H b) (or_introl eq_refl)) as [->|Hb]; [reflexivity|].
      specialize (F1 b Hb). specialize (F2 a Ha). lia. }
    subst b. f_equal. apply IH; [assumption|assumption|]. intros x. split; intros Hx.
    + destruct (proj1 (H x) (or_intror Hx)) as [<-|G]; [specialize (F1 a Hx); lia|exact G].
    + destruct (proj2 (H x) (or_intror Hx)) as [<-|G]; [specialize (F2 a Hx); lia|exact G].
Qed.

Lemma sorted_perm (l1 : list Z) : forall l2, StronglySorted Z.le l1 -> StronglySorted Z.le l2 -> Permutation l1 l2 -> l1 = l2.
Proof.
  induction l1 as [|a l1 IH]; intros l2 H1 H2 HP.
  - apply Permutation_nil in HP. subst; reflexivity.
  - destruct l2 as [|b l2]; [apply Permutation_sym, Permutation_nil in HP; discriminate|].
    inversion H1 as [|? ? S1 F1]; inversion H2 as [|? ? S2 F2]; subst. rewrite Forall_forall in F1, F2.
    assert (E : a = b).
    { assert (Ha : In a (b :: l2)) by (apply (Permutation_in _ HP); left; reflexivity).
      assert (Hb : In b (a :: l1)) by (apply (Permutation_in _ (Permutation_sym HP)); left; reflexivity).
      destruct Ha as [->|Ha]; [reflexivity|]. destruct Hb as [->|Hb]; [reflexivity|]. specialize (F1 b Hb). specialize (F2 a Ha). lia. }
    subst b. f_equal. apply IH; [assumption|assumption|]. eapply Permutation_cons_inv; exact HP.
Qed.

Lemma steps_unique step a b l1 l2 : steps step a b l1 -> steps step a b l2 -> l1 = l2.
Proof. intros [S1 I1] [S2 I2]. apply sorted_ext; [assumption|assumption|]. intros x. rewrite I1, I2. reflexivity. Qed.

Lemma steps_lists_unique step ps : forall ls1 ls2,
  Forall2 (fun p l => steps step (fst p) (snd p) l) ps ls1 -> Forall2 (fun p l => steps step (fst p) (snd p) l) ps ls2 -> ls1 = ls2.
Proof.
  induction ps as [|p ps IH]; intros ls1 ls2 H1 H2; inversion H1; inversion H2; subst; [reflexivity|].
  f_equal; [eapply steps_unique; eassumption|apply IH; assumption].
Qed.

(** ** the meaning of the time given to run_daily *)
Lemma dec_value_decimal s : forall acc, dec_value acc s = fold_left (fun a c => a * 10 + digit_val c) s acc.
Proof. induction s as [|c s IH]; intros acc; [reflexivity|]. cbn. apply IH. Qed.

Lemma num2_int s : num2 s -> py_int s = Some (decimal s) /\ 0 <= decimal s /\ has_char 58%N s = false.
Proof.
  intros [Hl Hd]. split; [|split].
  - rewrite py_int_digits; [|intros ->; cbn in Hl; lia|exact Hd]. reflexivity.
  - unfold decimal. clear Hl. assert (G : forall acc, 0 <= acc -> 0 <= fold_left (fun a c => a * 10 + digit_val c) s acc).
    { induction s as [|c s IH]; intros acc Ha; cbn [fold_left]; [exact Ha|]. inversion Hd as [|? ? Hc Hd']; subst. apply IH; [exact Hd'|].
      pose proof (is_digit_val c Hc). lia. }
    apply G; lia.
  - apply digits_no_char; [reflexivity|exact Hd].
Qed.

Lemma mk_time_ok h m s : 0 <= h < 24 -> 0 <= m < 60 -> 0 <= s < 60 -> mk_time h m s = Ok ((h * 3600 + m * 60 + s) * US).
Proof.
  intros Hh Hm Hs. unfold mk_time.
  assert (E : ((0 <=? h) && (h <? 24) && (0 <=? m) && (m <? 60) && (0 <=? s) && (s <? 60)) = true) by (rewrite !andb_true_iff, !Z.leb_le, !Z.ltb_lt; lia).
  rewrite E. reflexivity.
Qed.

Lemma clock_offset mp t v : clock_text t v -> expr_offset mp t = Ok v.
Proof.
  intros H. unfold expr_offset.
  assert (Hc : has_char 58%N t = true).
  { destruct H; rewrite has_char_app; change (has_char 58%N (lit ":" ++ ?x)) with true; apply orb_true_r. }
  rewrite Hc. unfold clock_time. destruct H as [h m Hh Hm H1 H2|h m s Hh Hm Hs H1 H2 H3].
  - destruct (num2_int h Hh) as (I1 & P1 & N1). destruct (num2_int m Hm) as (I2 & P2 & N2).
    change (lit ":" ++ m) with (58%N :: m). rewrite (split_on_app _ _ _ N1), (split_on_none _ _ N2). cbn [app]. rewrite I1, I2, mk_time_ok by lia.
    f_equal. lia.
  - destruct (num2_int h Hh) as (I1 & P1 & N1). destruct (num2_int m Hm) as (I2 & P2 & N2). destruct (num2_int s Hs) as (I3 & P3 & N3).
    change (lit ":" ++ m ++ lit ":" ++ s) with (58%N :: (m ++ 58%N :: s)). rewrite (split_on_app _ _ _ N1), (split_on_app _ _ _ N2), (split_on_none _ _ N3). cbn [app].
    rewrite I1, I2, I3, mk_time_ok by lia. reflexivity.
Qed.

Lemma unit_no_colon u : unit_sec u <> None -> u <> 58%N.
Proof. intros H ->. apply H. reflexivity. Qed.
Lemma offset_no_colon gs : Forall group_wf gs -> has_char 58%N (offset_text gs) = false.
Proof.
  induction 1 as [|g gs (Hl & Hd & Hu) Hg IH]; [reflexivity|].
  unfold offset_text in *. cbn [map concat]. rewrite has_char_app, IH, orb_false_r. unfold group_text. rewrite has_char_app.
  rewrite digits_no_char; [|reflexivity|exact Hd]. cbn [orb]. cbn [has_char existsb]. rewrite orb_false_r. apply N.eqb_neq. intros E. symmetry in E. exact (unit_no_colon _ Hu E).
Qed.
Lemma denotes_no_colon o c s v : denotes_distinct o c s v -> has_char 58%N s = false.
Proof.
  intros [b w Hb|b w gs plus Hb Hg _]; assert (Hc : has_char 58%N b = false) by (destruct Hb; reflexivity); [exact Hc|].
  rewrite !has_char_app, Hc, offset_no_colon by apply Hg. destruct plus; reflexivity.
Qed.

Lemma rel_offset ps t v : ps <> [] -> denotes_distinct (opening ps) (closing ps) t v -> expr_offset ps t = Ok v.
Proof. intros Hp Hd. unfold expr_offset. rewrite (denotes_no_colon _ _ _ _ Hd). apply expr_sound; assumption. Qed.

Lemma keyword_offsets ps : ps <> [] ->
  expr_offset ps (lit "open+0m") = Ok (opening ps) /\ expr_offset ps (lit "close+0m") = Ok (closing ps) /\
  expr_offset ps (lit "open-30m") = Ok (opening ps - 30 * MINUTE) /\ expr_offset ps (lit "close+30m") = Ok (closing ps + 30 * MINUTE).
Proof.
  intros Hp. destruct ps as [|p ps]; [congruence|].
  unfold expr_offset, expr_to_time, opening, closing.
  repeat split; vm_compute has_char; cbn match; vm_compute parse_expr; cbn [rbind]; vm_compute str_eqb; cbn [rbind]; cbn match; f_equal; unfold MINUTE, US; lia.
Qed.

Lemma time_dict_other t : t <> lit "open" -> t <> lit "close" -> t <> lit "before_open" -> t <> lit "after_close" -> time_dict t = t.
Proof.
  intros H1 H2 H3 H4. unfold time_dict. apply str_eqb_neq in H1, H2, H3, H4. rewrite H1, H2, H3, H4. reflexivity.
Qed.

(** the documented forms are such texts *)
Lemma owes_rel ps t v : denotes_distinct (opening ps) (closing ps) t v -> owes ps t [v].
Proof.
  intros [b w Hb|b w gs plus Hb Hg Hd]; apply owes_text; [apply mean_base, Hb|].
  rewrite <- (app_nil_r (offset_text gs)), <- (last_wins_distinct gs Hg Hd), last_wins_sec. apply mean_off; auto.
Qed.
Lemma num2_text s : num2 s -> int_text s (decimal s) /\ 0 <= decimal s /\ no_colon s.
Proof. intros H. destruct (num2_int s H) as (H1 & H2 & H3). rewrite <- py_int_iff, <- colon_iff. auto. Qed.
Lemma owes_clock ps t v : clock_text t v -> owes ps t [v].
Proof.
  intros [h m Hh Hm H1 H2|h m s Hh Hm Hs H1 H2 H3]; apply owes_text.
  - destruct (num2_text h Hh) as (I1 & P1 & N1), (num2_text m Hm) as (I2 & P2 & N2). apply mean_hm; auto; lia.
  - destruct (num2_text h Hh) as (I1 & P1 & N1), (num2_text m Hm) as (I2 & P2 & N2), (num2_text s Hs) as (I3 & P3 & N3).
    pose proof (mean_hms (opening ps) (closing ps) h m s [] _ _ _ N1 N2 N3 I1 I2 I3 (conj P1 H1) (conj P2 H2) (conj P3 H3) (or_introl eq_refl)) as M.
    rewrite app_nil_r in M. exact M.
Qed.

Lemma entry_meaning ps t offs fuel today : ps <> [] -> Forall (fun p => tod_ok (fst p) /\ tod_ok (snd p)) ps ->
  Forall (fun p => fst p mod US = 0) ps -> (1441 <= fuel)%nat -> owes ps t offs ->
  exists l, (if str_eqb (time_dict t) (lit "every_minute") then periods_entries fuel MINUTE today (raw_of ps) else GOk [time_dict t]) = GOk l /\
    entries_for ps l offs.
Proof.
  intros Hp Hps Hw Hf Ho. destruct (keyword_offsets ps Hp) as (K1 & K2 & K3 & K4).
  destruct Ho as [ls Hls| | |t v Hm].
  - change (time_dict (lit "every_minute")) with (lit "every_minute"). rewrite str_eqb_refl.
    destruct (periods_entries_ok ps fuel MINUTE today ltac:(reflexivity) ps) as (ls' & ent & E & Hls' & He).
    { eapply Forall_impl; [|exact Hps]. intros p [Ha Hb]. split; [exact Ha|]. split; [exact Hb|]. apply minute_fuel; assumption. }
    rewrite (concat_trunc MINUTE ps ls') in He by (assumption || reflexivity).
    rewrite (steps_lists_unique _ _ _ _ Hls' Hls) in He. exists ent. auto.
  - exists [lit "open-30m"]. split; [reflexivity|]. constructor; [exact K3|constructor].
  - exists [lit "close+30m"]. split; [reflexivity|]. constructor; [exact K4|constructor].
  - apply (means_iff ps t v Hp) in Hm.
    assert (B : forall b w, expr_offset ps b = Ok w -> has_char 58%N b = false -> base_is (opening ps) (closing ps) b (if str_eqb b (lit "open") then opening ps else closing ps) ->
      w = if str_eqb b (lit "open") then opening ps else closing ps).
    { intros b w E Hc Hb. unfold expr_offset in E. rewrite Hc, (expr_base_ok ps b _ Hp Hb) in E. apply Ok_inj in E. symmetry. exact E. }
    destruct (str_eqb_spec t (lit "open")) as [->|N1].
    { exists [lit "open+0m"]. split; [reflexivity|]. constructor; [|constructor]. rewrite K1, (B _ _ Hm eq_refl (base_open _ _)). reflexivity. }
    destruct (str_eqb_spec t (lit "close")) as [->|N2].
    { exists [lit "close+0m"]. split; [reflexivity|]. constructor; [|constructor]. rewrite K2, (B _ _ Hm eq_refl (base_close _ _)). reflexivity. }
    assert (Hbad : forall x : str, has_char 58%N x = false -> parse_expr x = Err InvalidParam -> t <> x).
    { intros x Hc Hx ->. unfold expr_offset in Hm. rewrite Hc in Hm. unfold expr_to_time in Hm. destruct ps; [congruence|]. rewrite Hx in Hm. discriminate. }
    rewrite time_dict_other by (assumption || (apply Hbad; reflexivity)).
    destruct (str_eqb_spec t (lit "every_minute")) as [E|_]; [exfalso; revert E; apply Hbad; reflexivity|].
    exists [t]. split; [reflexivity|]. constructor; [exact Hm|constructor].
Qed.

(** ** what setup leaves behind *)
Section Setup.
  Variables (fuel : nat) (cfg : escfg) (sc : scfg) (st : Z).
  Notation uexec := (uexec fuel sc st None).
  Notation setup := (setup fuel cfg sc st None).

  Definition sync_src (es : esrc) : Prop :=
    es_events es = [] /\ Forall (fun x => snd x = sync_cls) (es_daily es).

  Lemma ustep_srcs c s : Forall sync_src (st_srcs s) -> Forall sync_src (st_srcs (snd (ustep fuel sc st None c s))).
  Proof.
    intros H. destruct c as [f t|k e|n o]; cbn [ustep].
    - unfold run_daily. destruct (f_name f); [|exact H]. destruct (negb (st_allowed s)); [exact H|]. destruct (negb (f_callable f)); exact H.
    - unfold set_options, setup_account, setup_timer.
      destruct (negb (st_allowed s)); [exact H|]. destruct (parse_opts k) as [o|x]; [|exact H]. destruct (e_dir e); [|exact H].
      destruct (match so_use o with Some b => b | None => sc_setup sc end); [|exact H].
      destruct (negb (so_acct o)); [exact H|]. destruct (e_load e); [|exact H]. destruct (e_gate e); [|exact H].
      destruct (need_bal sc o || need_ord sc o); [|exact H].
      destruct (sync_entries fuel sc (e_now e) o) as [l| |]; [|exact H|exact H].
      cbn [snd add_src set_bus st_srcs new_acc set_use set_opts]. apply Forall_app. split; [exact H|]. constructor; [|constructor].
      destruct (add_entries_fields sync_cls l (es_new (Some st) None)) as (_ & _ & F3 & _).
      split; [rewrite F3; reflexivity|]. rewrite add_entries_daily. apply Forall_forall. intros x Hx. apply in_map_iff in Hx as (y & <- & _). reflexivity.
    - exact H.
  Qed.
  Lemma uexec_srcs cs : forall s, Forall sync_src (st_srcs s) -> Forall sync_src (st_srcs (uexec cs s)).
  Proof. induction cs as [|c cs IH]; intros s H; [exact H|]. cbn [MStrategy.uexec]. apply IH, ustep_srcs, H. Qed.

  Lemma setup_parts now calls ns s4 : setup now true calls None (strat_new ns) = (GOk tt, s4) ->
    exists s3 ops, schedule_descs fuel cfg sc st None now (st_sched s3) s3 = GOk s4 /\ st_count s3 = 0%nat /\
      st_sched s3 = map desc_of (asked calls) /\ Forall sync_src (st_srcs s3) /\ Forall is_sync ops /\ st_bus s3 = b_run ops.
  Proof.
    intros Hs. pose proof (setup_sched fuel cfg sc st None now calls None ns) as Hd. rewrite Hs in Hd. cbn [snd] in Hd.
    unfold MStrategy.setup, schedule_all_tasks in Hs.
    set (s1 := set_allowed true (make_apis sc (strat_new ns))) in *.
    set (s3 := set_allowed false (uexec calls s1)) in *.
    destruct (schedule_descs fuel cfg sc st None now (st_sched s3) s3) as [s5|x|] eqn:E; try discriminate.
    assert (Ep : forall a b : gres unit * strat, a = b -> snd a = snd b) by (intros a b ->; reflexivity).
    apply Ep in Hs. cbn [snd] in Hs. subst s5. clear Ep.
    destruct (uexec_bus fuel sc st None calls s1) as (o1 & F1 & E1).
    destruct (schedule_descs_frame _ _ _ _ _ _ _ _ _ E) as (_ & G2 & _ & G4).
    exists s3, o1. split; [exact E|]. split; [unfold s3; cbn; rewrite uexec_count; reflexivity|]. split; [congruence|].
    split; [apply uexec_srcs; constructor|]. split; [exact F1|]. exact E1.
  Qed.

  Definition entries_of (sc : scfg) (now : Z) (s : strat) (d : desc) : gres (list str) :=
    if str_eqb (d_time d) (lit "every_minute") then periods_entries fuel MINUTE (dt_date now) (market_period sc s) else GOk [d_time d].

  Hypothesis Hhist : cf_hist cfg = false.

  Definition task_src now s k d es : Prop := exists l, entries_of sc now s d = GOk l /\
    es_start es = Some now /\ es_end es = None /\ es_events es = [] /\
    es_daily es = map (fun e => (e, cls_of k d)) l /\ (es_need es = true \/ l = []).

  Lemma schedule_one_task now d s s' : schedule_one fuel cfg sc st None now d s = GOk s' ->
    exists es, st_srcs s' = st_srcs s ++ [es] /\ task_src now s (st_count s) d es.
  Proof.
    unfold schedule_one. destruct (es_setup_live cfg now st Hhist) as (es0 & -> & H1 & H2 & H3 & H4 & H5).
    destruct (if str_eqb (d_time d) (lit "every_minute") then _ else _) as [l|x|] eqn:El; try discriminate.
    intros H. assert (E : forall a b : strat, GOk a = GOk b -> a = b) by (clear; intros a b E; injection E; auto).
    apply E in H. subst s'. clear E. fold (prio_of d) (cls_of (st_count s) d).
    exists (add_entries (cls_of (st_count s) d) l es0). split; [reflexivity|].
    destruct (add_entries_fields (cls_of (st_count s) d) l es0) as (F1 & F2 & F3 & F4 & F5).
    exists l. split; [exact El|]. rewrite F1, F2, F3, F5. split; [exact H1|]. split; [exact H2|]. split; [exact H4|].
    split; [rewrite add_entries_daily, H3; reflexivity|]. destruct l; auto.
  Qed.

  Lemma schedule_descs_tasks now ds : forall s s', schedule_descs fuel cfg sc st None now ds s = GOk s' ->
    exists ts, st_srcs s' = st_srcs s ++ ts /\ length ts = length ds /\
      forall i d es, nth_error ds i = Some d -> nth_error ts i = Some es -> task_src (now (st_count s + i)%nat) s (st_count s + i) d es.
  Proof.
    induction ds as [|d ds IH]; intros s s'; cbn [schedule_descs].
    - intros H; injection H as <-. exists []. rewrite app_nil_r. split; [reflexivity|]. split; [reflexivity|]. intros [|i] d es; discriminate.
    - destruct (schedule_one fuel cfg sc st None (now (st_count s)) d s) as [s1|x|] eqn:E1; try discriminate. intros H.
      destruct (schedule_one_task _ _ _ _ E1) as (es & F1 & F2). destruct (schedule_one_frame _ _ _ _ _ _ _ _ _ E1) as (_ & _ & _ & F4 & F5 & _).
      destruct (IH _ _ H) as (ts & G1 & G2 & G3). exists (es :: ts). rewrite G1, F1, <- app_assoc. split; [reflexivity|]. split; [cbn; congruence|].
      intros [|i] d' es'; cbn [nth_error].
      + intros H1 H2; injection H1 as <-; injection H2 as <-. rewrite Nat.add_0_r. exact F2.
      + intros H1 H2. specialize (G3 i d' es' H1 H2). rewrite F5 in G3. replace (st_count s + S i)%nat with (S (st_count s) + i)%nat by lia.
        destruct G3 as (l & G3 & G4). exists l. split; [|exact G4]. revert G3. unfold entries_of, market_period. rewrite F4. auto.
  Qed.

  Lemma setup_srcs now calls ns s4 : setup now true calls None (strat_new ns) = (GOk tt, s4) ->
    exists pre ts, st_srcs s4 = pre ++ ts /\ length ts = length (asked calls) /\ Forall sync_src pre /\
      forall k a es, nth_error (asked calls) k = Some a -> nth_error ts k = Some es -> task_src (now k) s4 k (desc_of a) es.
  Proof.
    intros Hs. destruct (setup_parts now calls ns s4 Hs) as (s3 & ops & E & Hc & Hd & Hsy & _ & _).
    destruct (schedule_descs_tasks _ _ _ _ E) as (ts & G1 & G2 & G3). destruct (schedule_descs_frame _ _ _ _ _ _ _ _ _ E) as (_ & _ & F3 & _).
    exists (st_srcs s3), ts. split; [exact G1|]. split; [rewrite G2, Hd; apply map_length|]. split; [exact Hsy|].
    intros k a es Ha Hes. assert (Hk : nth_error (st_sched s3) k = Some (desc_of a)) by (rewrite Hd, nth_error_map, Ha; reflexivity).
    specialize (G3 k _ es Hk Hes). rewrite Hc in G3. destruct G3 as (l & G3 & G4). exists l. split; [|exact G4].
    revert G3. unfold entries_of, market_period. rewrite F3. auto.
  Qed.

  Lemma sync_calls now calls ns s4 : setup now true calls None (strat_new ns) = (GOk tt, s4) ->
    forall c, In c (MBus.calls inst sync_cls (st_bus s4)) -> (exists i, c = CbBal i) \/ (exists i, c = CbOrd i).
  Proof.
    intros Hs c Hc. destruct (setup_parts now calls ns s4 Hs) as (s3 & ops & E & H0 & Hd & _ & Hsy & Hb).
    pose proof (schedule_descs_bus _ _ _ _ _ _ _ _ _ E) as E2. set (regs := task_regs _ _ _) in *.
    assert (Hb4 : st_bus s4 = b_run (ops ++ regs)) by (unfold b_run; rewrite fold_left_app, E2, Hb; reflexivity).
    assert (HD : delivers (of_class sync_cls (live (ops ++ regs))) (MBus.calls inst sync_cls (b_run (ops ++ regs)))).
    { apply delivery_one; [reflexivity|]. intros k' c' p _ Hi. unfold inst in Hi. destruct (eqb_spec sync_cls k'); [auto|discriminate]. }
    rewrite <- Hb4 in HD. destruct HD as (L & EL & HP & _). rewrite EL in Hc. apply in_map_iff in Hc as (x & <- & Hx).
    apply (Permutation_in _ HP) in Hx. unfold of_class in Hx. apply filter_In in Hx as [Hx He].
    assert (Hcl : en_cls x = sync_cls) by (destruct (eqb_spec sync_cls (en_cls x)); [auto|discriminate]).
    assert (Hregs : forall ds j o, In o (task_regs (st_ns s3) j ds) -> exists j' d c p, o = Reg (cls_of j' d) c p).
    { induction ds as [|d ds IH]; intros j o; cbn [task_regs]; [intros []|]. intros [<-|Hin]; [eauto|exact (IH _ _ Hin)]. }
    unfold live in Hx. rewrite live_no_unreg in Hx.
    - cbn [app] in Hx. apply in_flat_map in Hx as (o & Ho & Hx). apply in_app_or in Ho as [Ho|Ho].
      + apply (proj1 (Forall_forall _ _) Hsy) in Ho as (c & p & -> & Hc). destruct Hx as [<-|[]]. exact Hc.
      + destruct (Hregs _ _ _ Ho) as (j' & d & c & p & ->). destruct Hx as [<-|[]]. cbn in Hcl. exfalso. exact (cls_of_sync _ _ Hcl).
    - intros o Ho. apply in_app_or in Ho as [Ho|Ho].
      + apply (proj1 (Forall_forall _ _) Hsy) in Ho as (c & p & -> & _). eauto.
      + destruct (Hregs _ _ _ Ho) as (j' & d & c & p & ->). eauto.
  Qed.
End Setup.

(** ** the owed instants as a list *)
Lemma consecutive_unique lo hi l1 l2 : consecutive lo hi l1 -> consecutive lo hi l2 -> l1 = l2.
Proof. intros [I1 S1] [I2 S2]. apply sorted_ext; [assumption|assumption|]. intros x. rewrite I1, I2. reflexivity. Qed.

Lemma sorted_map {A B} (f : A -> B) (R : B -> B -> Prop) l : StronglySorted (fun a b => R (f a) (f b)) l -> StronglySorted R (map f l).
Proof.
  induction 1 as [|a l Hs IH Hf]; cbn; constructor; [exact IH|]. rewrite Forall_forall in *. intros y Hy. apply in_map_iff in Hy as (x & <- & Hx). auto.
Qed.
Lemma filter_map {A B} (f : A -> B) (p : B -> bool) l : filter p (map f l) = map f (filter (fun x => p (f x)) l).
Proof. induction l as [|a l IH]; [reflexivity|]. cbn. destruct (p (f a)); cbn; rewrite IH; reflexivity. Qed.

Lemma day_evs_times now offs c d :
  Permutation (map fst (day_evs now None (map (fun o => (o, c)) offs) d)) (filter (fun t => now <=? t) (map (fun o => d * DAY + o) offs)) /\
  StronglySorted Z.le (map fst (day_evs now None (map (fun o => (o, c)) offs) d)).
Proof.
  destruct (day_evs_ok now None (map (fun o => (o, c)) offs) d) as (HP & HS & _). split.
  - eapply Permutation_trans; [apply Permutation_map; exact HP|]. unfold day_instants. rewrite map_map. cbn [fst snd].
    rewrite (filter_map (fun o => (d * DAY + o, c))), map_map. cbn [fst]. rewrite (filter_map (fun o => d * DAY + o)).
    apply Permutation_refl' . f_equal. apply filter_ext. intros o. unfold within. rewrite andb_true_r. reflexivity.
  - apply sorted_map. exact HS.
Qed.

Lemma owed_eq now offs c lo n S : owed_on now offs lo (lo + n - 1) S ->
  S = map fst (flat_map (day_evs now None (map (fun o => (o, c)) offs)) (day_range lo n)).
Proof.
  intros (days & ls & Hc & HF & ->).
  assert (Hd : days = day_range lo n).
  { pose proof (day_range_consecutive lo (lo + n - 1)) as H. replace (lo + n - 1 - lo + 1) with n in H by lia. exact (consecutive_unique _ _ _ _ Hc H). }
  rewrite <- Hd. clear Hd Hc. induction HF as [|d l days ls [HP HS] HF IH]; [reflexivity|]. cbn [concat flat_map]. rewrite map_app, IH. f_equal.
  destruct (day_evs_times now offs c d) as [HP' HS']. apply sorted_perm; [assumption|assumption|].
  eapply Permutation_trans; [exact HP|]. apply Permutation_sym. exact HP'.
Qed.
Lemma owed_exists now offs lo n : exists S, owed_on now offs lo (lo + n - 1) S.
Proof.
  set (c := ECls [] 0). exists (concat (map (fun d => map fst (day_evs now None (map (fun o => (o, c)) offs) d)) (day_range lo n))).
  exists (day_range lo n), (map (fun d => map fst (day_evs now None (map (fun o => (o, c)) offs) d)) (day_range lo n)).
  split; [pose proof (day_range_consecutive lo (lo + n - 1)) as H; replace (lo + n - 1 - lo + 1) with n in H by lia; exact H|].
  split; [|reflexivity]. induction (day_range lo n) as [|d l IH]; constructor; [apply day_evs_times|exact IH].
Qed.

(** ** order of the owed instants *)
Lemma owed_sorted now offs lo hi S : (forall a b, In a offs -> In b offs -> a - b < DAY) -> owed_on now offs lo hi S -> StronglySorted Z.le S.
Proof.
  intros Hspan (days & ls & [_ Hss] & HF & ->).
  induction HF as [|d l days ls [HP HS] HF IH]; [constructor|]. cbn [concat]. inversion Hss as [|? ? Hss' Hlt]; subst.
  apply StronglySorted_app_intro; [exact HS|exact (IH Hss')|].
  assert (Hel : forall d l x, Permutation l (filter (fun t => now <=? t) (map (fun o => d * DAY + o) offs)) -> In x l -> exists o, In o offs /\ x = d * DAY + o).
  { intros d0 l0 x HP0 Hx. apply (Permutation_in _ HP0) in Hx. apply filter_In in Hx as [Hx _]. apply in_map_iff in Hx as (o & <- & Ho). eauto. }
  intros x y Hx Hy. destruct (Hel d l x HP Hx) as (o & Ho & ->). apply in_concat in Hy as (l' & Hl' & Hy).
  clear IH HS HP Hx Hss Hss'. induction HF as [|d' l0 days ls [HP' _] HF IH]; [destruct Hl'|]. inversion Hlt; subst.
  destruct Hl' as [->|Hl']; [|apply IH; assumption]. destruct (Hel d' l' y HP' Hy) as (o' & Ho' & ->).
  pose proof (Hspan o o' Ho Ho'). unfold DAY, US in *. lia.
Qed.

Lemma sorted_filter_prefix (p : Z -> bool) (l : list Z) : (forall a b, a <= b -> p b = true -> p a = true) -> StronglySorted Z.le l -> exists t, l = filter p l ++ t.
Proof.
  intros Hp. induction 1 as [|a l Hs (t & IH) Hf]; [exists []; reflexivity|]. cbn [filter]. destruct (p a) eqn:E.
  - exists t. cbn. f_equal. exact IH.
  - assert (filter p l = []) as ->; [|eexists; reflexivity].
    rewrite Forall_forall in Hf. destruct (filter p l) as [|b r] eqn:Eb; [reflexivity|]. exfalso.
    assert (Hb : In b (filter p l)) by (rewrite Eb; left; reflexivity). apply filter_In in Hb as [Hb1 Hb2].
    rewrite (Hp a b (Hf b Hb1) Hb2) in E. discriminate.
Qed.

(** a beginning [em] of a sorted [S] (or more) whose continuation fails [p] contains what satisfies [p] *)
Lemma prefix_covers (p : Z -> bool) (em S : list Z) : (forall a b, a <= b -> p b = true -> p a = true) -> StronglySorted Z.le S ->
  agree em S -> (forall y, nth_error S (length em) = Some y -> p y = false) -> exists t, em = filter p S ++ t.
Proof.
  intros Hp Hs (t & [E|E]) Hn.
  - subst S. assert (Hem : StronglySorted Z.le em).
    { clear - Hs. induction em as [|a em IH]; [constructor|]. cbn in Hs. inversion Hs; subst. constructor; [apply IH; assumption|]. rewrite Forall_forall in *. intros x Hx. apply H2. apply in_or_app; auto. }
    destruct (sorted_filter_prefix p em Hp Hem) as (t' & Et). rewrite filter_app.
    assert (filter p t = []) as ->; [|exists t'; rewrite app_nil_r; exact Et].
    destruct t as [|y t]; [reflexivity|]. rewrite nth_error_app2, Nat.sub_diag in Hn by lia. specialize (Hn y eq_refl).
    assert (Ht : StronglySorted Z.le (y :: t)) by (clear - Hs; induction em as [|a em IH]; [exact Hs|]; cbn in Hs; inversion Hs; subst; auto).
    destruct (filter p (y :: t)) as [|b r] eqn:Eb; [reflexivity|]. exfalso.
    assert (Hb : In b (filter p (y :: t))) by (rewrite Eb; left; reflexivity). apply filter_In in Hb as [Hb1 Hb2].
    inversion Ht as [|? ? _ Hf]; subst. rewrite Forall_forall in Hf.
    assert (y <= b) by (destruct Hb1 as [->|Hb1]; [lia|apply Hf; exact Hb1]). rewrite (Hp y b ltac:(assumption) Hb2) in Hn. discriminate.
  - destruct (sorted_filter_prefix p S Hp Hs) as (t' & Et). exists (t' ++ t). rewrite E, Et at 1. rewrite app_assoc. reflexivity.
Qed.

(** ** the offsets owed *)
Lemma steps_in_day step a b l : 0 < step -> tod_ok a -> tod_ok b -> steps step a b l -> forall x, In x l -> 0 <= x < DAY.
Proof. intros Hs Ha Hb [_ Hin] x Hx. apply Hin in Hx as (k & Hk & -> & Hle). unfold tod_ok in *. nia. Qed.

Lemma owes_span ps t offs : Forall (fun p => tod_ok (fst p) /\ tod_ok (snd p)) ps -> owes ps t offs ->
  forall a b, In a offs -> In b offs -> a - b < DAY.
Proof.
  intros Hps Ho. destruct Ho as [ls Hls| | |t v Hm]; try (intros a b [<-|[]] [<-|[]]; unfold DAY, US; lia).
  assert (Hr : forall x, In x (concat ls) -> 0 <= x < DAY).
  { clear - Hps Hls. induction Hls as [|p l ps ls Hl HF IH]; [intros x []|]. inversion Hps as [|? ? [Ha Hb] Hps']; subst.
    cbn [concat]. intros x Hx. apply in_app_or in Hx as [Hx|Hx]; [|exact (IH Hps' x Hx)]. exact (steps_in_day MINUTE _ _ _ ltac:(reflexivity) Ha Hb Hl x Hx). }
  intros a b Ha Hb. specialize (Hr a Ha) as H1. specialize (Hr b Hb) as H2. unfold DAY, US in *. lia.
Qed.

Lemma mod_lin a b : a mod US = 0 -> b mod US = 0 -> (a + b) mod US = 0.
Proof. intros Ha Hb. rewrite Z.add_mod, Ha, Hb by discriminate. reflexivity. Qed.
Lemma mod_mulr a b : b mod US = 0 -> (a * b) mod US = 0.
Proof. intros Hb. rewrite Z.mul_mod, Hb by discriminate. rewrite Z.mul_0_r. reflexivity. Qed.

Lemma owes_whole ps t offs : ps <> [] -> Forall (fun p => fst p mod US = 0 /\ snd p mod US = 0) ps -> owes ps t offs ->
  Forall (fun o => o mod US = 0) offs.
Proof.
  intros Hne Hw Ho.
  assert (Hop : opening ps mod US = 0) by (destruct ps as [|p ps]; [congruence|]; inversion Hw as [|? ? [H _] _]; exact H).
  assert (Hcl : closing ps mod US = 0).
  { destruct ps as [|p ps]; [congruence|]. cbn [closing].
    assert (H : In (last (p :: ps) p) (p :: ps)).
    { destruct (exists_last Hne) as (l & x & E). rewrite E, last_last. apply in_or_app. right; left; reflexivity. }
    rewrite Forall_forall in Hw. apply Hw in H. apply H. }
  destruct Ho as [ls Hls| | |t v Hm].
  - clear Hop Hcl Hne. induction Hls as [|p l ps ls Hl HF IH]; [constructor|]. inversion Hw as [|? ? [Ha Hb] Hw']; subst. cbn [concat]. apply Forall_app. split; [|exact (IH Hw')].
    apply Forall_forall. intros x Hx. apply Hl in Hx as (k & _ & -> & _). apply mod_lin; [exact Ha|apply mod_mulr; reflexivity].
  - constructor; [|constructor]. change (opening ps - 30 * MINUTE) with (opening ps + (-30) * MINUTE). apply mod_lin; [exact Hop|reflexivity].
  - constructor; [|constructor]. apply mod_lin; [exact Hcl|reflexivity].
  - constructor; [|constructor]. destruct Hm as [b w Hb|b w gs plus nl Hb _ _|h m a b|h m s r a b c]; try (apply mod_mulr; reflexivity);
      (assert (Hw0 : w mod US = 0) by (destruct Hb; assumption)); [exact Hw0|].
    destruct plus; [apply mod_lin; [exact Hw0|apply mod_mulr; reflexivity]|].
    replace (w - last_sec gs * US) with (w + (- last_sec gs) * US) by lia. apply mod_lin; [exact Hw0|apply mod_mulr; reflexivity].
Qed.

(** ** runs of a task process *)
Lemma periods_of_raw ps : periods_of (raw_of ps) = ps.
Proof. induction ps as [|[a b] ps IH]; [reflexivity|]. cbn. f_equal. exact IH. Qed.

Lemma calls_of_app k a b : calls_of k (a ++ b) = calls_of k a ++ calls_of k b.
Proof. apply flat_map_app. Qed.

Lemma calls_emits (bus : bus ecls cb) k K tgt (L : list (nat * (Z * ecls))) :
  (forall k' e, In (k', e) L -> calls_of k (map (fun c => (fst e, c)) (MBus.calls inst (snd e) bus)) = if Nat.eqb k' K then [(fst e, tgt)] else []) ->
  calls_of k (flat_map (fun ke => map (fun c => (fst (snd ke), c)) (MBus.calls inst (snd (snd ke)) bus)) L) =
  map (fun e => (fst e, tgt)) (map snd (filter (fun e => Nat.eqb (fst e) K) L)).
Proof.
  induction L as [|[k' e] L IH]; intros H; [reflexivity|]. cbn [flat_map filter fst snd]. rewrite calls_of_app, (H k' e (or_introl eq_refl)), IH by (intros; apply H; right; assumption).
  destruct (Nat.eqb k' K); reflexivity.
Qed.

Section Runs.
  Variables (fuel : nat) (cfg : escfg) (sc : scfg) (tz st : Z) (now : nat -> Z) (calls : list ucall) (ns : dict str obj) (dates : list Z).
  Variables (s4 : strat) (s : lstate scb sworld) (ps : list (Z * Z)).
  Hypothesis Hrun : runs fuel cfg sc tz st None now calls ns dates s4 s.
  Hypothesis Hhist : cf_hist cfg = false.
  Hypothesis Hmp : market_period sc s4 = raw_of ps.
  Hypothesis Hps : Forall (fun p => tod_ok (fst p) /\ tod_ok (snd p)) ps.
  Hypothesis Hwhole : Forall (fun p => fst p mod US = 0 /\ snd p mod US = 0) ps.
  Hypothesis Hne : ps <> [].
  Hypothesis Hf1 : (1441 <= fuel)%nat.
  Hypothesis Hf2 : (Z.to_nat (cf_count cfg) < fuel)%nat.

  Definition npre : nat := (length (st_srcs s4) - length (asked calls))%nat.
  Notation lc := (loop_cfg cfg sc s4).

  Lemma lc_mp : cf_mp lc = ps.
  Proof. unfold loop_cfg. cbn [cf_mp]. rewrite Hmp. apply periods_of_raw. Qed.

  Lemma run_parts : exists s0 ls, boot fuel lc tz (st_srcs s4) dates = Some s0 /\ length dates = length (st_srcs s4) /\
    Forall ok_label ls /\ l_exec (sched_handler fuel lc tz) s0 ls = Some s /\
    setup fuel cfg sc st None now true calls None (strat_new ns) = (GOk tt, s4).
  Proof.
    destruct Hrun as (s0 & ls & E & Hl & Hok & Hex). exists s0, ls. unfold start in E.
    destruct (setup fuel cfg sc st None now true calls None (strat_new ns)) as [[[]|x|] s5] eqn:Es; try discriminate.
    destruct (boot fuel (loop_cfg cfg sc s5) tz (st_srcs s5) dates) as [s0'|] eqn:Eb; [|discriminate].
    assert (E1 : s5 = s4 /\ s0' = s0).
    { clear - E. assert (G : forall A B (a a' : A) (b b' : B), Some (a, b) = Some (a', b') -> a = a' /\ b = b') by (intros ? ? ? ? ? ? H; injection H; auto). exact (G _ _ _ _ _ _ E). }
    destruct E1 as [-> ->]. repeat split; assumption.
  Qed.

  Lemma srcs_shape : exists pre ts, st_srcs s4 = pre ++ ts /\ length pre = npre /\ length ts = length (asked calls) /\ Forall sync_src pre /\
      forall k a es, nth_error (asked calls) k = Some a -> nth_error ts k = Some es -> task_src fuel sc (now k) s4 k (desc_of a) es.
  Proof.
    destruct run_parts as (s0 & ls & _ & _ & _ & _ & Hs). destruct (setup_srcs fuel cfg sc st Hhist now calls ns s4 Hs) as (pre & ts & H1 & H2 & H3 & H4).
    exists pre, ts. split; [exact H1|]. split; [unfold npre; rewrite H1, app_length, H2; lia|]. auto.
  Qed.

  Lemma no_events es : In es (st_srcs s4) -> es_events es = [].
  Proof.
    destruct srcs_shape as (pre & ts & H1 & _ & H2 & H3 & H4). rewrite H1. intros Hin. apply in_app_or in Hin as [Hin|Hin].
    - rewrite Forall_forall in H3. apply H3; exact Hin.
    - apply In_nth_error in Hin as (k & Hk). assert (Hlt : (k < length (asked calls))%nat) by (rewrite <- H2; apply nth_error_Some; congruence).
      apply nth_error_Some in Hlt. destruct (nth_error (asked calls) k) as [a|] eqn:Ea; [|congruence].
      destruct (H4 k a es Ea Hk) as (l & _ & _ & _ & E & _). exact E.
  Qed.

  (** the class of every event delivered *)
  Lemma emit_cls k e : In (k, e) (w_emits (l_w s)) ->
    (k < npre /\ snd e = sync_cls)%nat \/
    (exists j a, k = (npre + j)%nat /\ nth_error (asked calls) j = Some a /\ snd e = cls_of j (desc_of a)).
  Proof.
    intros Hin. destruct run_parts as (s0 & ls & Hb & Hl & Hok & Hex & Hs).
    destruct (one_from fuel lc tz (st_srcs s4) dates s0 ltac:(lia) Hl Hb ls s Hok Hex) with (k := k) (e := e) as (es & Hes & expr & off & d & Hd & _); [|exact Hin|].
    { intros es He. unfold evs_from. rewrite (no_events es He). constructor. }
    destruct srcs_shape as (pre & ts & H1 & H0 & H2 & H3 & H4). rewrite H1 in Hes.
    destruct (Nat.lt_ge_cases k npre) as [Hk|Hk].
    - left. split; [exact Hk|]. rewrite nth_error_app1 in Hes by lia. apply nth_error_In in Hes. rewrite Forall_forall in H3. destruct (H3 es Hes) as [_ HF].
      rewrite Forall_forall in HF. apply (HF _ Hd).
    - right. rewrite nth_error_app2 in Hes by lia. rewrite H0 in Hes. exists (k - npre)%nat.
      assert (Hlt : (k - npre < length (asked calls))%nat) by (rewrite <- H2; apply nth_error_Some; congruence).
      apply nth_error_Some in Hlt. destruct (nth_error (asked calls) (k - npre)) as [a|] eqn:Ea; [|congruence]. exists a.
      split; [lia|]. split; [reflexivity|]. destruct (H4 _ a es Ea Hes) as (l & _ & _ & _ & _ & E & _). rewrite E in Hd.
      apply in_map_iff in Hd as (y & Ey & _). injection Ey as _ <-. reflexivity.
  Qed.

  Lemma calls_emitted k n id t : nth_error (asked calls) k = Some (n, id, t) ->
    calls_of k (invoked s4 (l_w s)) = map (fun e => (fst e, dget n (st_ns s4))) (emitted (npre + k) (l_w s)).
  Proof.
    intros Hk. destruct run_parts as (s0 & ls & Hb & Hl & Hok & Hex & Hs).
    assert (Hd : st_sched s4 = map desc_of (asked calls)).
    { pose proof (setup_sched fuel cfg sc st None now calls None ns) as H. rewrite Hs in H. exact H. }
    unfold invoked, emitted. apply calls_emits. intros k' e Hin. destruct (emit_cls k' e Hin) as [[Hlt Hc]|(j & a & -> & Ha & Hc)]; rewrite Hc.
    - destruct (Nat.eqb_spec k' (npre + k)); [lia|]. pose proof (sync_calls fuel cfg sc st now calls ns s4 Hs) as Hsy.
      induction (MBus.calls inst sync_cls (st_bus s4)) as [|c cs IH]; [reflexivity|]. cbn [map].
      change ((fst e, c) :: ?l) with ([(fst e, c)] ++ l). rewrite calls_of_app, IH by (intros c' Hc'; apply Hsy; right; exact Hc'). destruct (Hsy c (or_introl eq_refl)) as [(i & ->)|(i & ->)]; reflexivity.
    - assert (Hj : nth_error (st_sched s4) j = Some (desc_of a)) by (rewrite Hd, nth_error_map, Ha; reflexivity).
      rewrite (entry_calls fuel cfg sc st None now calls ns s4 Hs j _ Hj). unfold calls_of. cbn [map flat_map snd fst app].
      destruct (Nat.eqb_spec (npre + j) (npre + k)), (Nat.eqb_spec j k); try lia; [|reflexivity]. subst j.
      rewrite Hk in Ha. injection Ha as <-. reflexivity.
  Qed.

  (** the source of the k-th entry delivers the owed instants first *)
  Lemma entry_good k n id t offs d s0 : boot fuel lc tz (st_srcs s4) dates = Some s0 -> length dates = length (st_srcs s4) ->
    nth_error (asked calls) k = Some (n, id, t) -> owes ps t offs -> nth_error dates (npre + k) = Some d ->
    (npre + k < length (st_srcs s4))%nat /\
    forall es, nth_error (w_srcs (l_w s0)) (npre + k) = Some es ->
      good fuel lc es (flat_map (day_evs (now k) None (map (fun o => (o, cls_of k (desc_of (n, id, t)))) offs)) (day_range d (cf_count cfg))).
  Proof.
    intros Hb Hl Hk Ho Hd. split; [rewrite <- Hl; apply nth_error_Some; congruence|]. intros es Hes.
    destruct (boot_srcs fuel lc tz ltac:(lia) (st_srcs s4) dates s0 Hb Hl _ d Hd) as (es0 & r & es2 & E0 & Ep & E2).
    rewrite Hes in E2. injection E2 as <-.
    destruct srcs_shape as (pre & ts & H1 & H0 & H2 & H3 & H4). rewrite H1, nth_error_app2 in E0 by lia.
    replace (npre + k - length pre)%nat with k in E0 by lia.
    destruct (H4 k _ es0 Hk E0) as (l & El & S1 & S2 & S3 & S4 & S5).
    destruct (entry_meaning ps t offs fuel (dt_date (now k)) Hne Hps) as (l' & El' & He); [eapply Forall_impl; [|exact Hwhole]; intros p [Hp _]; exact Hp|exact Hf1|exact Ho|].
    unfold entries_of, desc_of in El. cbn [d_time fst snd] in El. rewrite Hmp in El.
    assert (l' = l) as ->.
    { revert El El'. destruct (str_eqb (time_dict t) (lit "every_minute")); intros E E'; rewrite E in E'; injection E' as <-; reflexivity. }
    change (cf_count cfg) with (cf_count lc).
    eapply (peeked_good fuel lc es0 (now k)); [exact Hhist|exact S1|exact S2| | |exact Hf2|exact Ep].
    - rewrite S4, lc_mp. unfold tasks_of, entries_for in *. clear - He. induction He as [|e o l offs H He IH]; cbn [map]; constructor; [cbn; auto|exact IH].
    - destruct S5 as [S5| ->]; [left; exact S5|right]. inversion He. reflexivity.
  Qed.

  Lemma process_calls k n id t offs d S : nth_error (asked calls) k = Some (n, id, t) -> owes ps t offs ->
    nth_error dates (npre + k) = Some d -> owed_on (now k) offs d (d + cf_count cfg - 1) S ->
    dget n (st_ns s4) = Some (OUser id) ->
    agree (map fst (calls_of k (invoked s4 (l_w s)))) S /\ Forall (fun c => snd c = Some (OUser id)) (calls_of k (invoked s4 (l_w s))).
  Proof.
    intros Hk Ho Hd HS Hn. rewrite (calls_emitted k n id t Hk), map_map. cbn [fst].
    destruct run_parts as (s0 & ls & Hb & Hl & Hok & Hex & Hs).
    destruct (entry_good k n id t offs d s0 Hb Hl Hk Ho Hd) as [Hlt Hg].
    split.
    - destruct (one_comparable fuel lc tz (st_srcs s4) dates s0 ltac:(lia) Hl Hb ls s Hok Hex _ _ Hlt Hg) as (t' & Ht).
      rewrite (owed_eq (now k) offs (cls_of k (desc_of (n, id, t))) d (cf_count cfg) S HS). exists (map fst t').
      destruct Ht as [->| ->]; [left|right]; rewrite map_app; reflexivity.
    - apply Forall_forall. intros c Hc. apply in_map_iff in Hc as (e & <- & _). exact Hn.
  Qed.

  Hypothesis Htz : tz mod US = 0.

  Lemma instants_whole k n id t offs x : nth_error (asked calls) k = Some (n, id, t) -> owes ps t offs ->
    In x (map fst (emitted (npre + k) (l_w s))) -> x mod US = 0.
  Proof.
    intros Hk Ho Hx. apply in_map_iff in Hx as (e & <- & He).
    destruct run_parts as (s0 & ls & Hb & Hl & Hok & Hex & Hs).
    assert (Hin : In ((npre + k)%nat, e) (w_emits (l_w s))).
    { unfold emitted in He. apply in_map_iff in He as ([k' e'] & <- & He). apply filter_In in He as [He Ek]. cbn [fst snd] in *. apply Nat.eqb_eq in Ek. subst k'. exact He. }
    destruct (one_from fuel lc tz (st_srcs s4) dates s0 ltac:(lia) Hl Hb ls s Hok Hex) with (k := (npre + k)%nat) (e := e) as (es & Hes & expr & off & d & Hd & Hoff & ->); [|exact Hin|].
    { intros es Hes. unfold evs_from. rewrite (no_events es Hes). constructor. }
    destruct srcs_shape as (pre & ts & H1 & H0 & H2 & H3 & H4). rewrite H1, nth_error_app2 in Hes by lia.
    replace (npre + k - length pre)%nat with k in Hes by lia.
    destruct (H4 k _ es Hk Hes) as (l & El & S1 & S2 & S3 & S4 & S5).
    destruct (entry_meaning ps t offs fuel (dt_date (now k)) Hne Hps) as (l' & El' & Hent); [eapply Forall_impl; [|exact Hwhole]; intros p [Hp _]; exact Hp|exact Hf1|exact Ho|].
    unfold entries_of, desc_of in El. cbn [d_time fst snd] in El. rewrite Hmp in El.
    assert (l' = l) as ->.
    { revert El El'. destruct (str_eqb (time_dict t) (lit "every_minute")); intros E E'; rewrite E in E'; injection E' as <-; reflexivity. }
    pose proof (owes_whole ps t offs Hne Hwhole Ho) as Hw. rewrite S4 in Hd. apply in_map_iff in Hd as (y & Ey & Hy). injection Ey as -> _.
    rewrite lc_mp in Hoff. assert (Hov : off mod US = 0).
    { clear - Hent Hw Hy Hoff. induction Hent as [|e o l offs H He IH]; [destruct Hy|]. inversion Hw; subst. destruct Hy as [->|Hy]; [|apply IH; assumption]. rewrite H in Hoff. apply Ok_inj in Hoff. congruence. }
    apply mod_lin; [apply mod_mulr; reflexivity|exact Hov].
  Qed.

  Lemma sorted_evs (c : ecls) (l : list (Z * ecls)) : Forall (fun e => snd e = c /\ fst e mod US = 0) l -> StronglySorted Z.le (map fst l) -> StronglySorted (le_ev tz) l.
  Proof.
    induction l as [|e l IH]; intros HF Hs; constructor; inversion HF as [|? ? [He1 He2] HF']; inversion Hs as [|? ? Hs' Hle]; subst.
    - apply IH; assumption.
    - rewrite Forall_forall in *. intros y Hy. destruct (HF' y Hy) as [Hy1 Hy2]. apply before_le_ev; [exact Htz|exact He2|exact Hy2|].
      unfold before. rewrite Hy1. assert (fst e <= fst y) by (apply Hle; apply in_map; exact Hy). lia.
  Qed.

  Lemma window_facts k n id t offs d S : nth_error (asked calls) k = Some (n, id, t) -> owes ps t offs -> owed_on (now k) offs d (d + cf_count cfg - 1) S ->
    let W := flat_map (day_evs (now k) None (map (fun o => (o, cls_of k (desc_of (n, id, t)))) offs)) (day_range d (cf_count cfg)) in
    S = map fst W /\ StronglySorted Z.le S /\ StronglySorted (le_ev tz) W /\ Forall (fun e => snd e = cls_of k (desc_of (n, id, t)) /\ fst e mod US = 0) W.
  Proof.
    intros Hk Ho HS W. pose proof (owed_eq (now k) offs (cls_of k (desc_of (n, id, t))) d (cf_count cfg) S HS) as E. fold W in E.
    pose proof (owed_sorted (now k) offs _ _ S (owes_span ps t offs Hps Ho) HS) as Hs.
    assert (HF : Forall (fun e => snd e = cls_of k (desc_of (n, id, t)) /\ fst e mod US = 0) W).
    { apply Forall_forall. intros e He. apply in_flat_map in He as (d' & _ & He). unfold day_evs in He. apply (Permutation_in _ (sort_perm _ _)) in He.
      unfold day_instants in He. apply filter_In in He as [He _]. apply in_map_iff in He as ([o c] & <- & He). apply in_map_iff in He as (o' & Eo & Ho').
      injection Eo as <- <-. cbn [fst snd]. split; [reflexivity|]. apply mod_lin; [apply mod_mulr; reflexivity|].
      pose proof (owes_whole ps t offs Hne Hwhole Ho) as Hw. rewrite Forall_forall in Hw. apply Hw; exact Ho'. }
    split; [exact E|]. split; [exact Hs|]. split; [|exact HF]. eapply sorted_evs; [exact HF|]. rewrite <- E. exact Hs.
  Qed.

  (** nothing is overtaken *)
  Lemma process_order j nj idj tj oj k n id t offs d S x :
    w_hung (l_w s) = false ->
    nth_error (asked calls) j = Some (nj, idj, tj) -> owes ps tj oj ->
    nth_error (asked calls) k = Some (n, id, t) -> owes ps t offs ->
    nth_error dates (npre + k) = Some d -> owed_on (now k) offs d (d + cf_count cfg - 1) S ->
    In x (map fst (calls_of j (invoked s4 (l_w s)))) ->
    exists r, map fst (calls_of k (invoked s4 (l_w s))) =
      filter (fun y => if str_eqb t (lit "every_minute") && negb (str_eqb tj (lit "every_minute")) then y <=? x else y <? x) S ++ r.
  Proof.
    intros Hh Hj Hoj Hk Ho Hd HS Hx.
    rewrite (calls_emitted j nj idj tj Hj), map_map in Hx. cbn [fst] in Hx.
    rewrite (calls_emitted k n id t Hk), map_map. cbn [fst].
    pose proof (instants_whole j nj idj tj oj x Hj Hoj Hx) as Hxw.
    apply in_map_iff in Hx as (e & Ee & He).
    assert (Hin : In ((npre + j)%nat, e) (w_emits (l_w s))).
    { unfold emitted in He. apply in_map_iff in He as ([k' e'] & <- & He). apply filter_In in He as [He Ek]. cbn [fst snd] in *. apply Nat.eqb_eq in Ek. subst k'. exact He. }
    destruct run_parts as (s0 & ls & Hb & Hl & Hok & Hex & Hs).
    destruct (entry_good k n id t offs d s0 Hb Hl Hk Ho Hd) as [Hlt Hg].
    destruct (window_facts k n id t offs d S Hk Ho HS) as (ES & HsS & HsW & HFW). set (W := flat_map _ _) in *.
    destruct (one_comparable fuel lc tz (st_srcs s4) dates s0 ltac:(lia) Hl Hb ls s Hok Hex _ _ Hlt Hg) as (t' & Ht).
    apply prefix_covers.
    - intros a b Hab. destruct (_ && _); rewrite ?Z.leb_le, ?Z.ltb_lt; lia.
    - exact HsS.
    - rewrite ES. exists (map fst t'). destruct Ht as [Ht|Ht]; [left|right]; rewrite Ht, map_app; reflexivity.
    - intros y Hy. rewrite map_length in Hy. rewrite ES, nth_error_map in Hy.
      destruct (nth_error W (length (emitted (npre + k) (l_w s)))) as [ye|] eqn:EW; [|discriminate]. injection Hy as <-.
      pose proof (one_order fuel lc tz (st_srcs s4) dates s0 ltac:(lia) Hl Hb ls s Hok Hex _ _ Hlt Hg Hh HsW _ e Hin ye EW) as Hle.
      rewrite Forall_forall in HFW. destruct (HFW ye (nth_error_In _ _ EW)) as [Hyc Hyw].
      apply before_le_ev in Hle; [|exact Htz|rewrite Ee; exact Hxw|exact Hyw].
      destruct (emit_cls _ e Hin) as [[Hlt' _]|(j' & a & Ej & Ha & Hc)]; [lia|]. assert (j' = j) by lia. subst j'. rewrite Hj in Ha. injection Ha as <-.
      unfold before in Hle. rewrite Hc, Hyc, Ee in Hle. unfold cls_of, task_cls, prio_of, desc_of in Hle. cbn [ec_prio d_time fst snd] in Hle.
      assert (Het : forall u, str_eqb (time_dict u) (lit "every_minute") = str_eqb u (lit "every_minute")).
      { intros u. unfold time_dict. destruct (str_eqb_spec u (lit "open")) as [->|]; [reflexivity|]. destruct (str_eqb_spec u (lit "close")) as [->|]; [reflexivity|].
        destruct (str_eqb_spec u (lit "before_open")) as [->|]; [reflexivity|]. destruct (str_eqb_spec u (lit "after_close")) as [->|]; reflexivity. }
      rewrite !Het in Hle.
      destruct (str_eqb t (lit "every_minute")); destruct (str_eqb tj (lit "every_minute")); cbn [andb negb]; rewrite ?Z.leb_gt, ?Z.ltb_ge; lia.
  Qed.

  (** when the loop goes to sleep, nothing due is left *)
  Lemma process_sleep clock ex s' m k n id t offs d S :
    w_hung (l_w s) = false -> l_step (sched_handler fuel lc tz) s (LTurn clock ex) = Some s' -> l_mode s' = Arming m ->
    nth_error (asked calls) k = Some (n, id, t) -> owes ps t offs ->
    nth_error dates (npre + k) = Some d -> owed_on (now k) offs d (d + cf_count cfg - 1) S ->
    exists r, map fst (calls_of k (invoked s4 (l_w s))) = filter (fun y => y - tz <=? clock * 1000) S ++ r.
  Proof.
    intros Hh Hst Hm Hk Ho Hd HS.
    rewrite (calls_emitted k n id t Hk), map_map. cbn [fst].
    destruct run_parts as (s0 & ls & Hb & Hl & Hok & Hex & Hs).
    destruct (entry_good k n id t offs d s0 Hb Hl Hk Ho Hd) as [Hlt Hg].
    destruct (window_facts k n id t offs d S Hk Ho HS) as (ES & HsS & HsW & HFW). set (W := flat_map _ _) in *.
    destruct (one_comparable fuel lc tz (st_srcs s4) dates s0 ltac:(lia) Hl Hb ls s Hok Hex _ _ Hlt Hg) as (t' & Ht).
    assert (Hc : l_mode s = Checking /\ s' = check_turn clock ex s).
    { unfold l_step in Hst. destruct (l_mode s); try discriminate. injection Hst as <-. auto. }
    destruct Hc as [Hc ->].
    apply prefix_covers.
    - intros a b Hab. rewrite !Z.leb_le. lia.
    - exact HsS.
    - rewrite ES. exists (map fst t'). destruct Ht as [Ht|Ht]; [left|right]; rewrite Ht, map_app; reflexivity.
    - intros y Hy. rewrite map_length in Hy. rewrite ES, nth_error_map in Hy.
      destruct (nth_error W (length (emitted (npre + k) (l_w s)))) as [ye|] eqn:EW; [|discriminate]. injection Hy as <-.
      pose proof (one_sleep fuel lc tz (st_srcs s4) dates s0 ltac:(lia) Hl Hb ls s Hok Hex _ _ Hlt Hg clock ex m Hc Hh Hm ye EW) as Hle.
      rewrite Forall_forall in HFW. destruct (HFW ye (nth_error_In _ _ EW)) as [_ Hyw].
      destruct (ms_whole tz (fst ye) Htz Hyw) as [E1 E2]. unfold milliseconds_to_dt in E2. apply Z.leb_gt. lia.
  Qed.

  (** no call before its instant *)
  Lemma process_not_early k n id t offs x o : nth_error (asked calls) k = Some (n, id, t) -> owes ps t offs ->
    In (x, o) (calls_of k (invoked s4 (l_w s))) -> exists m clock, In (m, clock) (l_log s) /\ x - tz <= clock * 1000.
  Proof.
    intros Hk Ho Hx. rewrite (calls_emitted k n id t Hk) in Hx. apply in_map_iff in Hx as (e & Ee & He). injection Ee as Ee _.
    assert (Hxw : x mod US = 0) by (eapply instants_whole; [exact Hk|exact Ho|apply in_map_iff; exists e; auto]).
    assert (Hin : In ((npre + k)%nat, e) (w_emits (l_w s))).
    { unfold emitted in He. apply in_map_iff in He as ([k' e'] & <- & He). apply filter_In in He as [He Ek]. cbn [fst snd] in *. apply Nat.eqb_eq in Ek. subst k'. exact He. }
    destruct run_parts as (s0 & ls & Hb & Hl & Hok & Hex & Hs).
    destruct (one_logged fuel lc tz (st_srcs s4) dates s0 ltac:(lia) Hl Hb ls s Hok Hex _ e Hin) as (m & clock & H1 & H2 & H3).
    exists m, clock. split; [exact H1|]. destruct (ms_whole tz x Htz Hxw) as [E1 E2]. unfold milliseconds_to_dt in E2. rewrite Ee in H2. lia.
  Qed.
  (** entries owed the same instants with the same priority are called in the order of their run_daily calls *)
  Lemma process_ties i ni idi ti oi j nj idj tj oj di dj S : w_hung (l_w s) = false -> (i < j)%nat ->
    nth_error (asked calls) i = Some (ni, idi, ti) -> owes ps ti oi ->
    nth_error (asked calls) j = Some (nj, idj, tj) -> owes ps tj oj ->
    str_eqb ti (lit "every_minute") = str_eqb tj (lit "every_minute") ->
    nth_error dates (npre + i) = Some di -> owed_on (now i) oi di (di + cf_count cfg - 1) S ->
    nth_error dates (npre + j) = Some dj -> owed_on (now j) oj dj (dj + cf_count cfg - 1) S ->
    (Nat.min (length (calls_of j (invoked s4 (l_w s)))) (length S) <= length (calls_of i (invoked s4 (l_w s))))%nat.
  Proof.
    intros Hh Hij Hi Hoi Hj Hoj Et Hdi HSi Hdj HSj.
    rewrite (calls_emitted i ni idi ti Hi), (calls_emitted j nj idj tj Hj), !map_length.
    destruct run_parts as (s0 & ls & Hb & Hl & Hok & Hex & Hs).
    destruct (entry_good i ni idi ti oi di s0 Hb Hl Hi Hoi Hdi) as [Hlti Hgi].
    destruct (entry_good j nj idj tj oj dj s0 Hb Hl Hj Hoj Hdj) as [Hltj Hgj].
    destruct (window_facts i ni idi ti oi di S Hi Hoi HSi) as (ESi & _ & _ & HFi). destruct (window_facts j nj idj tj oj dj S Hj Hoj HSj) as (ESj & _ & _ & HFj). replace (length S) with (length (flat_map (day_evs (now j) None (map (fun o => (o, cls_of j (desc_of (nj, idj, tj)))) oj)) (day_range dj (cf_count cfg)))) by (rewrite ESj, map_length; reflexivity).
    refine (two_order fuel lc tz (st_srcs s4) dates s0 ltac:(lia) Hl Hb ls s Hok Hex (npre + i) (npre + j) _ _ ltac:(lia) Hltj Hgi Hgj _ Hh).
    assert (Ep : ec_prio (cls_of i (desc_of (ni, idi, ti))) = ec_prio (cls_of j (desc_of (nj, idj, tj)))).
    { assert (Het : forall u, str_eqb (time_dict u) (lit "every_minute") = str_eqb u (lit "every_minute")).
      { intros u. unfold time_dict. destruct (str_eqb_spec u (lit "open")) as [->|]; [reflexivity|]. destruct (str_eqb_spec u (lit "close")) as [->|]; [reflexivity|].
        destruct (str_eqb_spec u (lit "before_open")) as [->|]; [reflexivity|]. destruct (str_eqb_spec u (lit "after_close")) as [->|]; reflexivity. }
      unfold cls_of, task_cls, prio_of, desc_of. cbn [ec_prio d_time fst snd]. rewrite !Het, Et. reflexivity. }
    assert (G : forall c W, Forall (fun e : Z * ecls => snd e = c /\ fst e mod US = 0) W -> map (ekey tz) W = map (fun x => (dt_to_milliseconds tz x, ec_prio c)) (map fst W)).
    { intros c W HF. rewrite map_map. apply map_ext_in. intros e He. rewrite Forall_forall in HF. destruct (HF e He) as [E _]. unfold ekey. rewrite E. reflexivity. }
    rewrite (G _ _ HFi), (G _ _ HFj). transitivity (map (fun x => (dt_to_milliseconds tz x, ec_prio (cls_of i (desc_of (ni, idi, ti))))) S); [rewrite ESi; reflexivity|rewrite ESj, Ep; reflexivity].
  Qed.
End Runs.
