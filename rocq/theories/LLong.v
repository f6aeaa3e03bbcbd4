(** Live sources beyond their first window (C90). *)
From Coq Require Import Permutation Sorted.
From Verif Require Import PyBase PyStr MTime MTimeExpr MEventSource MQueue MLoop MSched
  SQueue LQueue LLoop SEvent SSched LSort LEventSource LEventSource2 LSched LSched2 LSched3 LLive SLong.
Open Scope Z_scope.

Section Source.
  Variables (fuel : nat) (cfg : escfg) (st : Z) (tasks : list task).
  Notation D := (day_evs st None tasks).
  Definition win (d : Z) : list (Z * ecls) := flat_map D (day_range d (cf_count cfg)).
  Definition or_win (l : list (Z * ecls)) (d : Z) : list (Z * ecls) := match l with [] => win d | _ => l end.

  (** a live source of these tasks *)
  Definition live (es : esrc) : Prop := ready cfg st tasks es /\ es_end es = None.

  Lemma gen_loop_live today : cf_hist cfg = false -> forall f es es2,
    es_start es = Some st -> tasks_of (cf_mp cfg) (es_daily es) tasks -> es_end es = None -> es_events es = [] ->
    gen_loop f cfg today es = GOk es2 ->
    same_src es2 es /\ es_need es2 = es_need es /\
    sort_by fst (es_events es2) ++ flat_map D (es_days es2) = or_win (flat_map D (es_days es)) today.
  Proof.
    intros Hh. induction f as [|f IH]; intros es es2 Hst Ht Hen Hev; cbn [gen_loop]; [discriminate|]. rewrite Hev.
    (* one round over a given day *)
    assert (Hround : forall day days his, 
      match add_daily_events cfg es day (es_daily es) [] with
      | Err e => GErr e | Ok evs => gen_loop f cfg today (es_set_gen evs days (es_need es) his es) end = GOk es2 ->
      same_src es2 es /\ es_need es2 = es_need es /\
      sort_by fst (es_events es2) ++ flat_map D (es_days es2) =
        match D day with [] => or_win (flat_map D days) today | l => l ++ flat_map D days end).
    { intros day days his. rewrite (add_daily_ok cfg es day st (es_daily es) tasks Hst Ht). cbn [app]. rewrite Hen.
      assert (ED : D day = sort_by fst (day_instants st None tasks day)) by reflexivity.
      destruct (day_instants st None tasks day) as [|e evs] eqn:E.
      - intros H. destruct (IH (es_set_gen [] days (es_need es) his es) es2 Hst Ht Hen eq_refl H) as (G1 & G2 & G3). rewrite ED. cbn [sort_by]. split; [exact G1|]. split; [exact G2|exact G3].
      - destruct f as [|f']; [discriminate|]. cbn [gen_loop es_events es_set_gen]. intros H. injection H as <-.
        cbn [es_events es_days es_need es_set_gen]. split; [repeat split|]. split; [reflexivity|].
        rewrite <- ED. destruct (D day) as [|x l] eqn:El; [|reflexivity]. symmetry in ED. apply sort_nil in ED. discriminate. }
    destruct (es_days es) as [|day days] eqn:Hd.
    - unfold get_days. rewrite Hh, Hen. cbn [orb]. cbn [flat_map or_win]. unfold win at 1.
      destruct (day_range today (cf_count cfg)) as [|day days] eqn:Er.
      + intros H. injection H as <-. split; [repeat split|]. split; reflexivity.
      + intros H. destruct (Hround _ _ _ H) as (G1 & G2 & G3). split; [exact G1|]. split; [exact G2|]. rewrite G3.
        unfold or_win, win. rewrite Er. cbn [flat_map]. destruct (D day); [|reflexivity]. cbn [app].
        destruct (flat_map D days) eqn:E2; reflexivity.
    - intros H. destruct (Hround _ _ _ H) as (G1 & G2 & G3). split; [exact G1|]. split; [exact G2|]. rewrite G3.
      cbn [flat_map]. destruct (D day); [reflexivity|]. cbn [app or_win]. reflexivity.
  Qed.

  Lemma pend_live es : es_end es = None -> pend st tasks es = es_events es ++ flat_map D (es_days es).
  Proof. intros H. unfold pend. rewrite H. reflexivity. Qed.

  Lemma peek_live today es r es2 : cf_hist cfg = false -> live es -> peek_next_event fuel cfg today es = GOk (r, es2) ->
    live es2 /\ pend st tasks es2 = or_win (pend st tasks es) today.
  Proof.
    intros Hh [(Hst & Ht & Hn) Hen]. unfold peek_next_event, gen_events, reset_if_needed. rewrite Hn.
    destruct (es_events es) as [|e evs] eqn:Ev.
    - destruct (gen_loop fuel cfg today es) as [es3| |] eqn:E; try discriminate. intros H. injection H as _ <-.
      destruct (gen_loop_live today Hh fuel es es3 Hst Ht Hen Ev E) as ((S1 & S2 & S3 & S4) & Hn' & Hp).
      assert (He3 : es_end es3 = None) by congruence.
      split.
      + split; [|exact He3]. split; [cbn; congruence|]. split; [cbn; rewrite S1; exact Ht|cbn; congruence].
      + rewrite !pend_live by (cbn; assumption). cbn [es_events es_days es_set_gen]. rewrite Hp, Ev. reflexivity.
    - intros H. injection H as _ <-. split; [split; [repeat split; assumption|exact Hen]|].
      rewrite pend_live by exact Hen. rewrite Ev. reflexivity.
  Qed.

  (** the first peek of a source that has not generated anything yet *)
  Lemma first_peek today es r es2 : cf_hist cfg = false -> es_start es = Some st -> es_end es = None ->
    tasks_of (cf_mp cfg) (es_daily es) tasks -> es_events es = [] -> es_need es = true \/ tasks = [] ->
    peek_next_event fuel cfg today es = GOk (r, es2) -> live es2 /\ pend st tasks es2 = win today.
  Proof.
    intros Hh Hst Hen Ht Hev Hn Hp. destruct (es_need es) eqn:En.
    - set (es1 := es_set_gen [] (days_of cfg today st (es_end es)) false true es).
      assert (Hp1 : peek_next_event fuel cfg today es1 = GOk (r, es2)).
      { rewrite <- Hp. unfold peek_next_event, gen_events. rewrite (reset_fresh cfg today st es Hst En). reflexivity. }
      destruct (peek_live today es1 r es2 Hh) as [G1 G2]; [split; [split; [exact Hst|split; [exact Ht|reflexivity]]|exact Hen]|exact Hp1|].
      split; [exact G1|]. rewrite G2, pend_live by exact Hen. unfold es1. cbn [es_events es_days es_set_gen app]. rewrite Hen. cbn [days_of]. rewrite Hh.
      unfold or_win, win. destruct (flat_map D (day_range today (cf_count cfg))); reflexivity.
    - destruct Hn as [Hn|Hn]; [discriminate|].
      destruct (peek_live today es r es2 Hh) as [G1 G2]; [split; [repeat split; assumption|exact Hen]|exact Hp|].
      split; [exact G1|]. rewrite G2. rewrite pend_live by exact Hen. rewrite Hev. cbn [app].
      assert (Hnil : forall l, flat_map D l = []) by (rewrite Hn; induction l as [|x l IHl]; [reflexivity|exact IHl]).
      unfold or_win. rewrite Hnil. reflexivity.
  Qed.

  Lemma drop_live es e rest : live es -> es_events es = e :: rest ->
    live (es_drop_first es) /\ pend st tasks es = e :: pend st tasks (es_drop_first es).
  Proof.
    intros [(Hst & Ht & Hn) Hen] Hev. split; [split; [repeat split; assumption|exact Hen]|].
    rewrite !pend_live by exact Hen. unfold es_drop_first. cbn [es_events es_days es_set_gen]. rewrite Hev. reflexivity.
  Qed.
End Source.

Section Run.
  Variables (fuel : nat) (cfg : escfg) (tz : Z) (srcs1 : list esrc).
  Hypothesis Hfuel : (0 < fuel)%nat.
  Hypothesis Hhist : cf_hist cfg = false.
  Variables (k0 : nat) (st : Z) (tasks : list task) (d0 : Z).
  Implicit Types s : lstate scb sworld.
  Notation h := (sched_handler fuel cfg tz).
  Notation W := (win cfg st tasks).
  Notation FI := (FI fuel cfg tz srcs1).

  (** the windows generated so far start on the days [done ++ [cur]]; [next_ok a e b]: a
      window starting on [a] whose last event is [e] may be followed by one starting on [b] *)
  Variable next_ok : Z -> Z * ecls -> Z -> Prop.
  Inductive chain : list Z -> Prop :=
  | chain_one : chain [d0]
  | chain_more ds a p e b : chain (ds ++ [a]) -> W a = p ++ [e] -> next_ok a e b -> chain ((ds ++ [a]) ++ [b]).

  Definition LI s : Prop := exists es done cur pre,
    nth_error (w_srcs (l_w s)) k0 = Some es /\ live cfg st tasks es /\ chain (done ++ [cur]) /\
    emitted k0 (l_w s) = flat_map W done ++ pre /\ W cur = pre ++ pend st tasks es.

  (** what the labels have to satisfy *)
  Definition label_ok s (l : label scb sout) : Prop := forall o m dt c es rest, l = LDone o -> l_mode s = Running m ->
    src_of m = Some k0 -> m_time m = dt_to_milliseconds tz dt ->
    nth_error (w_srcs (l_w s)) k0 = Some es -> es_events es = (dt, c) :: rest ->
    forall a, next_ok a (dt, c) (o_date2 o).

  Lemma nth_lset_lset {A} k (x y : A) l : lset k x (lset k y l) = lset k x l.
  Proof. revert l. induction k as [|k IH]; intros [|z l]; cbn; try reflexivity. f_equal. apply IH. Qed.

  Lemma LI_step s l s' : FI s -> LI s -> label_ok s l -> l_step h s l = Some s' -> LI s'.
  Proof.
    intros F (es & done & cur & pre & Hes & Hl & Hc & He & Hw) Hlab Hstep.
    destruct (step_w h s l s' Hstep) as [Ew|(m & o & Hm & -> & Ew)].
    { exists es, done, cur, pre. rewrite Ew. auto. }
    destruct (m_cb m) as [sid k|] eqn:Hcb.
    2:{ exists es, done, cur, pre. rewrite Ew. cbn [sched_handler fst]. auto. }
    pose proof (f_SI _ _ _ _ _ F) as HSI. unfold msgs, hand in HSI. rewrite Hm in HSI.
    destruct (s_msg _ _ _ _ _ _ _ HSI m sid k (or_introl eq_refl) Hcb) as (Hreg & es' & Hk & dt & c & rest & Hset & Hev & Hmt & Hmp).
    cbn [sched_handler] in Ew. unfold sched_callback in Ew. rewrite Hreg, Hk in Ew. cbn [negb] in Ew.
    rewrite (settled_get fuel cfg Hfuel (o_date o) es' (dt, c) rest Hset Hev) in Ew.
    assert (Hklt : (k < length (w_srcs (l_w s)))%nat) by (apply nth_error_Some; congruence).
    assert (Hcase : exists es2, w_srcs (l_w s') = lset k es2 (w_srcs (l_w s)) /\ w_emits (l_w s') = w_emits (l_w s) ++ [(k, (dt, c))] /\
      (es2 = es_drop_first es' \/ exists r, peek_next_event fuel cfg (o_date2 o) (es_drop_first es') = GOk (r, es2))).
    { rewrite Ew. destruct (o_exn o); [exists (es_drop_first es'); cbn; auto|]. unfold push_next.
      destruct (peek_next_event fuel cfg (o_date2 o) (es_drop_first es')) as [[[[dt2 c2]|] es2]|x|] eqn:Hpk; cbn [fst set_src add_emit set_hung w_srcs w_emits].
      - exists es2. rewrite nth_lset_lset. split; [reflexivity|]. split; [reflexivity|]. right. eexists; reflexivity.
      - exists es2. rewrite nth_lset_lset. split; [reflexivity|]. split; [reflexivity|]. right. eexists; reflexivity.
      - exists (es_drop_first es'). auto.
      - exists (es_drop_first es'). auto. }
    destruct Hcase as (es2 & Esrc & Eem & Hes2). clear Ew.
    pose proof (emitted_fold_w _ _ _ _ Eem) as Ej.
    destruct (Nat.eq_dec k k0) as [->|Hne].
    2:{ exists es, done, cur, pre. rewrite Esrc, nth_lset_other by exact Hne. rewrite Ej. destruct (Nat.eqb_spec k k0); [congruence|]. rewrite app_nil_r. auto. }
    rewrite Hk in Hes. injection Hes as ->.
    destruct (drop_live cfg st tasks es (dt, c) rest Hl Hev) as [Hl' Hp']. rewrite Hp' in Hw.
    assert (Hem' : emitted k0 (l_w s') = flat_map W done ++ (pre ++ [(dt, c)])) by (rewrite Ej, Nat.eqb_refl, He, app_assoc; reflexivity).
    assert (Hw' : W cur = (pre ++ [(dt, c)]) ++ pend st tasks (es_drop_first es)) by (rewrite <- app_assoc; exact Hw).
    assert (Hnth : nth_error (w_srcs (l_w s')) k0 = Some es2) by (rewrite Esrc; apply nth_lset_same; exact Hklt).
    destruct Hes2 as [->|(r & Hpk)].
    { exists (es_drop_first es), done, cur, (pre ++ [(dt, c)]). auto. }
    destruct (peek_live fuel cfg st tasks _ _ _ _ Hhist Hl' Hpk) as [Hl2 Hp2].
    destruct (pend st tasks (es_drop_first es)) as [|y ys] eqn:Ep.
    - cbn [or_win] in Hp2. rewrite app_nil_r in Hw'.
      exists es2, (done ++ [cur]), (o_date2 o), []. split; [exact Hnth|]. split; [exact Hl2|]. split.
      + eapply chain_more; [exact Hc|exact Hw'|]. apply (Hlab o m dt c es rest eq_refl Hm); [unfold src_of; rewrite Hcb; reflexivity|exact Hmt|exact Hk|exact Hev].
      + split; [|cbn [app]; symmetry; exact Hp2]. rewrite Hem', flat_map_app. cbn [flat_map]. rewrite Hw', !app_nil_r. reflexivity.
    - exists es2, done, cur, (pre ++ [(dt, c)]). split; [exact Hnth|]. split; [exact Hl2|]. split; [exact Hc|]. split; [exact Hem'|]. rewrite Hp2. exact Hw'.
  Qed.
End Run.

Section Exec.
  Variables (fuel : nat) (cfg : escfg) (tz : Z) (srcs1 : list esrc).
  Hypothesis Hfuel : (0 < fuel)%nat.
  Hypothesis Hhist : cf_hist cfg = false.
  Variables (k0 : nat) (st : Z) (tasks : list task) (d0 : Z).
  Implicit Types s : lstate scb sworld.
  Notation h := (sched_handler fuel cfg tz).
  Notation W := (win cfg st tasks).
  Notation FI := (FI fuel cfg tz srcs1).
  Notation LI := (LI cfg k0 st tasks d0).

  Lemma LI_read L ls : forall s s', incl ls L -> FI s -> LI (fun _ _ b => exists o, In (LDone o) L /\ b = o_date2 o) s ->
    Forall ok_label ls -> l_exec h s ls = Some s' -> LI (fun _ _ b => exists o, In (LDone o) L /\ b = o_date2 o) s'.
  Proof.
    induction ls as [|l ls IH]; intros s s' Hi F Hl Hok Hex; cbn [l_exec] in Hex.
    - injection Hex as <-; auto.
    - inversion Hok; subst. destruct (l_step h s l) as [s1|] eqn:E; [|discriminate].
      apply (IH s1 s'); [intros y Hy; apply Hi; right; exact Hy|eapply FI_step; eassumption| |assumption|exact Hex].
      eapply LI_step; [exact Hfuel|exact Hhist|exact F|exact Hl| |exact E].
      intros o m dt c es rest -> _ _ _ _ _ a. exists o. split; [apply Hi; left; reflexivity|reflexivity].
  Qed.

  Lemma LI_same_day ls : tz mod US = 0 -> forall s s', same_day h tz s ls -> FI s -> LI (fun _ e b => fst e mod US = 0 -> b = dt_date (fst e)) s ->
    Forall ok_label ls -> l_exec h s ls = Some s' -> LI (fun _ e b => fst e mod US = 0 -> b = dt_date (fst e)) s' /\ FI s'.
  Proof.
    intros Htz. induction ls as [|l ls IH]; intros s s' Hi F Hl Hok Hex; cbn [l_exec] in Hex.
    - injection Hex as <-; auto.
    - inversion Hok; subst. cbn [same_day] in Hi. destruct (l_step h s l) as [s1|] eqn:E; [|discriminate]. destruct Hi as [Hi1 Hi2].
      apply (IH s1 s'); [exact Hi2|eapply FI_step; eassumption| |assumption|exact Hex].
      eapply LI_step; [exact Hfuel|exact Hhist|exact F|exact Hl| |exact E].
      intros o m dt c es rest -> Hm _ Hmt _ _ a Hdt. rewrite Hm in Hi1. rewrite Hi1, Hmt. cbn [fst].
      destruct (ms_whole tz dt Htz Hdt) as [_ E2]. unfold milliseconds_to_dt in E2. rewrite E2. reflexivity.
  Qed.

  Lemma LI_boot next_ok srcs dates s0 es r es2 : boot fuel cfg tz srcs dates = Some s0 -> length dates = length srcs ->
    nth_error srcs k0 = Some es -> peek_next_event fuel cfg d0 es = GOk (r, es2) -> nth_error (w_srcs (l_w s0)) k0 = Some es2 ->
    es_start es = Some st -> es_end es = None -> tasks_of (cf_mp cfg) (es_daily es) tasks -> es_events es = [] -> es_need es = true \/ tasks = [] ->
    LI next_ok s0.
  Proof.
    intros Hb Hl Hes Hp He2 H1 H2 H3 H4 H5. destruct (first_peek fuel cfg st tasks d0 es r es2 Hhist H1 H2 H3 H4 H5 Hp) as [G1 G2].
    destruct (boot_FI fuel cfg tz Hfuel srcs dates s0 Hb Hl) as (_ & E & _).
    exists es2, [], d0, []. split; [exact He2|]. split; [exact G1|]. split; [apply chain_one|]. split.
    - unfold emitted. rewrite E. reflexivity.
    - cbn [app]. symmetry. exact G2.
  Qed.

  (** when the loop goes to sleep, the source's next event is in the future *)
  Lemma LI_sleep next_ok s now ex m : FI s -> LI next_ok s -> l_mode s = Checking -> w_hung (l_w s) = false -> 0 < cf_count cfg ->
    l_mode (check_turn now ex s) = Arming m ->
    exists done cur pre y ys, chain cfg st tasks d0 next_ok (done ++ [cur]) /\
      emitted k0 (l_w s) = flat_map W done ++ pre /\ W cur = pre ++ y :: ys /\ now < dt_to_milliseconds tz (fst y).
  Proof.
    intros F (es & done & cur & pre & Hes & [Hl Hen] & Hc & He & Hw) Hm Hh Hcnt. unfold check_turn. destruct (l_stop s) eqn:Est.
    { destruct (leave_fields s) as (_ & _ & E3 & _). rewrite E3; discriminate. }
    destruct (q_pop (l_q s)) as [[m'|x] q'] eqn:Ep.
    2:{ destruct (leave_fields (set_stop true s)) as (_ & _ & E3 & _). rewrite E3; discriminate. }
    destruct (Z.ltb_spec now (m_time m')) as [Hlt|]; [|discriminate].
    destruct ex. { destruct (leave_fields (do_stop (set_q q' s))) as (_ & _ & E3 & _). rewrite E3. discriminate. }
    intros _.
    destruct (pop_q_ok (l_q s) (i_heap _ (f_inv _ _ _ _ _ F)) (i_keys _ (f_inv _ _ _ _ _ F))) as [[Eq Ep']|(m2 & q'' & Ep' & Hh' & Hk' & Hperm & Hmin)].
    { rewrite Ep in Ep'. discriminate. }
    rewrite Ep in Ep'. injection Ep' as <- <-.
    pose proof (f_SI _ _ _ _ _ F) as [G1 G2 G3 G4 G5].
    assert (Emsgs : msgs s = queued s) by (unfold msgs, hand; rewrite Hm; reflexivity).
    destruct (G5 Est Hh k0 es Hes) as [Hin|[[Hn Hset] Hev]].
    - apply srcs_of_In in Hin. destruct Hin as (m0 & Hin & Hs0). unfold src_of in Hs0.
      destruct (m_cb m0) as [sid k|] eqn:Hcb; [|discriminate]. injection Hs0 as ->.
      destruct (G3 m0 sid k0 Hin Hcb) as (_ & es' & Ek' & dt & c & rest & Hset & Hev & Hmt & Hmp).
      rewrite Hes in Ek'. injection Ek' as <-.
      unfold pend in Hw. rewrite Hev in Hw. cbn [app] in Hw.
      exists done, cur, pre, (dt, c), (rest ++ flat_map (day_evs st (es_end es) tasks) (es_days es)).
      split; [exact Hc|]. split; [exact He|]. split; [exact Hw|]. cbn [fst]. rewrite <- Hmt.
      rewrite Emsgs in Hin. pose proof (Hmin _ Hin) as Hle. unfold key_lt, sort_key in Hle; cbn in Hle. lia.
    - exfalso. destruct (Hset Hev) as [_ Hg]. specialize (Hg 0). unfold get_days in Hg. rewrite Hhist, Hen in Hg. cbn [orb] in Hg.
      apply Ok_inj in Hg. assert (El : length (day_range 0 (cf_count cfg)) = 0%nat) by (injection Hg as -> _; reflexivity).
      rewrite day_range_length in El. lia.
  Qed.
End Exec.
