(** C125: runs over past days and runs with an end date. *)
From Coq Require Import Permutation Sorted String.
From Verif Require Import PyBase PyStr MTime MTimeExpr MEventSource MQueue MLoop MSched MBus MStrategy SEvent SExpr SStrategy LEventSource LEventSource2
  LTimeExpr LLoop LSched LSched2 MProcess SProcess LProcess SEnd LEnd LBound LHist LHist2 TProcess TEnd.
Open Scope list_scope.
Open Scope Z_scope.

(** [owed_until a en offs cnt S]: the instants owed from [a] on until the end date, if there
    is one, and otherwise on the first [cnt] days *)
Definition owed_until (a : Z) (en : option Z) (cnt : Z) (offs S : list Z) : Prop :=
  exists S0, owed_on a offs (dt_date a) (match en with Some e => dt_date e | None => dt_date a + cnt - 1 end) S0 /\
    S = filter (fun t => match en with Some e => t <=? e | None => true end) S0.

Lemma owed_until_exists a en cnt offs : exists S, owed_until a en cnt offs S.
Proof.
  set (hi := match en with Some e => dt_date e | None => dt_date a + cnt - 1 end). destruct (owed_exists a offs (dt_date a) (hi - dt_date a + 1)) as [S0 H].
  replace (dt_date a + (hi - dt_date a + 1) - 1) with hi in H by lia. eexists. exists S0. split; [exact H|reflexivity].
Qed.

(** With ENABLE_HISTORY_START the run starts at the start date of the context, otherwise
    when it is started.  In every state the calls of the k-th run_daily entry are the first
    of the instants it is owed, and each went to the function given. *)
Theorem C125_calls :
  forall fuel cfg sc tz st en now calls ns dates s4 s ps,
    runs fuel cfg sc tz st en now calls ns dates s4 s -> (cf_hist cfg = true \/ en <> None) ->
    market_period sc s4 = raw_of ps -> Forall (fun p => tod_ok (fst p) /\ tod_ok (snd p)) ps ->
    Forall (fun p => fst p mod US = 0) ps -> ps <> [] -> (1441 <= fuel)%nat ->
    forall k n id t offs a S,
      nth_error (asked calls) k = Some (n, id, t) -> owes ps t offs ->
      a = (if cf_hist cfg then st else now k) -> owed_until a en (cf_count cfg) offs S ->
      (Z.to_nat (match en with Some e => dt_date e - dt_date a + 1 | None => cf_count cfg end) < fuel)%nat ->
      dget n (st_ns s4) = Some (OUser id) ->
      (exists r, S = map fst (calls_of k (invoked s4 (l_w s))) ++ r) /\
      Forall (fun c => snd c = Some (OUser id)) (calls_of k (invoked s4 (l_w s))).
Proof.
  intros fuel cfg sc tz st en now calls ns dates s4 s ps (s0 & ls & Hs & Hl & Hok & Hx) Hb Hmp Hps Hw Hne Hf k n id t offs a S Hk Ho Ha (S0 & H0 & ->) Hf2 Hn.
  rewrite (calls_emitted fuel cfg sc tz st en now calls ns dates s4 s0 s ls Hs Hl Hok Hx Hf k n id t Hk), map_map. cbn [fst]. split.
  - assert (Hf3 : (Z.to_nat ((match en with Some e => dt_date e | None => dt_date (begins cfg st (now k)) + cf_count cfg - 1 end) - dt_date (begins cfg st (now k)) + 1) < fuel)%nat).
    { change (begins cfg st (now k)) with (if cf_hist cfg then st else now k). rewrite <- Ha. destruct en; [exact Hf2|].
      replace (dt_date a + cf_count cfg - 1 - dt_date a + 1) with (cf_count cfg) by lia. exact Hf2. }
    subst a. destruct (hist_emitted fuel cfg sc tz st en now calls ns dates s4 s0 s ls ps Hs Hl Hok Hx Hb Hmp Hps Hw Hne Hf k n id t offs _ S0 Hk Ho eq_refl Hf3 H0) as [(r & E) _].
    exists r. exact E.
  - apply Forall_forall. intros c Hc. apply in_map_iff in Hc as (e & <- & _). exact Hn.
Qed.
Print Assumptions C125_calls.

(** where the days of its sources start: those of the sync timer at the start date *)
Definition starts (hist : bool) (st : Z) (now : nat -> Z) (n : nat) : list Z := if hist then [st] else st :: map now (seq 0 n).

(** No step of such a process goes on for ever. *)
Theorem C125_returns :
  forall fuel cfg sc tz st en now calls ns dates s4 s0 s ls,
    (cf_hist cfg = true \/ en <> None) ->
    (forall a, In a (starts (cf_hist cfg) st now (List.length (asked calls))) ->
       (Z.to_nat (match en with Some e => dt_date e - dt_date a + 1 | None => cf_count cfg end) < fuel)%nat) ->
    start fuel cfg sc tz st en now calls ns dates = Some (s4, s0) ->
    l_exec (sched_handler fuel (loop_cfg cfg sc s4) tz) s0 ls = Some s -> w_hung (l_w s) = false.
Proof.
  intros fuel cfg sc tz st en now calls ns dates s4 s0 s ls Hb Hst Hs Hx.
  apply (never_hangs fuel cfg sc tz st en now calls ns dates s4 s0 ls s Hb); [|exact Hs|exact Hx]. intros b Hin. apply Hst. unfold starts. destruct (cf_hist cfg); exact Hin.
Qed.
Print Assumptions C125_returns.

(** If the process ended although nobody told it to and nothing failed, the calls are all
    of them. *)
Theorem C125_all :
  forall fuel cfg sc tz st en now calls ns dates s4 s0 s ls ps,
    start fuel cfg sc tz st en now calls ns dates = Some (s4, s0) -> List.length dates = List.length (st_srcs s4) ->
    Forall ok_label ls -> Forall untold ls -> l_exec (sched_handler fuel (loop_cfg cfg sc s4) tz) s0 ls = Some s ->
    ended s -> l_raised s = [] ->
    (cf_hist cfg = true \/ en <> None) ->
    market_period sc s4 = raw_of ps -> Forall (fun p => tod_ok (fst p) /\ tod_ok (snd p)) ps ->
    Forall (fun p => fst p mod US = 0) ps -> ps <> [] -> (1441 <= fuel)%nat ->
    (forall a, In a (starts (cf_hist cfg) st now (List.length (asked calls))) ->
       (Z.to_nat (match en with Some e => dt_date e - dt_date a + 1 | None => cf_count cfg end) < fuel)%nat) ->
    forall k n id t offs a S,
      nth_error (asked calls) k = Some (n, id, t) -> owes ps t offs ->
      a = (if cf_hist cfg then st else now k) -> owed_until a en (cf_count cfg) offs S ->
      map fst (calls_of k (invoked s4 (l_w s))) = S.
Proof.
  intros fuel cfg sc tz st en now calls ns dates s4 s0 s ls ps Hs Hl Hok Hun Hx [r Hr] Hra Hb Hmp Hps Hw Hne Hf Hst k n id t offs a S Hk Ho Ha (S0 & H0 & ->).
  assert (Hh : w_hung (l_w s) = false).
  { apply (never_hangs fuel cfg sc tz st en now calls ns dates s4 s0 ls s Hb); [|exact Hs|exact Hx]. intros b Hin. apply Hst. unfold starts. destruct (cf_hist cfg); exact Hin. }
  assert (Hf2 : (Z.to_nat (match en with Some e => dt_date e - dt_date a + 1 | None => cf_count cfg end) < fuel)%nat).
  { apply Hst. subst a. unfold starts. destruct (cf_hist cfg); [left; reflexivity|right]. apply in_map, in_seq. assert (k < List.length (asked calls))%nat by (apply nth_error_Some; congruence). lia. }
  rewrite (calls_emitted fuel cfg sc tz st en now calls ns dates s4 s0 s ls Hs Hl Hok Hx Hf k n id t Hk), map_map. cbn [fst].
  assert (Hf3 : (Z.to_nat ((match en with Some e => dt_date e | None => dt_date (begins cfg st (now k)) + cf_count cfg - 1 end) - dt_date (begins cfg st (now k)) + 1) < fuel)%nat).
  { change (begins cfg st (now k)) with (if cf_hist cfg then st else now k). rewrite <- Ha. destruct en; [exact Hf2|].
    replace (dt_date a + cf_count cfg - 1 - dt_date a + 1) with (cf_count cfg) by lia. exact Hf2. }
  subst a. destruct (hist_emitted fuel cfg sc tz st en now calls ns dates s4 s0 s ls ps Hs Hl Hok Hx Hb Hmp Hps Hw Hne Hf k n id t offs _ S0 Hk Ho eq_refl Hf3 H0) as [_ HD].
  destruct (start_parts fuel cfg sc tz st en now calls ns dates s4 s0 Hs) as [Hbt _].
  destruct (boot_facts fuel ltac:(lia) _ _ _ _ _ Hbt) as (I0 & _). pose proof (inv_exec _ ls _ _ I0 Hx) as I.
  destruct (entry_src fuel cfg sc tz st en now calls ns dates s4 s0 ps Hs Hl Hmp Hps Hw Hne Hf k n id t offs Hk Ho) as (es0 & E0 & _).
  destruct (emitted_prefix fuel _ tz (st_srcs s4) ltac:(lia) s _ es0 (reached fuel cfg sc tz st en now calls ns dates s4 s0 s ls Hs Hl Hok Hx) E0) as (es & Hes & _).
  apply (HD es Hes). exact (ended_dry fuel ltac:(lia) _ tz _ dates s0 ls s Hl Hbt Hok Hun Hx (proj2 (i_returned _ I r Hr)) Hra Hh es (nth_error_In _ _ Hes)).
Qed.
Print Assumptions C125_all.

(** ... and so no event source has another event (C105_all_done without its condition). *)
Theorem C105_bounded_done :
  forall fuel cfg sc tz st en now calls ns dates s4 s0 s ls,
    (cf_hist cfg = true \/ en <> None) ->
    (forall a, In a (starts (cf_hist cfg) st now (List.length (asked calls))) ->
       (Z.to_nat (match en with Some e => dt_date e - dt_date a + 1 | None => cf_count cfg end) < fuel)%nat) ->
    start fuel cfg sc tz st en now calls ns dates = Some (s4, s0) -> List.length dates = List.length (st_srcs s4) ->
    Forall ok_label ls -> Forall untold ls -> l_exec (sched_handler fuel (loop_cfg cfg sc s4) tz) s0 ls = Some s ->
    ended s -> l_raised s = [] ->
    forall es date, In es (w_srcs (l_w s)) -> get_next_event fuel (loop_cfg cfg sc s4) date es = GOk (None, es).
Proof.
  intros fuel cfg sc tz st en now calls ns dates s4 s0 s ls Hb Hst Hs Hl Hok Hun Hx He Hra.
  assert (Hf : (0 < fuel)%nat) by (specialize (Hst st); unfold starts in Hst; destruct (cf_hist cfg); specialize (Hst (or_introl eq_refl)); lia).
  apply (C105_all_done fuel cfg sc tz st en now calls ns dates s4 s0 s ls Hf Hs Hl Hok Hun Hx He Hra).
  exact (C125_returns fuel cfg sc tz st en now calls ns dates s4 s0 s ls Hb Hst Hs Hx).
Qed.
Print Assumptions C105_bounded_done.

(** ** live processes *)

(** [not_before]: the days read by the process come after all these instants, or are theirs *)
Definition not_before (l : list Z) (lb : label scb sout) : Prop :=
  match lb with LDone o => Forall (fun a => dt_date a <= o_date o /\ dt_date a <= o_date2 o) l | _ => True end.

(** C11 for whole processes: a live process that has been started never hangs, whatever it was
    asked to run, unless it reads a date before its start. *)
Theorem C11_live_process_partial :
  forall fuel cfg sc tz st now calls ns dates s4 s0 s ls ps,
    cf_hist cfg = false -> 8 <= cf_count cfg -> (3 * Z.to_nat (cf_count cfg) < fuel)%nat ->
    market_period sc s4 = raw_of ps -> Forall (fun p => tod_ok (fst p) /\ tod_ok (snd p)) ps ->
    start fuel cfg sc tz st None now calls ns dates = Some (s4, s0) -> List.length dates = List.length (st_srcs s4) ->
    Forall (not_before (starts false st now (List.length (asked calls)))) ls ->
    l_exec (sched_handler fuel (loop_cfg cfg sc s4) tz) s0 ls = Some s -> w_hung (l_w s) = false.
Proof.
  intros fuel cfg sc tz st now calls ns dates s4 s0 s ls ps Hh Hc Hf Hmp Hps Hs Hl Hn Hx.
  apply (live_never_hangs fuel cfg sc tz st now calls ns dates s4 s0 ls s Hh Hc Hf); [|exact Hs|exact Hl| |exact Hx].
  - unfold loop_cfg. cbn [cf_mp]. rewrite Hmp, periods_of_raw. eapply Forall_impl; [|exact Hps]. intros p Hp. exact Hp.
  - eapply Forall_impl; [|exact Hn]. intros [| | | |t ex| |o|a|] H; try exact I. cbn [not_before starts saw] in *.
    split; unfold after; (eapply Forall_impl; [|exact H]); cbv beta; intros a [H1 H2]; pose proof (Z.div_mod a DAY ltac:(discriminate)); pose proof (Z.mod_pos_bound a DAY eq_refl); unfold dt_date in *; nia.
Qed.
Print Assumptions C11_live_process_partial.

Example C11_process_demo :
  Forall (not_before (starts false 0 (fun _ => demo_now) (List.length (asked demo_calls)))) demo_labels /\ 8 <= cf_count cfg_default /\
  (3 * Z.to_nat (cf_count cfg_default) < 1500)%nat /\ demo_state <> None.
Proof.
  split; [repeat constructor; vm_compute; congruence|]. split; [discriminate|]. split; [apply Nat.ltb_lt; vm_compute; reflexivity|].
  assert (V : option_map (fun _ => tt) demo_state = Some tt) by (vm_compute; reflexivity). revert V. generalize demo_state. intros [x|] V; [discriminate|discriminate V].
Qed.

(** From midnight to midnight: so many calls a day. *)
Theorem C125_count :
  forall d0 d1 cnt offs S, d0 <= d1 -> Forall (fun o => 0 < o < DAY) offs ->
    owed_until (d0 * DAY) (Some (d1 * DAY)) cnt offs S -> Z.of_nat (List.length S) = (d1 - d0) * Z.of_nat (List.length offs).
Proof.
  intros d0 d1 cnt offs S Hd Ho (S0 & H0 & ->).
  assert (E : forall d, dt_date (d * DAY) = d) by (intro d; unfold dt_date; apply Z.div_mul; discriminate). rewrite !E in H0.
  set (c := ECls [] 0). replace d1 with (d0 + (d1 - d0 + 1) - 1) in H0 by lia.
  change (fun t : Z => t <=? d1 * DAY) with (until (Some (d1 * DAY))). rewrite (LHist.owed_until (d0 * DAY) (Some (d1 * DAY)) offs c d0 _ S0 H0), map_length.
  assert (L : forall d, List.length (day_evs (d0 * DAY) (Some (d1 * DAY)) (map (fun o => (o, c)) offs) d) = List.length (filter (fun o => SEvent.within (d0 * DAY) (Some (d1 * DAY)) (d * DAY + o)) offs)).
  { intro d. destruct (day_evs_ok (d0 * DAY) (Some (d1 * DAY)) (map (fun o => (o, c)) offs) d) as (HP & _). rewrite (Permutation_length HP).
    unfold day_instants. rewrite map_map. cbn [fst snd]. rewrite (filter_map (fun o => (d * DAY + o, c))), map_length. reflexivity. }
  assert (R : day_range d0 (d1 - d0 + 1) = day_range d0 (d1 - d0) ++ [d1]).
  { unfold day_range. replace (Z.to_nat (d1 - d0 + 1)) with (Datatypes.S (Z.to_nat (d1 - d0))) by lia. rewrite seq_S, map_app. cbn [map]. f_equal. f_equal. lia. }
  rewrite R, flat_map_app, app_length. cbn [flat_map]. rewrite app_nil_r, L.
  assert (Z0 : filter (fun o => SEvent.within (d0 * DAY) (Some (d1 * DAY)) (d1 * DAY + o)) offs = []).
  { clear - Ho. induction Ho as [|o l Ho _ IH]; [reflexivity|]. cbn [filter]. replace (SEvent.within (d0 * DAY) (Some (d1 * DAY)) (d1 * DAY + o)) with false; [exact IH|].
    unfold SEvent.within. destruct (Z.leb_spec (d1 * DAY + o) (d1 * DAY)); [lia|]. symmetry. apply andb_false_r. }
  rewrite Z0, Nat.add_0_r.
  assert (G : forall l, (forall d, In d l -> d0 <= d < d1) ->
    List.length (flat_map (day_evs (d0 * DAY) (Some (d1 * DAY)) (map (fun o => (o, c)) offs)) l) = (List.length l * List.length offs)%nat).
  { induction l as [|d l IH]; intro H; [reflexivity|]. cbn [flat_map List.length]. rewrite app_length, IH by (intros; apply H; right; assumption). rewrite L.
    assert (Hin : d0 <= d < d1) by (apply H; left; reflexivity).
    replace (filter (fun o => SEvent.within (d0 * DAY) (Some (d1 * DAY)) (d * DAY + o)) offs) with offs; [reflexivity|].
    clear - Ho Hin. induction Ho as [|o l Ho _ IH]; [reflexivity|]. cbn [filter]. replace (SEvent.within (d0 * DAY) (Some (d1 * DAY)) (d * DAY + o)) with true; [rewrite <- IH; reflexivity|].
    symmetry. unfold SEvent.within. apply andb_true_iff. split; apply Z.leb_le; unfold DAY in *; nia. }
  rewrite G.
  - rewrite day_range_length, Nat2Z.inj_mul. f_equal. lia.
  - intros d Hin. unfold day_range in Hin. apply in_map_iff in Hin as (j & <- & Hj). apply in_seq in Hj. lia.
Qed.
Print Assumptions C125_count.

(** ** a run over two past days *)
Definition hist_cfg (cnt : Z) : escfg := ESCfg true cnt mp_default.
Definition hist_calls : list ucall := [URun (Fn 2 (Some (lit "g")) true) (lit "open")].
Definition hist_ns : dict str obj := [(lit "g", OUser 2)].
Definition hist_run (cnt : Z) (en : option Z) (ls : list (label scb sout)) : option (strat * lstate scb sworld) :=
  match start 1441 (hist_cfg cnt) scfg_default demo_tz (19990 * DAY) en (fun _ => demo_now) hist_calls hist_ns [20000] with
  | Some (s4, s0) => option_map (fun s => (s4, s)) (l_exec (sched_handler 1441 (loop_cfg (hist_cfg cnt) scfg_default s4) demo_tz) s0 ls)
  | None => None
  end.
Lemma hist_run_inv cnt en ls A (f : strat * lstate scb sworld -> A) r : option_map f (hist_run cnt en ls) = Some r ->
  exists s4 s0 s, start 1441 (hist_cfg cnt) scfg_default demo_tz (19990 * DAY) en (fun _ => demo_now) hist_calls hist_ns [20000] = Some (s4, s0) /\
    l_exec (sched_handler 1441 (loop_cfg (hist_cfg cnt) scfg_default s4) demo_tz) s0 ls = Some s /\ f (s4, s) = r.
Proof.
  unfold hist_run. generalize (start 1441 (hist_cfg cnt) scfg_default demo_tz (19990 * DAY) en (fun _ => demo_now) hist_calls hist_ns [20000]).
  intros [[s4 s0]|] H; [|discriminate]. exists s4, s0. destruct (l_exec _ s0 ls) as [s|] eqn:Ex; [|discriminate]. exists s. injection H. auto.
Qed.
Definition hist_labels : list (label scb sout) :=
  [LAsync; LTurn (demo_ms 34170) false; demo_done; LTurn (demo_ms 34170) false; demo_done; LTurn (demo_ms 34171) false; LReturn].
Example C125_demo :
  option_map (fun x => let '(s4, s) := x in (List.length (st_srcs s4), l_mode s, l_raised s, w_hung (l_w s), calls_of 0 (invoked s4 (l_w s)))) (hist_run 365 (Some (19992 * DAY)) hist_labels) =
    Some (1%nat, Returned None, [], false, [(19990 * DAY + 34200 * US, Some (OUser 2)); (19991 * DAY + 34200 * US, Some (OUser 2))]) /\
  Forall ok_label hist_labels /\ Forall untold hist_labels /\
  owed_until (19990 * DAY) (Some (19992 * DAY)) 365 [34200 * US] [19990 * DAY + 34200 * US; 19991 * DAY + 34200 * US].
Proof.
  split; [vm_compute; reflexivity|]. split; [repeat constructor|]. split; [repeat constructor|].
  exists [19990 * DAY + 34200 * US; 19991 * DAY + 34200 * US; 19992 * DAY + 34200 * US]. split; [|vm_compute; reflexivity].
  change (dt_date (19990 * DAY)) with 19990. change (dt_date (19992 * DAY)) with 19992.
  exists [19990; 19991; 19992], [[19990 * DAY + 34200 * US]; [19991 * DAY + 34200 * US]; [19992 * DAY + 34200 * US]]. split; [|split; [|reflexivity]].
  - split; [intro d; cbn [In]; lia|]. repeat constructor; lia.
  - repeat constructor; apply Permutation_refl.
Qed.

(** ** history without an end date *)

(** the statement: a process with something to run and without an end date ends only if it
    is told to or something fails *)
Definition ends_when_told : Prop :=
  forall fuel cfg sc tz st now calls ns dates s4 s0 s ls,
    (0 < fuel)%nat -> 0 < cf_count cfg ->
    start fuel cfg sc tz st None now calls ns dates = Some (s4, s0) -> List.length dates = List.length (st_srcs s4) -> st_srcs s4 <> [] ->
    Forall ok_label ls -> Forall untold ls -> l_exec (sched_handler fuel (loop_cfg cfg sc s4) tz) s0 ls = Some s ->
    ended s -> w_hung (l_w s) = false -> l_raised s <> [].

(** Without ENABLE_HISTORY_START this is C105_live.  With it the process ends EVENT_DAYS_COUNT
    days after its start: the days are generated only once. *)
Theorem C90_history_refuted : ~ ends_when_told.
Proof.
  intro H.
  assert (V : option_map (fun x => let '(s4, s) := x in (List.length (st_srcs s4), l_mode s, l_raised s, w_hung (l_w s))) (hist_run 2 None hist_labels) = Some (1%nat, Returned None, [], false)) by (vm_compute; reflexivity).
  destruct (hist_run_inv _ _ _ _ _ _ V) as (s4 & s0 & s & E & Ex & Vs). injection Vs; intros Vh Vr Vm Vl.
  refine (H 1441%nat (hist_cfg 2) scfg_default demo_tz (19990 * DAY) (fun _ => demo_now) hist_calls hist_ns [20000] s4 s0 s hist_labels _ _ E _ _ _ _ Ex _ Vh Vr).
  - lia.
  - reflexivity.
  - rewrite Vl. reflexivity.
  - intro X. rewrite X in Vl. discriminate Vl.
  - apply C125_demo.
  - apply C125_demo.
  - exists None. exact Vm.
Qed.
Print Assumptions C90_history_refuted.

(** The calls it makes until then are those of that many days (C125_all). *)
Example C125_open_demo :
  option_map (fun x => let '(s4, s) := x in (l_mode s, map fst (calls_of 0 (invoked s4 (l_w s))))) (hist_run 2 None hist_labels) =
    Some (Returned None, [19990 * DAY + 34200 * US; 19991 * DAY + 34200 * US]).
Proof. vm_compute. reflexivity. Qed.
