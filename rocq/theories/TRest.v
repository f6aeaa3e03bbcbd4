(** C137: what a live task process has called whenever it goes to sleep. *)
From Coq Require Import Permutation Sorted String.
From Verif Require Import PyBase PyStr MTime MTimeExpr MEventSource MQueue MLoop MSched MBus MStrategy SEvent SExpr SStrategy LEventSource LEventSource2
  LTimeExpr LLoop LSched LSched2 LLive LStrategy2 MProcess SProcess LProcess LProcess2 SEnd LEnd LRestart LHist LHist2 TProcess TProcess2 TEnd THist.
Open Scope list_scope.
Open Scope Z_scope.

(** At every sleep the k-th run_daily entry's function has been called for exactly the owed
    instants up to now, in order, once each (as long as owed instants of the days generated at
    start-up lie ahead). *)
Theorem C137_at_rest :
  forall fuel cfg sc tz st now calls ns dates s4 s0 s ls ps,
    start fuel cfg sc tz st None now calls ns dates = Some (s4, s0) -> List.length dates = List.length (st_srcs s4) ->
    Forall ok_label ls -> l_exec (sched_handler fuel (loop_cfg cfg sc s4) tz) s0 ls = Some s ->
    cf_hist cfg = false -> 8 <= cf_count cfg -> (1441 <= fuel)%nat -> (3 * Z.to_nat (cf_count cfg) < fuel)%nat -> tz mod US = 0 ->
    market_period sc s4 = raw_of ps -> Forall (fun p => tod_ok (fst p) /\ tod_ok (snd p)) ps ->
    Forall (fun p => fst p mod US = 0 /\ snd p mod US = 0) ps -> ps <> [] ->
    Forall (not_before (starts false st now (List.length (asked calls)))) ls ->
    forall clock ex s' m,
      l_step (sched_handler fuel (loop_cfg cfg sc s4) tz) s (LTurn clock ex) = Some s' -> l_mode s' = Arming m ->
      Forall (fun mc => snd mc <= clock) (l_log s) ->
      forall k n id t offs d S,
        nth_error (asked calls) k = Some (n, id, t) -> owes ps t offs -> dget n (st_ns s4) = Some (OUser id) ->
        nth_error dates (List.length (st_srcs s4) - List.length (asked calls) + k) = Some d ->
        owed_on (now k) offs d (d + cf_count cfg - 1) S -> (exists y, In y S /\ clock * 1000 + tz < y) ->
        calls_of k (invoked s4 (l_w s)) = map (fun y => (y, Some (OUser id))) (filter (fun y => y <=? clock * 1000 + tz) S).
Proof.
  intros fuel cfg sc tz st now calls ns dates s4 s0 s ls ps Hs Hl Hok Hx Hh Hc Hf Hf3 Htz Hmp Hps Hw Hne Hn clock ex s' m Hst Hm Hlog k n id t offs d S Hk Ho Hd0 Hd HS Hy.
  pose proof (C11_live_process_partial fuel cfg sc tz st now calls ns dates s4 s0 s ls ps Hh Hc Hf3 Hmp Hps Hs Hl Hn Hx) as Hhu.
  assert (Hrun : runs fuel cfg sc tz st None now calls ns dates s4 s) by (exists s0, ls; auto).
  assert (Hf2 : (Z.to_nat (cf_count cfg) < fuel)%nat) by lia.
  rewrite <- (process_life fuel cfg sc tz st now calls ns dates s4 s ps Hrun Hh Hmp Hps Hw Hne Hf Hf2 Htz clock ex s' m k n id t offs d S Hhu Hst Hm Hlog Hk Ho Hd0 Hd HS Hy).
  destruct (C58_calls_are_owed fuel cfg sc tz st now calls ns dates s4 s ps Hrun Hh Hmp Hps Hw Hne Hf Hf2 k n id t offs d S Hk Ho Hd HS Hd0) as [_ HF].
  rewrite map_map. induction HF as [|[x o] l E _ IH]; [reflexivity|]. cbn [map fst snd] in *. rewrite E, <- IH. reflexivity.
Qed.
Print Assumptions C137_at_rest.

(** ... and so has the account been synced: for exactly the owed instants up to now. *)
Lemma flat_pairs (A : Type) (cs : list A) : cs <> [] -> forall a b : list Z,
  flat_map (fun x => map (fun c => (x, c)) cs) a = flat_map (fun x => map (fun c => (x, c)) cs) b -> a = b.
Proof.
  intro Hn. destruct cs as [|c cs]; [contradiction|]. clear Hn. induction a as [|x a IH]; intros [|y b] H; try discriminate H; [reflexivity|].
  cbn [flat_map map app] in H. injection H as -> H. apply app_inv_head in H. f_equal. apply IH. cbn [flat_map map app]. exact H.
Qed.
Theorem C137_synced :
  forall fuel cfg sc tz st now pre ko e0 post ns dates s4 s0 s ls o step qs offs d S ps,
    synced fuel cfg sc tz st now pre ko e0 post ns dates s4 s o step qs offs d S -> tz mod US = 0 ->
    start fuel cfg sc tz st None now (pre ++ UOpt ko e0 :: post) ns dates = Some (s4, s0) -> List.length dates = List.length (st_srcs s4) ->
    Forall ok_label ls -> l_exec (sched_handler fuel (loop_cfg cfg sc s4) tz) s0 ls = Some s ->
    8 <= cf_count cfg -> (3 * Z.to_nat (cf_count cfg) < fuel)%nat ->
    market_period sc s4 = raw_of ps -> Forall (fun p => tod_ok (fst p) /\ tod_ok (snd p)) ps ->
    Forall (not_before (starts false st now (List.length (asked (pre ++ UOpt ko e0 :: post))))) ls ->
    forall clock ex s' m,
      l_step (sched_handler fuel (loop_cfg cfg sc s4) tz) s (LTurn clock ex) = Some s' -> l_mode s' = Arming m ->
      Forall (fun mc => snd mc <= clock) (l_log s) -> (exists y, In y S /\ clock * 1000 + tz < y) ->
      syncs_of (invoked s4 (l_w s)) =
        flat_map (fun y => map (fun c => (y, c)) (sync_cbs sc ko 0)) (filter (fun y => y <=? clock * 1000 + tz) S).
Proof.
  intros fuel cfg sc tz st now pre ko e0 post ns dates s4 s0 s ls o step qs offs d S ps Hsy Htz Hs Hl Hok Hx Hc Hf3 Hmp Hps Hn clock ex s' m Hst Hm Hlog (y & Hy & Ey).
  assert (Hh : cf_hist cfg = false) by apply Hsy.
  pose proof (C11_live_process_partial fuel cfg sc tz st now _ ns dates s4 s0 s ls ps Hh Hc Hf3 Hmp Hps Hs Hl Hn Hx) as Hhu.
  destruct (C62_syncs_are_owed fuel cfg sc tz st now pre ko e0 post ns dates s4 s o step qs offs d S Hsy) as (em & Ha & Eem).
  destruct (C62_no_due_sync_left fuel cfg sc tz st now pre ko e0 post ns dates s4 s o step qs offs d S Hsy Htz clock ex s' m Hhu Hst Hm) as (r & Er).
  assert (Hcb : sync_cbs sc ko 0 <> []) by apply Hsy.
  rewrite Eem in Er |- *. apply (flat_pairs _ _ Hcb) in Er.
  assert (Ef : filter (fun y => y - tz <=? clock * 1000) S = filter (fun y => y <=? clock * 1000 + tz) S) by (apply filter_ext; intros; lia).
  rewrite Ef in Er. f_equal. clear Ef.
  assert (HS : forall x, In x S -> x mod US = 0).
  { intros x Hin. pose proof (sy_offs _ _ _ _ _ _ _ _ _ _ _ _ _ _ _ _ _ _ _ _ Hsy) as Ho. apply sync_whole in Ho. pose proof (proj1 (Forall_forall _ _) Ho) as Ho'. cbv beta in Ho'.
    destruct (proj1 (owed_in _ _ _ _ _ (sy_owed _ _ _ _ _ _ _ _ _ _ _ _ _ _ _ _ _ _ _ _ Hsy) x) Hin) as (_ & dd & oo & _ & Hoo & ->).
    apply mod_lin; [apply mod_mulr; reflexivity|apply Ho', Hoo]. }
  assert (Hlogd : forall x, In x em -> exists mm c, In (mm, c) (l_log s) /\ dt_to_milliseconds tz x <= c).
  { intros x Hin. destruct (sync_cbs sc ko 0) as [|cb0 cbs] eqn:Ecb; [contradiction|].
    assert (Hi : In (x, cb0) (invoked s4 (l_w s))).
    { assert (Hi : In (x, cb0) (syncs_of (invoked s4 (l_w s)))) by (rewrite Eem; apply in_flat_map; exists x; split; [exact Hin|left; reflexivity]).
      unfold syncs_of in Hi. apply filter_In in Hi. apply Hi. }
    unfold invoked in Hi. apply in_flat_map in Hi as ([k e] & He & Hi). apply in_map_iff in Hi as (c & Ec & _). injection Ec as Ec _. cbn [fst snd] in Ec. subst x.
    destruct (start_parts fuel cfg sc tz st None now _ ns dates s4 s0 Hs) as [Hb _].
    destruct (one_logged fuel (loop_cfg cfg sc s4) tz (st_srcs s4) dates s0 ltac:(lia) Hl Hb ls s Hok Hx k e He) as (mm & c' & H1 & H2 & H3).
    exists mm, c'. split; [exact H1|]. rewrite <- H2. exact H3. }
  assert (Hsub : forall x, In x em -> In x S).
  { destruct Ha as (t & [E|E]); [intros x Hin; rewrite E; apply in_or_app; auto|]. exfalso.
    destruct (Hlogd y ltac:(rewrite E; apply in_or_app; auto)) as (mm & c & H1 & H2). rewrite Forall_forall in Hlog. specialize (Hlog _ H1). cbn [snd] in Hlog.
    destruct (ms_whole tz y Htz (HS y Hy)) as [E1 E2]. unfold milliseconds_to_dt in E2. lia. }
  eapply agree_filter; [exact Ha|exact Er| |exists y; split; [exact Hy|lia]].
  apply Forall_forall. intros x Hin. destruct (Hlogd x Hin) as (mm & c & H1 & H2). rewrite Forall_forall in Hlog. specialize (Hlog _ H1). cbn [snd] in Hlog.
  destruct (ms_whole tz x Htz (HS x (Hsub x Hin))) as [E1 E2]. unfold milliseconds_to_dt in E2. lia.
Qed.
Print Assumptions C137_synced.

(** Such a process never ends of its own accord. *)
Theorem C137_goes_on :
  forall fuel cfg sc tz st now calls ns dates s4 s0 s ls ps,
    start fuel cfg sc tz st None now calls ns dates = Some (s4, s0) -> List.length dates = List.length (st_srcs s4) -> st_srcs s4 <> [] ->
    Forall ok_label ls -> Forall untold ls -> l_exec (sched_handler fuel (loop_cfg cfg sc s4) tz) s0 ls = Some s ->
    cf_hist cfg = false -> 8 <= cf_count cfg -> (3 * Z.to_nat (cf_count cfg) < fuel)%nat ->
    market_period sc s4 = raw_of ps -> Forall (fun p => tod_ok (fst p) /\ tod_ok (snd p)) ps ->
    Forall (not_before (starts false st now (List.length (asked calls)))) ls ->
    ended s -> l_raised s <> [].
Proof.
  intros fuel cfg sc tz st now calls ns dates s4 s0 s ls ps Hs Hl Hne Hok Hun Hx Hh Hc Hf3 Hmp Hps Hn He.
  pose proof (C11_live_process_partial fuel cfg sc tz st now calls ns dates s4 s0 s ls ps Hh Hc Hf3 Hmp Hps Hs Hl Hn Hx) as Hhu.
  exact (C105_live fuel cfg sc tz st now calls ns dates s4 s0 s ls ltac:(lia) Hh ltac:(lia) Hs Hl Hne Hok Hun Hx He Hhu).
Qed.
Print Assumptions C137_goes_on.

(** the process of C62_demo (syncs each minute from 9:30 to 9:32, two tasks) goes to sleep at
    9:31, with the sync and the call of 9:32 ahead *)
Example C137_demo :
  option_map (fun x => let '(s4, s) := x in
    (match l_step (sched_handler 1500 (loop_cfg cfg_default scfg_default s4) sd_tz) s (LTurn (sd_ms 34260) false) with
     | Some s' => match l_mode s' with Arming _ => true | _ => false end
     | None => false
     end, forallb (fun mc => snd mc <=? sd_ms 34260) (l_log s), List.length (invoked s4 (l_w s)), dget (lit "g") (st_ns s4))) sd_state
  = Some (true, true, 7%nat, Some (OUser 2)) /\
  Forall (not_before (starts false sd_now (fun _ => sd_now) (List.length (asked (sd_pre ++ UOpt sd_opts sd_env :: sd_post))))) sd_labels /\
  8 <= cf_count cfg_default /\ (3 * Z.to_nat (cf_count cfg_default) < 1500)%nat /\ sd_tz mod US = 0 /\
  (forall S, owed_on sd_now [34200 * US; 34260 * US; 34320 * US] 20000 (20000 + cf_count cfg_default - 1) S ->
     (exists y, In y S /\ sd_ms 34260 * 1000 + sd_tz < y) /\ In (20000 * DAY + 34260 * US) (filter (fun y => y <=? sd_ms 34260 * 1000 + sd_tz) S)).
Proof.
  split; [vm_compute; reflexivity|]. split; [repeat constructor; vm_compute; congruence|]. split; [discriminate|].
  split; [apply Nat.ltb_lt; vm_compute; reflexivity|]. split; [reflexivity|]. intros S HS. pose proof (owed_in _ _ _ _ _ HS) as Hin. split.
  - exists (20000 * DAY + 34320 * US). split; [|reflexivity]. apply Hin. split; [discriminate|]. exists 20000, (34320 * US).
    split; [split; discriminate|]. split; [right; right; left; reflexivity|reflexivity].
  - apply filter_In. split; [|reflexivity]. apply Hin. split; [discriminate|]. exists 20000, (34260 * US).
    split; [split; discriminate|]. split; [right; left; reflexivity|reflexivity].
Qed.
