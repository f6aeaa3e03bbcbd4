(** C147 for task processes: a live task that is stopped in its sleep. *)
From Coq Require Import Permutation Sorted String.
From Verif Require Import PyBase PyStr MTime MTimeExpr MEventSource MQueue MLoop MSched MBus MStrategy SEvent SExpr SStrategy LEventSource LEventSource2
  LTimeExpr LLoop LSched LSched2 LLive LStrategy2 MProcess SProcess LProcess LProcess2 SLate LBound SEnd LEnd LRestart LHist LHist2 TProcess TProcess2 TEnd THist TRest TStop.
Open Scope list_scope.
Open Scope Z_scope.

(** It falls asleep at [clock], the signal arrives, and uv hands it over: then the process makes
    boundedly many steps, and has called at its end exactly what was owed up to [clock]. *)
Theorem C147_task :
  forall fuel cfg sc tz st now calls ns dates s4 s0 s ls ps,
    start fuel cfg sc tz st None now calls ns dates = Some (s4, s0) -> List.length dates = List.length (st_srcs s4) ->
    Forall ok_label ls -> l_exec (sched_handler fuel (loop_cfg cfg sc s4) tz) s0 ls = Some s ->
    cf_hist cfg = false -> 8 <= cf_count cfg -> (1441 <= fuel)%nat -> (3 * Z.to_nat (cf_count cfg) < fuel)%nat -> tz mod US = 0 ->
    market_period sc s4 = raw_of ps -> Forall (fun p => tod_ok (fst p) /\ tod_ok (snd p)) ps ->
    Forall (fun p => fst p mod US = 0 /\ snd p mod US = 0) ps -> ps <> [] ->
    Forall (not_before (starts false st now (List.length (asked calls)))) ls ->
    forall clock ex m s' s1 post s2,
      l_step (sched_handler fuel (loop_cfg cfg sc s4) tz) s (LTurn clock ex) = Some s' -> l_mode s' = Arming m ->
      l_exec (sched_handler fuel (loop_cfg cfg sc s4) tz) s' [LArm; LSigArrive] = Some s1 ->
      prompt (sched_handler fuel (loop_cfg cfg sc s4) tz) s1 post -> l_exec (sched_handler fuel (loop_cfg cfg sc s4) tz) s1 post = Some s2 ->
      Forall (fun mc => snd mc <= clock) (l_log s) ->
      (owns post <= 11 + 2 * others post)%nat /\
      forall k n id t offs d S,
        nth_error (asked calls) k = Some (n, id, t) -> owes ps t offs -> dget n (st_ns s4) = Some (OUser id) ->
        nth_error dates (List.length (st_srcs s4) - List.length (asked calls) + k) = Some d ->
        owed_on (now k) offs d (d + cf_count cfg - 1) S -> (exists y, In y S /\ clock * 1000 + tz < y) ->
        calls_of k (invoked s4 (l_w s2)) = map (fun y => (y, Some (OUser id))) (filter (fun y => y <=? clock * 1000 + tz) S).
Proof.
  intros fuel cfg sc tz st now calls ns dates s4 s0 s ls ps Hs Hl Hok Hx Hh Hc Hf Hf3 Htz Hmp Hps Hw Hne Hn clock ex m s' s1 post s2 Hst Hm H1 Hp H2 Hlog.
  set (h := sched_handler fuel (loop_cfg cfg sc s4) tz) in *.
  destruct (start_slim fuel cfg sc st None tz now calls ns dates s4 s0 Hs) as [Hsl Hb].
  assert (Hf0 : (0 < fuel)%nat) by lia. destruct (boot_facts fuel Hf0 _ _ _ _ _ Hb) as (I0 & _). pose proof (inv_exec h ls _ _ I0 Hx) as I.
  assert (I' : inv s') by (eapply inv_step; eassumption). assert (I1 : inv s1) by (eapply inv_exec; eassumption).
  assert (Hms : l_mode s = Checking) by (unfold l_step in Hst; destruct (l_mode s); try discriminate; reflexivity).
  assert (Hw' : l_w s' = l_w s).
  { cbn [l_step] in Hst. rewrite Hms in Hst. injection Hst as <-. unfold check_turn in *. destruct (l_stop s); [unfold leave in *; destruct (l_stop s); reflexivity|].
    destruct (q_pop (l_q s)) as [[x|e] q']; [|unfold leave; cbn; reflexivity]. destruct (clock <? m_time x); [|reflexivity]. destruct ex; [|reflexivity].
    unfold leave, do_stop. cbn. destruct (l_stop s); cbn; destruct (l_stop s); reflexivity. }
  cbn [l_exec l_step] in H1. rewrite Hm in H1.
  assert (Ha : l_mode (arm m s') = Idle /\ l_w (arm m s') = l_w s') by (unfold arm, leave, push_msg; cbn; destruct (l_stop s'); split; reflexivity). destruct Ha as [Ha1 Ha2].
  rewrite Ha1 in H1. injection H1 as <-. cbn [set_sig l_mode l_w] in *.
  destruct (asleep_inv _ _ _ h (set_sig true (arm m s')) s2 post I1 eq_refl Ha1 Hp H2) as (_ & W2 & B). cbn [set_sig l_w] in W2.
  split; [exact B|]. intros k n id t offs d S Hk Ho Hd0 Hd HS Hy. rewrite W2, Ha2, Hw'.
  exact (C137_at_rest fuel cfg sc tz st now calls ns dates s4 s0 s ls ps Hs Hl Hok Hx Hh Hc Hf Hf3 Htz Hmp Hps Hw Hne Hn clock ex s' m Hst Hm Hlog k n id t offs d S Hk Ho Hd0 Hd HS Hy).
Qed.
Print Assumptions C147_task.

(** The process of C137_demo, asleep after 09:31, is stopped: it returns without error and has made the
    seven calls it had made; from the sleep on its steps are the signal, one check and the return. *)
Example C147_task_demo :
  option_map (fun x => let '(s4, s) := x in
    match l_exec (sched_handler 1500 (loop_cfg cfg_default scfg_default s4) sd_tz) s
            [LTurn (sd_ms 34260) false; LArm; LSigArrive; LSignal; LAsync; LTurn (sd_ms 34261) false; LReturn] with
    | Some s2 => (match l_mode s2 with Returned None => true | _ => false end, List.length (invoked s4 (l_w s2)), List.length (l_log s2) - List.length (l_log s))%nat
    | None => (false, 0, 0)%nat
    end) sd_state = Some (true, 7, 0)%nat.
Proof. vm_compute. reflexivity. Qed.
