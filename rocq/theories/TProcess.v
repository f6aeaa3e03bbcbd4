(** C58, C59, C60: the calls the functions given to run_daily get in a task process. *)
From Coq Require Import Permutation Sorted String.
From Verif Require Import PyBase PyStr MTime MTimeExpr MEventSource MQueue MLoop MSched MBus MStrategy SEvent SExpr SStrategy
  LEventSource2 MProcess SProcess LProcess.
Open Scope list_scope.
Open Scope Z_scope.

(** ** C58 *)

(** In every state of a live process the calls its k-th run_daily entry has got so far are,
    in order and without gaps or repetitions, the instants it is owed in the window
    generated at start-up (or all of these, and then later ones), and each call went to
    the function given. *)
Theorem C58_calls_are_owed :
  forall fuel cfg sc tz st now calls ns dates s4 s ps,
    runs fuel cfg sc tz st None now calls ns dates s4 s ->
    cf_hist cfg = false ->
    market_period sc s4 = raw_of ps -> Forall (fun p => tod_ok (fst p) /\ tod_ok (snd p)) ps ->
    Forall (fun p => fst p mod US = 0 /\ snd p mod US = 0) ps -> ps <> [] ->
    (1441 <= fuel)%nat -> (Z.to_nat (cf_count cfg) < fuel)%nat ->
    forall k n id t offs d S,
      nth_error (asked calls) k = Some (n, id, t) -> owes ps t offs ->
      nth_error dates (List.length (st_srcs s4) - List.length (asked calls) + k) = Some d ->
      owed_on (now k) offs d (d + cf_count cfg - 1) S ->
      dget n (st_ns s4) = Some (OUser id) ->
      agree (map fst (calls_of k (invoked s4 (l_w s)))) S /\
      Forall (fun c => snd c = Some (OUser id)) (calls_of k (invoked s4 (l_w s))).
Proof. exact process_calls. Qed.
Print Assumptions C58_calls_are_owed.

(** the owed instants are well defined *)
Theorem C58_owed_exists : forall now offs lo n, exists S, owed_on now offs lo (lo + n - 1) S.
Proof. exact owed_exists. Qed.
Print Assumptions C58_owed_exists.

(** ** C59 *)

(** Once entry j's function has been called for instant x, every other entry's owed
    instants before x have been called, and those at x too if the other entry is
    every_minute and j's is not. *)
Theorem C59_nothing_overtaken :
  forall fuel cfg sc tz st now calls ns dates s4 s ps,
    runs fuel cfg sc tz st None now calls ns dates s4 s ->
    cf_hist cfg = false ->
    market_period sc s4 = raw_of ps -> Forall (fun p => tod_ok (fst p) /\ tod_ok (snd p)) ps ->
    Forall (fun p => fst p mod US = 0 /\ snd p mod US = 0) ps -> ps <> [] ->
    (1441 <= fuel)%nat -> (Z.to_nat (cf_count cfg) < fuel)%nat -> tz mod US = 0 ->
    forall j nj idj tj oj k n id t offs d S x,
      w_hung (l_w s) = false ->
      nth_error (asked calls) j = Some (nj, idj, tj) -> owes ps tj oj ->
      nth_error (asked calls) k = Some (n, id, t) -> owes ps t offs ->
      nth_error dates (List.length (st_srcs s4) - List.length (asked calls) + k) = Some d ->
      owed_on (now k) offs d (d + cf_count cfg - 1) S ->
      In x (map fst (calls_of j (invoked s4 (l_w s)))) ->
      exists r, map fst (calls_of k (invoked s4 (l_w s))) =
        filter (fun y => if str_eqb t (lit "every_minute") && negb (str_eqb tj (lit "every_minute")) then y <=? x else y <? x) S ++ r.
Proof. exact process_order. Qed.
Print Assumptions C59_nothing_overtaken.

(** ** C60 *)

(** When the loop goes to sleep at clock reading [clock] (milliseconds), every owed
    instant up to [clock] has been called. *)
Theorem C60_no_due_call_left :
  forall fuel cfg sc tz st now calls ns dates s4 s ps,
    runs fuel cfg sc tz st None now calls ns dates s4 s ->
    cf_hist cfg = false ->
    market_period sc s4 = raw_of ps -> Forall (fun p => tod_ok (fst p) /\ tod_ok (snd p)) ps ->
    Forall (fun p => fst p mod US = 0 /\ snd p mod US = 0) ps -> ps <> [] ->
    (1441 <= fuel)%nat -> (Z.to_nat (cf_count cfg) < fuel)%nat -> tz mod US = 0 ->
    forall clock ex s' m k n id t offs d S,
      w_hung (l_w s) = false ->
      l_step (sched_handler fuel (loop_cfg cfg sc s4) tz) s (LTurn clock ex) = Some s' -> l_mode s' = Arming m ->
      nth_error (asked calls) k = Some (n, id, t) -> owes ps t offs ->
      nth_error dates (List.length (st_srcs s4) - List.length (asked calls) + k) = Some d ->
      owed_on (now k) offs d (d + cf_count cfg - 1) S ->
      exists r, map fst (calls_of k (invoked s4 (l_w s))) = filter (fun y => y - tz <=? clock * 1000) S ++ r.
Proof. exact process_sleep. Qed.
Print Assumptions C60_no_due_call_left.

(** ... and no call is early: the loop has read a clock at or past its instant. *)
Theorem C60_not_early :
  forall fuel cfg sc tz st now calls ns dates s4 s ps,
    runs fuel cfg sc tz st None now calls ns dates s4 s ->
    cf_hist cfg = false ->
    market_period sc s4 = raw_of ps -> Forall (fun p => tod_ok (fst p) /\ tod_ok (snd p)) ps ->
    Forall (fun p => fst p mod US = 0 /\ snd p mod US = 0) ps -> ps <> [] ->
    (1441 <= fuel)%nat -> (Z.to_nat (cf_count cfg) < fuel)%nat -> tz mod US = 0 ->
    forall k n id t offs x o,
      nth_error (asked calls) k = Some (n, id, t) -> owes ps t offs ->
      In (x, o) (calls_of k (invoked s4 (l_w s))) ->
      exists m clock, In (m, clock) (l_log s) /\ x - tz <= clock * 1000.
Proof. exact process_not_early. Qed.
Print Assumptions C60_not_early.

(** ** a process with three entries, started at 9:29:30 on day 20000 in UTC+8 *)
Definition demo_calls : list ucall :=
  [URun (Fn 1 (Some (lit "f")) true) (lit "every_minute"); URun (Fn 2 (Some (lit "g")) true) (lit "open");
   URun (Fn 3 (Some (lit "h")) true) (lit "9:31")].
Definition demo_ns : dict str obj := [(lit "f", OUser 1); (lit "g", OUser 2); (lit "h", OUser 3)].
Definition demo_now : Z := 20000 * DAY + 34170 * US.
Definition demo_tz : Z := 28800 * US.
Definition demo_ps : list (Z * Z) := [(34200 * US, 41400 * US); (46800 * US, 54000 * US)].
Definition demo_ms (sec : Z) : Z := (20000 * 86400 + sec - 28800) * 1000.
Definition demo_done : label scb sout := LDone (SOut 20000 20000 [] None).
Definition demo_labels : list (label scb sout) :=
  [LAsync; LTurn (demo_ms 34200) false; demo_done; LTurn (demo_ms 34200) false; demo_done].
Notation demo_start := (start 1500 cfg_default scfg_default demo_tz 0 None (fun _ => demo_now) demo_calls demo_ns [20000; 20000; 20000]).

Definition demo_state : option (strat * lstate scb sworld) :=
  match demo_start with
  | Some (s4, s0) => option_map (fun s => (s4, s)) (l_exec (sched_handler 1500 (loop_cfg cfg_default scfg_default s4) demo_tz) s0 demo_labels)
  | None => None
  end.

Definition demo_sleeps (s4 : strat) (s : lstate scb sworld) : bool :=
  match l_step (sched_handler 1500 (loop_cfg cfg_default scfg_default s4) demo_tz) s (LTurn (demo_ms 34200) false) with
  | Some s' => match l_mode s' with Arming _ => true | _ => false end
  | None => false
  end.
Example C58_demo :
  option_map (fun x => let '(s4, s) := x in
    (List.length (st_srcs s4), market_period scfg_default s4, map (fun k => calls_of k (invoked s4 (l_w s))) [0; 1; 2]%nat,
     (w_hung (l_w s), demo_sleeps s4 s), map (fun n => dget n (st_ns s4)) [lit "f"; lit "g"; lit "h"])) demo_state =
  Some (3%nat, raw_of demo_ps,
    [[(20000 * DAY + 34200 * US, Some (OUser 1))]; [(20000 * DAY + 34200 * US, Some (OUser 2))]; []],
    (false, true), [Some (OUser 1); Some (OUser 2); Some (OUser 3)]).
Proof. vm_compute. reflexivity. Qed.

Example C58_demo_runs : exists s4 s, demo_state = Some (s4, s) /\
  runs 1500 cfg_default scfg_default demo_tz 0 None (fun _ => demo_now) demo_calls demo_ns [20000; 20000; 20000] s4 s.
Proof.
  assert (G : forall st : option (strat * lstate scb sworld), st = demo_start ->
    match st with Some (s4, s0) => option_map (fun s => (s4, s)) (l_exec (sched_handler 1500 (loop_cfg cfg_default scfg_default s4) demo_tz) s0 demo_labels) | None => None end = demo_state).
  { intros st ->. unfold demo_state. reflexivity. }
  assert (G0 : option_map (fun x => List.length (st_srcs (fst x))) demo_state = Some 3%nat) by (vm_compute; reflexivity).
  remember demo_start as st eqn:E0. specialize (G st eq_refl). rewrite <- G in G0. revert G G0. generalize demo_state. intros ds G G0.
  destruct st as [[s4 s0]|]; [|discriminate G0].
  destruct (l_exec (sched_handler 1500 (loop_cfg cfg_default scfg_default s4) demo_tz) s0 demo_labels) as [s|] eqn:E1; [|discriminate G0].
  cbn [option_map fst] in G, G0. exists s4, s. split; [symmetry; exact G|]. exists s0, demo_labels. split; [symmetry; exact E0|].
  split; [injection G0 as ->; reflexivity|]. split; [repeat constructor|exact E1].
Qed.

Example C58_demo_owes :
  asked demo_calls = [(lit "f", 1%nat, lit "every_minute"); (lit "g", 2%nat, lit "open"); (lit "h", 3%nat, lit "9:31")] /\
  owes demo_ps (lit "open") [34200 * US] /\ owes demo_ps (lit "9:31") [34260 * US] /\
  owes demo_ps (lit "before_open") [32400 * US] /\ owes demo_ps (lit "close-1h5m") [50100 * US].
Proof.
  split; [reflexivity|]. split; [apply owes_rel; apply (dd_base (opening demo_ps) (closing demo_ps)); constructor|]. split.
  - apply owes_clock. change (lit "9:31") with (lit "9" ++ lit ":" ++ lit "31").
    replace (34260 * US) with ((decimal (lit "9") * 3600 + decimal (lit "31") * 60) * US) by reflexivity.
    apply clock_hm; [split; [left; reflexivity|repeat constructor]|split; [right; reflexivity|repeat constructor]|reflexivity|reflexivity].
  - split; [exact (owes_before demo_ps)|]. apply owes_rel.
    apply (dd_off (opening demo_ps) (closing demo_ps) (lit "close") (closing demo_ps) [Group (lit "1") 104; Group (lit "5") 109] false).
    + constructor.
    + split; [cbn; lia|]. repeat constructor; discriminate.
    + repeat constructor; cbn; intuition discriminate.
Qed.

(** ** C61 *)

(** Two entries owed the same instants, both every_minute or neither: at no time has the
    later one got more of its calls than the earlier one. *)
Theorem C61_ties_in_order_partial :
  forall fuel cfg sc tz st now calls ns dates s4 s ps,
    runs fuel cfg sc tz st None now calls ns dates s4 s ->
    cf_hist cfg = false ->
    market_period sc s4 = raw_of ps -> Forall (fun p => tod_ok (fst p) /\ tod_ok (snd p)) ps ->
    Forall (fun p => fst p mod US = 0 /\ snd p mod US = 0) ps -> ps <> [] ->
    (1441 <= fuel)%nat -> (Z.to_nat (cf_count cfg) < fuel)%nat -> tz mod US = 0 ->
    forall i ni idi ti oi j nj idj tj oj di dj S,
      w_hung (l_w s) = false -> (i < j)%nat ->
      nth_error (asked calls) i = Some (ni, idi, ti) -> owes ps ti oi ->
      nth_error (asked calls) j = Some (nj, idj, tj) -> owes ps tj oj ->
      str_eqb ti (lit "every_minute") = str_eqb tj (lit "every_minute") ->
      nth_error dates (List.length (st_srcs s4) - List.length (asked calls) + i) = Some di ->
      owed_on (now i) oi di (di + cf_count cfg - 1) S ->
      nth_error dates (List.length (st_srcs s4) - List.length (asked calls) + j) = Some dj ->
      owed_on (now j) oj dj (dj + cf_count cfg - 1) S ->
      (Nat.min (List.length (calls_of j (invoked s4 (l_w s)))) (List.length S) <= List.length (calls_of i (invoked s4 (l_w s))))%nat.
Proof. exact process_ties. Qed.
Print Assumptions C61_ties_in_order_partial.

(** The full statement: of two run_daily calls with the same time, the earlier one's
    function is called first at every instant from its own start on.  The clock is read
    once per entry during start-up and may only advance. *)
Definition ties_in_order : Prop :=
  forall fuel cfg sc tz st now calls ns dates s4 s ps,
    runs fuel cfg sc tz st None now calls ns dates s4 s ->
    cf_hist cfg = false ->
    market_period sc s4 = raw_of ps -> Forall (fun p => tod_ok (fst p) /\ tod_ok (snd p)) ps ->
    Forall (fun p => fst p mod US = 0 /\ snd p mod US = 0) ps -> ps <> [] ->
    (1441 <= fuel)%nat -> (Z.to_nat (cf_count cfg) < fuel)%nat -> tz mod US = 0 ->
    (forall k, now k <= now (S k)) ->
    forall i ni idi j nj idj t offs x,
      w_hung (l_w s) = false -> (i < j)%nat ->
      nth_error (asked calls) i = Some (ni, idi, t) -> nth_error (asked calls) j = Some (nj, idj, t) -> owes ps t offs ->
      now i <= x -> In x (map fst (calls_of j (invoked s4 (l_w s)))) -> In x (map fst (calls_of i (invoked s4 (l_w s)))).

(** Started at 9:30 with two entries at 9:30, the first one's clock reading just before
    9:30 and the second one's just after: from the next day on the second one's function
    is called first. *)
Definition tie_calls : list ucall :=
  [URun (Fn 1 (Some (lit "f")) true) (lit "9:30"); URun (Fn 2 (Some (lit "g")) true) (lit "9:30")].
Definition tie_now (k : nat) : Z := match k with O => 20000 * DAY + 34200 * US - 1 | _ => 20000 * DAY + 34200 * US + 1 end.
Definition tie_labels : list (label scb sout) :=
  [LAsync; LTurn (demo_ms 34200) false; demo_done; LTurn (demo_ms 34200) false; LArm; LTimer;
   LTurn (demo_ms (86400 + 34200)) false; LDone (SOut 20001 20001 [] None)].
Notation tie_start := (start 1500 cfg_default scfg_default demo_tz 0 None tie_now tie_calls demo_ns [20000; 20000]).
Definition tie_state : option (strat * lstate scb sworld) :=
  match tie_start with
  | Some (s4, s0) => option_map (fun s => (s4, s)) (l_exec (sched_handler 1500 (loop_cfg cfg_default scfg_default s4) demo_tz) s0 tie_labels)
  | None => None
  end.
Example C61_tie_state :
  option_map (fun x => let '(s4, s) := x in
    (market_period scfg_default s4, map (fun k => calls_of k (invoked s4 (l_w s))) [0; 1]%nat, w_hung (l_w s))) tie_state =
  Some (raw_of demo_ps,
    [[(20000 * DAY + 34200 * US, Some (OUser 1))]; [(20001 * DAY + 34200 * US, Some (OUser 2))]], false).
Proof. vm_compute. reflexivity. Qed.

Example C61_tie_runs : exists s4 s, tie_state = Some (s4, s) /\
  runs 1500 cfg_default scfg_default demo_tz 0 None tie_now tie_calls demo_ns [20000; 20000] s4 s.
Proof.
  assert (G : forall st : option (strat * lstate scb sworld), st = tie_start ->
    match st with Some (s4, s0) => option_map (fun s => (s4, s)) (l_exec (sched_handler 1500 (loop_cfg cfg_default scfg_default s4) demo_tz) s0 tie_labels) | None => None end = tie_state).
  { intros st ->. unfold tie_state. reflexivity. }
  assert (G0 : option_map (fun x => List.length (st_srcs (fst x))) tie_state = Some 2%nat) by (vm_compute; reflexivity).
  remember tie_start as st eqn:E0. specialize (G st eq_refl). rewrite <- G in G0. revert G G0. generalize tie_state. intros ds G G0.
  destruct st as [[s4 s0]|]; [|discriminate G0].
  destruct (l_exec (sched_handler 1500 (loop_cfg cfg_default scfg_default s4) demo_tz) s0 tie_labels) as [s|] eqn:E1; [|discriminate G0].
  cbn [option_map fst] in G, G0. exists s4, s. split; [symmetry; exact G|]. exists s0, tie_labels. split; [symmetry; exact E0|].
  split; [injection G0 as ->; reflexivity|]. split; [repeat constructor|exact E1].
Qed.

Theorem C61_ties_in_order_refuted : ~ ties_in_order.
Proof.
  intros H. destruct C61_tie_runs as (s4 & s & E & Hr). pose proof C61_tie_state as Hs. rewrite E in Hs. clear E.
  cbn [option_map] in Hs.
  assert (G : forall A B C (a a' : A) (b b' : B) (c c' : C), Some (a, b, c) = Some (a', b', c') -> a = a' /\ b = b' /\ c = c')
    by (intros ? ? ? ? ? ? ? ? ? E; injection E; auto).
  apply G in Hs as (H1 & H2 & H3). cbn [map] in H2. injection H2 as Ef Eg.
  assert (Hx : In (20001 * DAY + 34200 * US) (map fst (calls_of 0 (invoked s4 (l_w s))))).
  { apply (H 1500%nat cfg_default scfg_default demo_tz 0 tie_now tie_calls demo_ns [20000; 20000] s4 s demo_ps Hr) with
      (ni := lit "f") (idi := 1%nat) (j := 1%nat) (nj := lit "g") (idj := 2%nat) (t := lit "9:30") (offs := [34200 * US]).
    - reflexivity.
    - exact H1.
    - unfold demo_ps. repeat constructor; vm_compute; discriminate.
    - unfold demo_ps. repeat constructor.
    - discriminate.
    - apply Nat.leb_le. vm_compute. reflexivity.
    - apply Nat.leb_le. vm_compute. reflexivity.
    - reflexivity.
    - intros [|k]; unfold tie_now; lia.
    - exact H3.
    - lia.
    - reflexivity.
    - reflexivity.
    - apply owes_clock. change (lit "9:30") with (lit "9" ++ lit ":" ++ lit "30").
      replace (34200 * US) with ((decimal (lit "9") * 3600 + decimal (lit "30") * 60) * US) by reflexivity.
      apply clock_hm; [split; [left; reflexivity|repeat constructor]|split; [right; reflexivity|repeat constructor]|reflexivity|reflexivity].
    - vm_compute. discriminate.
    - rewrite Eg. left. reflexivity. }
  rewrite Ef in Hx. destruct Hx as [Hx|[]]. vm_compute in Hx. discriminate.
Qed.
Print Assumptions C61_ties_in_order_refuted.

(** the hypotheses of [C61_ties_in_order_partial] are met by the same two entries under a
    clock that reads the same for both; f is called first, on both days *)
Example C61_demo :
  (exists S, owed_on demo_now [34200 * US] 20000 (20000 + cf_count cfg_default - 1) S) /\
  match start 1500 cfg_default scfg_default demo_tz 0 None (fun _ => demo_now) tie_calls demo_ns [20000; 20000] with
  | Some (s4, s0) =>
      map (fun n => option_map (fun s => (map fst (invoked s4 (l_w s)), map (fun k => List.length (calls_of k (invoked s4 (l_w s)))) [0; 1]%nat, w_hung (l_w s)))
        (l_exec (sched_handler 1500 (loop_cfg cfg_default scfg_default s4) demo_tz) s0
          (firstn n [LAsync; LTurn (demo_ms 34200) false; demo_done; LTurn (demo_ms 34200) false; demo_done;
            LTurn (demo_ms (86400 + 34200)) false; LDone (SOut 20001 20001 [] None);
            LTurn (demo_ms (86400 + 34200)) false; LDone (SOut 20001 20001 [] None)]))) [3; 5; 7; 9]%nat
  | None => []
  end =
  let x := 20000 * DAY + 34200 * US in let y := 20001 * DAY + 34200 * US in
  [Some ([x], [1; 0]%nat, false); Some ([x; x], [1; 1]%nat, false); Some ([x; x; y], [2; 1]%nat, false); Some ([x; x; y; y], [2; 2]%nat, false)].
Proof. split; [apply owed_exists|vm_compute; reflexivity]. Qed.
