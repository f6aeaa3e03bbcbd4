(** C90: task processes that run beyond the days generated at start-up. *)
From Coq Require Import Permutation Sorted String.
From Verif Require Import PyBase PyStr MTime MTimeExpr MEventSource MQueue MLoop MSched MBus MStrategy SEvent SExpr SStrategy
  LEventSource2 MProcess SProcess LProcess SLong LLong2 TProcess.
Open Scope list_scope.
Open Scope Z_scope.

(** For every execution: the calls an entry gets are those owed in windows of [cf_count]
    days.  The first window starts on the date of start-up, each further one on a date read
    when a callback ended.  Every window is delivered whole before the next one. *)
Theorem C117_windows :
  forall fuel cfg sc tz st now calls ns dates s4 s0 s ls ps,
    start fuel cfg sc tz st None now calls ns dates = Some (s4, s0) -> List.length dates = List.length (st_srcs s4) ->
    Forall ok_label ls -> l_exec (sched_handler fuel (loop_cfg cfg sc s4) tz) s0 ls = Some s ->
    cf_hist cfg = false ->
    market_period sc s4 = raw_of ps -> Forall (fun p => tod_ok (fst p) /\ tod_ok (snd p)) ps ->
    Forall (fun p => fst p mod US = 0 /\ snd p mod US = 0) ps -> ps <> [] ->
    (1441 <= fuel)%nat -> (Z.to_nat (cf_count cfg) < fuel)%nat ->
    forall k n id t offs d,
      nth_error (asked calls) k = Some (n, id, t) -> owes ps t offs ->
      nth_error dates (List.length (st_srcs s4) - List.length (asked calls) + k) = Some d ->
      exists ds, Forall (fun b => exists o, In (LDone o) ls /\ b = o_date2 o) ds /\
        in_windows (now k) offs (cf_count cfg) (d :: ds) (map fst (calls_of k (invoked s4 (l_w s)))).
Proof. exact long_windows. Qed.
Print Assumptions C117_windows.

(** If every callback ends on the day it was due, the windows overlap by one day each. *)
Theorem C117_same_day :
  forall fuel cfg sc tz st now calls ns dates s4 s0 s ls ps,
    start fuel cfg sc tz st None now calls ns dates = Some (s4, s0) -> List.length dates = List.length (st_srcs s4) ->
    Forall ok_label ls -> l_exec (sched_handler fuel (loop_cfg cfg sc s4) tz) s0 ls = Some s ->
    cf_hist cfg = false ->
    market_period sc s4 = raw_of ps -> Forall (fun p => tod_ok (fst p) /\ tod_ok (snd p)) ps ->
    Forall (fun p => fst p mod US = 0 /\ snd p mod US = 0) ps -> ps <> [] ->
    (1441 <= fuel)%nat -> (Z.to_nat (cf_count cfg) < fuel)%nat ->
    forall k n id t offs d,
      nth_error (asked calls) k = Some (n, id, t) -> owes ps t offs ->
      nth_error dates (List.length (st_srcs s4) - List.length (asked calls) + k) = Some d ->
      tz mod US = 0 -> same_day (sched_handler fuel (loop_cfg cfg sc s4) tz) tz s0 ls ->
      Forall tod_ok offs -> offs <> [] -> 2 <= cf_count cfg -> dt_date (now k) <= d ->
      exists i, in_windows (now k) offs (cf_count cfg) (map (fun j => d + Z.of_nat j * (cf_count cfg - 1)) (seq 0 (S i)))
        (map fst (calls_of k (invoked s4 (l_w s)))).
Proof. exact long_same_day. Qed.
Print Assumptions C117_same_day.

(** How often each owed instant is called, however many days the process has run: when the
    loop goes to sleep every instant that is due has been called; once, except on the days
    d + i (cf_count - 1), i >= 1, whose calls are made twice. *)
Theorem C90_days_partial :
  forall fuel cfg sc tz st now calls ns dates s4 s0 s ls ps,
    start fuel cfg sc tz st None now calls ns dates = Some (s4, s0) -> List.length dates = List.length (st_srcs s4) ->
    Forall ok_label ls -> l_exec (sched_handler fuel (loop_cfg cfg sc s4) tz) s0 ls = Some s ->
    cf_hist cfg = false ->
    market_period sc s4 = raw_of ps -> Forall (fun p => tod_ok (fst p) /\ tod_ok (snd p)) ps ->
    Forall (fun p => fst p mod US = 0 /\ snd p mod US = 0) ps -> ps <> [] ->
    (1441 <= fuel)%nat -> (Z.to_nat (cf_count cfg) < fuel)%nat ->
    forall k n id t offs d,
      nth_error (asked calls) k = Some (n, id, t) -> owes ps t offs ->
      nth_error dates (List.length (st_srcs s4) - List.length (asked calls) + k) = Some d ->
      tz mod US = 0 -> same_day (sched_handler fuel (loop_cfg cfg sc s4) tz) tz s0 ls ->
      Forall tod_ok offs -> offs <> [] -> 2 <= cf_count cfg -> dt_date (now k) <= d ->
      forall clock ex s' m D o,
        NoDup offs -> w_hung (l_w s) = false ->
        l_step (sched_handler fuel (loop_cfg cfg sc s4) tz) s (LTurn clock ex) = Some s' -> l_mode s' = Arming m ->
        In o offs -> d <= D -> now k <= D * DAY + o -> D * DAY + o - tz <= clock * 1000 ->
        let c := times (D * DAY + o) (map fst (calls_of k (invoked s4 (l_w s)))) in
        (1 <= c <= 2)%nat /\
        ((D - d) mod (cf_count cfg - 1) <> 0 \/ D = d -> c = 1%nat) /\
        ((D - d) mod (cf_count cfg - 1) = 0 -> d < D -> (forall o', In o' offs -> D * DAY + o' - tz <= clock * 1000) -> c = 2%nat).
Proof. exact long_days. Qed.
Print Assumptions C90_days_partial.

(** The full statement: every owed instant that is due has been called once. *)
Definition once_a_day : Prop :=
  forall fuel cfg sc tz st now calls ns dates s4 s0 s ls ps,
    start fuel cfg sc tz st None now calls ns dates = Some (s4, s0) -> List.length dates = List.length (st_srcs s4) ->
    Forall ok_label ls -> l_exec (sched_handler fuel (loop_cfg cfg sc s4) tz) s0 ls = Some s ->
    cf_hist cfg = false ->
    market_period sc s4 = raw_of ps -> Forall (fun p => tod_ok (fst p) /\ tod_ok (snd p)) ps ->
    Forall (fun p => fst p mod US = 0 /\ snd p mod US = 0) ps -> ps <> [] ->
    (1441 <= fuel)%nat -> (Z.to_nat (cf_count cfg) < fuel)%nat ->
    forall k n id t offs d,
      nth_error (asked calls) k = Some (n, id, t) -> owes ps t offs ->
      nth_error dates (List.length (st_srcs s4) - List.length (asked calls) + k) = Some d ->
      tz mod US = 0 -> same_day (sched_handler fuel (loop_cfg cfg sc s4) tz) tz s0 ls ->
      Forall tod_ok offs -> offs <> [] -> 2 <= cf_count cfg -> dt_date (now k) <= d ->
      forall clock ex s' m D o,
        NoDup offs -> w_hung (l_w s) = false ->
        l_step (sched_handler fuel (loop_cfg cfg sc s4) tz) s (LTurn clock ex) = Some s' -> l_mode s' = Arming m ->
        In o offs -> d <= D -> now k <= D * DAY + o -> D * DAY + o - tz <= clock * 1000 ->
        times (D * DAY + o) (map fst (calls_of k (invoked s4 (l_w s)))) = 1%nat.

(** A process with the default settings and one entry, "9:31", called on time for 365 days:
    day 365 (the last one generated at start-up) is called again at once. *)
Fixpoint same_day_b (tz : Z) (h : handler scb sworld sout) (s : lstate scb sworld) (ls : list (label scb sout)) : bool :=
  match ls with
  | [] => true
  | l :: ls' =>
      match l, l_mode s with
      | LDone o, Running m => o_date2 o =? dt_date (m_time m * 1000 + tz)
      | _, _ => true
      end &&
      match l_step h s l with Some s' => same_day_b tz h s' ls' | None => true end
  end.
Lemma same_day_b_ok tz h ls : forall s, same_day_b tz h s ls = true -> same_day h tz s ls.
Proof.
  induction ls as [|l ls IH]; intros s; cbn [same_day_b same_day]; [auto|]. intros H. apply andb_true_iff in H as [H1 H2]. split.
  - destruct l; try exact I. destruct (l_mode s); try exact I. apply Z.eqb_eq. exact H1.
  - destruct (l_step h s l); [apply IH; exact H2|exact I].
Qed.

Definition year_calls : list ucall := [URun (Fn 3 (Some (lit "h")) true) (lit "9:31")].
Definition year_turn (i : nat) : list (label scb sout) :=
  [LTurn (demo_ms (Z.of_nat i * 86400 + 34260)) false; LDone (SOut (20000 + Z.of_nat i) (20000 + Z.of_nat i) [] None)].
Definition year_labels : list (label scb sout) := LAsync :: flat_map year_turn (seq 0 365) ++ year_turn 364.
Notation year_start := (start 1500 cfg_default scfg_default demo_tz 0 None (fun _ => demo_now) year_calls demo_ns [20000]).
Notation year_h := (fun s4 => sched_handler 1500 (loop_cfg cfg_default scfg_default s4) demo_tz).
Definition year_clock : Z := demo_ms (364 * 86400 + 34260).
Definition year_facts (x : option (strat * lstate scb sworld)) :=
  match x with
  | Some (s4, s0) =>
      match l_exec (year_h s4) s0 year_labels with
      | Some s => Some ((List.length (st_srcs s4), market_period scfg_default s4, same_day_b demo_tz (year_h s4) s0 year_labels),
                        (w_hung (l_w s), skipn 363 (map fst (calls_of 0 (invoked s4 (l_w s)))), List.length (calls_of 0 (invoked s4 (l_w s))),
                         match l_step (year_h s4) s (LTurn year_clock false) with Some s' => match l_mode s' with Arming _ => true | _ => false end | None => false end))
      | None => None
      end
  | None => None
  end.
Example C90_year : year_facts year_start =
  Some ((1%nat, raw_of demo_ps, true),
        (false, [20363 * DAY + 34260 * US; 20364 * DAY + 34260 * US; 20364 * DAY + 34260 * US], 366%nat, true)).
Proof. vm_compute. reflexivity. Qed.

(** the state reached, its hypotheses, and the calls *)
Lemma year_state : exists s4 s0 s s' m,
  year_start = Some (s4, s0) /\ l_exec (year_h s4) s0 year_labels = Some s /\
  l_step (year_h s4) s (LTurn year_clock false) = Some s' /\ l_mode s' = Arming m /\
  List.length (st_srcs s4) = 1%nat /\ market_period scfg_default s4 = raw_of demo_ps /\ same_day (year_h s4) demo_tz s0 year_labels /\
  w_hung (l_w s) = false /\ List.length (calls_of 0 (invoked s4 (l_w s))) = 366%nat /\
  skipn 363 (map fst (calls_of 0 (invoked s4 (l_w s)))) = [20363 * DAY + 34260 * US; 20364 * DAY + 34260 * US; 20364 * DAY + 34260 * US].
Proof.
  pose proof C90_year as H. revert H. generalize year_start as x. intros [[s4 s0]|]; unfold year_facts; [|discriminate].
  generalize year_labels as ls. intros ls. destruct (l_exec _ s0 ls) as [s|] eqn:Ex; [|discriminate].
  intros H. exists s4, s0, s.
  assert (G : forall A B C A' B' C' D' (a a' : A) (b b' : B) (c c' : C) (e e' : A') (f f' : B') (g g' : C') (i i' : D'),
    Some ((a, b, c), (e, f, g, i)) = Some ((a', b', c'), (e', f', g', i')) -> a = a' /\ b = b' /\ c = c' /\ e = e' /\ f = f' /\ g = g' /\ i = i')
    by (intros * E; injection E; auto 10).
  apply G in H as (H1 & H2 & H3 & H4 & H5 & H6 & H7).
  destruct (l_step _ s (LTurn year_clock false)) as [s'|]; [|discriminate]. destruct (l_mode s') as [| |m| |] eqn:Em; try discriminate.
  exists s', m. repeat (split; [first [assumption|reflexivity|apply same_day_b_ok; assumption]|]). assumption.
Qed.

Lemma year_owes : owes demo_ps (lit "9:31") [34260 * US].
Proof. apply C58_demo_owes. Qed.

Theorem C90_once_refuted : ~ once_a_day.
Proof.
  intros H. destruct year_state as (s4 & s0 & s & s' & m & E1 & E2 & E3 & E4 & H1 & H2 & H3 & H4 & H5 & H6).
  assert (Hx : times (20364 * DAY + 34260 * US) (map fst (calls_of 0 (invoked s4 (l_w s)))) = 1%nat).
  { eapply (H 1500%nat cfg_default scfg_default demo_tz 0 (fun _ => demo_now) year_calls demo_ns [20000] s4 s0 s year_labels demo_ps) with
      (n := lit "h") (id := 3%nat) (t := lit "9:31") (offs := [34260 * US]) (d := 20000) (clock := year_clock) (ex := false) (s' := s') (m := m); try assumption.
    - rewrite H1. reflexivity.
    - constructor; [exact I|]. apply Forall_app. split.
      + apply Forall_forall. intros l Hl. apply in_flat_map in Hl as (i & _ & [<-|[<-|[]]]); exact I.
      + repeat constructor.
    - reflexivity.
    - unfold demo_ps. repeat constructor; vm_compute; discriminate.
    - unfold demo_ps. repeat constructor.
    - discriminate.
    - apply Nat.leb_le. vm_compute. reflexivity.
    - apply Nat.leb_le. vm_compute. reflexivity.
    - reflexivity.
    - exact year_owes.
    - rewrite H1. reflexivity.
    - reflexivity.
    - repeat constructor; vm_compute; discriminate.
    - discriminate.
    - vm_compute. discriminate.
    - vm_compute. discriminate.
    - repeat constructor. intros [].
    - left. reflexivity.
    - lia.
    - vm_compute. discriminate.
    - vm_compute. discriminate. }
  rewrite <- (firstn_skipn 363 (map fst (calls_of 0 (invoked s4 (l_w s))))), H6 in Hx. unfold times in Hx. rewrite count_occ_app in Hx.
  assert (E : count_occ Z.eq_dec [20363 * DAY + 34260 * US; 20364 * DAY + 34260 * US; 20364 * DAY + 34260 * US] (20364 * DAY + 34260 * US) = 2%nat) by (vm_compute; reflexivity).
  rewrite E in Hx. lia.
Qed.
Print Assumptions C90_once_refuted.

(** the hypotheses of the theorems above are met by that process; day 20364 = 20000 + 364 is
    the first repeated day, 20363 is called once *)
Example C90_demo : exists s4 s0 s,
  year_start = Some (s4, s0) /\ l_exec (year_h s4) s0 year_labels = Some s /\ same_day (year_h s4) demo_tz s0 year_labels /\
  (20364 - 20000) mod (cf_count cfg_default - 1) = 0 /\ (20363 - 20000) mod (cf_count cfg_default - 1) <> 0 /\
  List.length (calls_of 0 (invoked s4 (l_w s))) = 366%nat.
Proof.
  destruct year_state as (s4 & s0 & s & s' & m & E1 & E2 & E3 & E4 & H1 & H2 & H3 & H4 & H5 & H6). exists s4, s0, s.
  repeat (split; [first [assumption|reflexivity|discriminate]|]). exact H5.
Qed.
