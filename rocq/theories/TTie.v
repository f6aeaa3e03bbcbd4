(** C61: functions scheduled for the same time, in processes that run beyond the days
    generated at start-up. *)
From Coq Require Import Permutation Sorted String.
From Verif Require Import PyBase PyStr MTime MTimeExpr MEventSource MQueue MLoop MSched MBus MStrategy SEvent SExpr SStrategy
  LEventSource2 MProcess SProcess LProcess SLong LLong2 LTie2 TProcess TLong.
Open Scope list_scope.
Open Scope Z_scope.

(** Two entries owed the same instants, both every_minute or neither, whose events were
    generated on the same day: if every callback ends on the day it was due, then at any
    time, however long the process has run, the calls the later one got are the first ones
    of those the earlier one got.  Days called twice (C90) are included. *)
Theorem C61_years_partial :
  forall fuel cfg sc tz st now calls ns dates s4 s0 s ls ps,
    start fuel cfg sc tz st None now calls ns dates = Some (s4, s0) -> List.length dates = List.length (st_srcs s4) ->
    Forall ok_label ls -> l_exec (sched_handler fuel (loop_cfg cfg sc s4) tz) s0 ls = Some s ->
    cf_hist cfg = false ->
    market_period sc s4 = raw_of ps -> Forall (fun p => tod_ok (fst p) /\ tod_ok (snd p)) ps ->
    Forall (fun p => fst p mod US = 0 /\ snd p mod US = 0) ps -> ps <> [] ->
    (1441 <= fuel)%nat -> (Z.to_nat (cf_count cfg) < fuel)%nat -> 2 <= cf_count cfg ->
    tz mod US = 0 -> same_day (sched_handler fuel (loop_cfg cfg sc s4) tz) tz s0 ls ->
    forall i ni idi ti oi j nj idj tj oj d S,
      w_hung (l_w s) = false -> (i < j)%nat ->
      nth_error (asked calls) i = Some (ni, idi, ti) -> owes ps ti oi ->
      nth_error (asked calls) j = Some (nj, idj, tj) -> owes ps tj oj ->
      str_eqb ti (lit "every_minute") = str_eqb tj (lit "every_minute") ->
      Permutation oi oj -> Forall tod_ok oi -> oi <> [] ->
      nth_error dates (List.length (st_srcs s4) - List.length (asked calls) + i) = Some d -> dt_date (now i) <= d ->
      owed_on (now i) oi d (d + cf_count cfg - 1) S ->
      nth_error dates (List.length (st_srcs s4) - List.length (asked calls) + j) = Some d -> dt_date (now j) <= d ->
      owed_on (now j) oj d (d + cf_count cfg - 1) S ->
      begins (map fst (calls_of j (invoked s4 (l_w s)))) (map fst (calls_of i (invoked s4 (l_w s)))).
Proof.
  intros. eapply two_years with (s0 := s0) (s := s) (ls := ls) (d := d) (i := i) (j := j); eassumption.
Qed.
Print Assumptions C61_years_partial.

(** f and g at 9:30, windows of three days, run over the end of the first window into the
    second one: every day f comes first, also when the third day is called again *)
Definition short_cfg : escfg := ESCfg false 3 mp_default.
Definition short_turns (i : nat) : list (label scb sout) :=
  let t := [LTurn (demo_ms (Z.of_nat i * 86400 + 34200)) false; LDone (SOut (20000 + Z.of_nat i) (20000 + Z.of_nat i) [] None)] in t ++ t.
Definition short_labels : list (label scb sout) := LAsync :: flat_map short_turns [0; 1; 2; 2; 3]%nat ++ firstn 2 (short_turns 4).
Example C61_years_demo :
  (exists S, owed_on demo_now [34200 * US] 20000 (20000 + cf_count short_cfg - 1) S) /\ dt_date demo_now = 20000 /\
  match start 1500 short_cfg scfg_default demo_tz 0 None (fun _ => demo_now) tie_calls demo_ns [20000; 20000] with
  | Some (s4, s0) =>
      let h := sched_handler 1500 (loop_cfg short_cfg scfg_default s4) demo_tz in
      option_map (fun s => (List.length (st_srcs s4), same_day_b demo_tz h s0 short_labels, w_hung (l_w s),
        map (fun k => map (fun x => dt_date (fst x)) (calls_of k (invoked s4 (l_w s)))) [0; 1]%nat,
        map (fun x => match snd x with CbUser k _ => k | _ => 9%nat end) (invoked s4 (l_w s))))
        (l_exec h s0 short_labels)
  | None => None
  end =
  Some (2%nat, true, false, [[20000; 20001; 20002; 20002; 20003; 20004]; [20000; 20001; 20002; 20002; 20003]],
        [0; 1; 0; 1; 0; 1; 0; 1; 0; 1; 0]%nat).
Proof. split; [apply owed_exists|split; vm_compute; reflexivity]. Qed.
