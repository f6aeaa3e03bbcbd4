(** The repository's own tests (/repo/tests), run on the model.  What a test computes is
    compared by evaluation; the strategy runs over past days (tests/test_strategies.py) are
    theorems about every execution of the process, by C125.  Not included:
    test_thread_safe_q (random pushes by ten threads, nothing asserted about the results;
    see C63), test_order_id_producer (uuid4), the isinstance checks of test_event.py. *)
From Coq Require Import Permutation Sorted String.
From Verif Require Import PyBase PyStr MTime MDate MTimeExpr MEventSource MQueue MLoop MSched MBus MStrategy MOrder MAccount MTasks MUtils
  SEvent SExpr SStrategy LEventSource2 LStrategy MProcess SProcess LProcess SEnd LEnd LHist TProcess TLate THist.
Open Scope list_scope.
Open Scope Z_scope.

(** ** tests/scheduler/test_utils.py *)

(** lines 8-9; the expected value is that of a machine in China *)
Example test_dt_to_milliseconds :
  parse_dt (lit "2023-10-30 00:00:00") = Ok (19660 * DAY) /\ dt_to_milliseconds (8 * 3600 * US) (19660 * DAY) = 1698595200000.
Proof. split; vm_compute; reflexivity. Qed.

Definition path_demo : str := lit "tests/scheduler/strategies/strategy_demo.py".
(** lines 12-47 *)
Example test_parse_task_info :
  parse_task_info [lit "sudo"; lit "-E"; lit "python"; lit "-m"; lit "jqtrade"; lit "start_task"; lit "-c"; path_demo; lit "-n"; lit "demo";
    lit "--debug"; lit "-o"; lit "demo.log"; lit "-e"; lit "AAAA=1;BBB=2"] =
    Ok (TInfo true (Some (lit "AAAA=1;BBB=2")) (Some (lit "demo.log")) (Some path_demo) (Some (lit "demo"))) /\
  parse_task_info [lit "python"; lit "-m"; lit "jqtrade"; lit "start_task"; lit "-c"; path_demo; lit "-n"; lit "demo"] =
    Ok (TInfo false None None (Some path_demo) (Some (lit "demo"))) /\
  parse_task_info [lit "python"; lit "-m"; lit "jqtrade"; lit "start_task"; lit "-c"; path_demo; lit "-n"; lit "demo";
    lit "--debug"; lit "-o"; lit "demo.log"; lit "-e"; lit "AAAA=1;BBB=2"] =
    Ok (TInfo true (Some (lit "AAAA=1;BBB=2")) (Some (lit "demo.log")) (Some path_demo) (Some (lit "demo"))).
Proof. repeat split; vm_compute; reflexivity. Qed.

(** ** tests/scheduler/test_bus.py: a callback is what it returns; classes 1 and 2 *)
Definition test_inst (e k : Z) : bool := e =? k.
Definition test_bus : bus Z Z :=
  register 2 11 1 (register 2 10 0 (register 1 (-2) (-1) (register 1 (-3) (-1) (register 1 (-1) (-1) (register 1 1 1 (register 1 0 0 bus_new)))))).
(** lines 22-34 *)
Example test_register :
  snd (emit test_inst (fun c => Ok c) 1 test_bus) = Ok [1; 0; -1; -3; -2] /\ snd (emit test_inst (fun c => Ok c) 2 test_bus) = Ok [11; 10].
Proof. split; vm_compute; reflexivity. Qed.
(** lines 37-51 *)
Definition test_bus2 : bus Z Z :=
  unregister 1 (-1) (register 2 11 1 (register 2 10 0 (register 1 (-1) (-1) (register 1 1 1 (register 1 0 0 bus_new))))).
Example test_unregister :
  snd (emit test_inst (fun c => Ok c) 1 test_bus2) = Ok [1; 0] /\ snd (emit test_inst (fun c => Ok c) 2 test_bus2) = Ok [11; 10].
Proof. split; vm_compute; reflexivity. Qed.

(** ** tests/scheduler/test_queue.py lines 29-51; keys of two parts, so the third is equal *)
Example test_priority_q :
  fst (q_run q_empty [QEmpty; QPush 1 (SKey 1 1 0); QPush 2 (SKey 1 2 0); QPush 3 (SKey (-1) 3 0); QPush 4 (SKey 2 1 0); QPush 5 (SKey 2 (-1) 0);
    QEmpty; QTop; QPop; QPop; QPop; QPop; QPop]) =
    [OBool true; OUnit; OUnit; OUnit; OUnit; OUnit; OBool false; OItem (Ok 3); OItem (Ok 3); OItem (Ok 1); OItem (Ok 2); OItem (Ok 5); OItem (Ok 4)].
Proof. vm_compute. reflexivity. Qed.

(** ** tests/scheduler/test_event_source.py; the tests run at 9:29:30 of day 20000 *)
Definition ok_es (r : res esrc) : esrc := match r with Ok es => es | Err _ => es_new None None end.
(** lines 12-18 *)
Example test_event_source_init :
  let es := es_new None None in (es_daily es, es_events es, es_days es, es_cbs es, es_need es) = ([], [], [], [], true).
Proof. reflexivity. Qed.
(** lines 21-33: [es_setup] succeeds and the second reset changes nothing *)
Example test_reset_events :
  match es_setup (ESCfg false 3 mp_default) demo_now (es_new None None) with
  | Ok es => es_need es = false /\ match reset_if_needed (ESCfg false 3 mp_default) 20000 es with
                                   | Ok es' => es_daily es' = [] /\ es_events es' = [] /\ es_days es' <> []
                                   | Err _ => False
                                   end
  | Err _ => False
  end.
Proof. vm_compute. repeat split. discriminate. Qed.
(** lines 36-43, with the count in the configuration *)
Example test_get_days :
  (do r <- get_days (ESCfg false 2 mp_default) 20000 (ok_es (es_setup (ESCfg false 2 mp_default) demo_now (es_new None None))); Ok (fst r)) = Ok [20000; 20001].
Proof. vm_compute. reflexivity. Qed.
(** lines 46-62 *)
Definition test_cls (i : Z) : ecls := ECls (lit "TestEvent" ++ [Z.to_N (48 + i)]) 0.
Definition add_dailies (l : list (str * Z)) (es : esrc) : esrc := fold_left (fun es p => es_add_daily (test_cls (snd p)) (fst p) es) l es.
Example test_daily :
  let es := add_dailies [(lit "09:30:00", 0); (lit "every_minute", 0); (lit "open-30", 0); (lit "close-30", 0)]
              (ok_es (es_setup (ESCfg false 2 mp_default) demo_now (es_new None None))) in
  (es_daily es, es_need es) =
    ([(lit "09:30:00", test_cls 0); (lit "every_minute", test_cls 0); (lit "open-30", test_cls 0); (lit "close-30", test_cls 0)], true).
Proof. vm_compute. reflexivity. Qed.

Definition at_s (day sec : Z) : Z := day * DAY + sec * US.
Definition hist : escfg := ESCfg true 3 mp_default.
Definition gen (es : esrc) : list (Z * ecls) := match gen_events 10 hist 20000 es with GOk es' => es_events es' | _ => [] end.
(** lines 101-147: the first day of the events *)
Example test_gen_events :
  firstn 6 (gen (add_dailies [(lit "09:30:00", 1); (lit "open", 2); (lit "open-30m", 3); (lit "14:30:00", 4); (lit "close-30m", 5); (lit "close", 6)]
     (ok_es (es_setup hist demo_now (es_new (Some (at_s 20000 28800)) None))))) =
    [(at_s 20000 32400, test_cls 3); (at_s 20000 34200, test_cls 1); (at_s 20000 34200, test_cls 2);
     (at_s 20000 52200, test_cls 4); (at_s 20000 52200, test_cls 5); (at_s 20000 54000, test_cls 6)].
Proof. vm_compute. reflexivity. Qed.

Definition draws (cfg : escfg) (n : nat) (es : esrc) : option (list (option (Z * ecls)) * option (Z * ecls)) :=
  match get_events 10 cfg (repeat 20000 n) es with
  | GOk (l, es') => match peek_next_event 10 cfg 20000 es' with GOk (p, _) => Some (l, p) | _ => None end
  | _ => None
  end.
(** lines 150-181: a start in the past (2023-06-04 is day 19512) *)
Example test_start_history :
  let es := ok_es (es_setup hist demo_now (es_new (Some (at_s 19512 36000)) None)) in
  parse_dt (lit "2023-06-04 10:00:00") = Ok (at_s 19512 36000) /\ es_start es = Some (at_s 19512 36000) /\ es_end es = None /\
  draws hist 3 (add_dailies [(lit "09:30:00", 1); (lit "10:00:00", 2)] es) =
    Some ([Some (at_s 19512 36000, test_cls 2); Some (at_s 19513 34200, test_cls 1); Some (at_s 19513 36000, test_cls 2)],
          Some (at_s 19514 34200, test_cls 1)).
Proof. vm_compute. repeat split. Qed.
(** lines 186-214: without ENABLE_HISTORY_START the source starts now *)
Example test_start_now :
  let cfg := ESCfg false 3 mp_default in
  let es := ok_es (es_setup cfg demo_now (es_new (Some (at_s 19512 36000)) None)) in
  es_start es = Some demo_now /\
  draws cfg 4 (add_dailies [(lit "09:39:30", 1); (lit "09:49:30", 2)] es) =
    Some ([Some (at_s 20000 34770, test_cls 1); Some (at_s 20000 35370, test_cls 2);
           Some (at_s 20001 34770, test_cls 1); Some (at_s 20001 35370, test_cls 2)], Some (at_s 20002 34770, test_cls 1)).
Proof. vm_compute. repeat split. Qed.
(** lines 220-257: with an end *)
Example test_end :
  let es := ok_es (es_setup hist demo_now (es_new (Some (at_s 19512 36000)) (Some (at_s 19513 36000)))) in
  es_start es = Some (at_s 19512 36000) /\ es_end es = Some (at_s 19513 36000) /\
  draws hist 5 (add_dailies [(lit "09:30:00", 1); (lit "10:00:00", 2); (lit "10:00:01", 3)] es) =
    Some ([Some (at_s 19512 36000, test_cls 2); Some (at_s 19512 36001, test_cls 3); Some (at_s 19513 34200, test_cls 1);
           Some (at_s 19513 36000, test_cls 2); None], None).
Proof. vm_compute. repeat split. Qed.

(** ** tests/account/test_order.py *)

(** lines 9-34: an order, what [json] says of it, and the order loaded from that (fractions
    of a second are not in the text, so the entrust time is a whole second here) *)
Definition test_ord : order :=
  Order (lit "000001.XSHE") (PNum (lit "11.11")) 1000 Open (lit "2333333") Scanceled (Limit (PNum (lit "11.11"))) (at_s 19668 47433)
    (Some (at_s 19668 47433)) Long None 800 200 88900000 (Some 11115) 0 [].
Example test_order_instance :
  parse_dt (lit "2023-11-07 13:10:33") = Ok (at_s 19668 47433) /\ load (json test_ord) = Ok test_ord.
Proof. split; vm_compute; reflexivity. Qed.
(** lines 37-41, 51-56, 59-64, 67-72, 75-80: is_valid_side is membership of the names, as is get_side *)
Example test_names :
  map get_status [lit "new"; lit "open"; lit "filling"; lit "filled"; lit "canceling"; lit "partly_canceled"; lit "canceled"; lit "rejected"] = map Ok all_status /\
  map get_side [lit "long"; lit "short"] = map Ok [Long; Short] /\ map get_action [lit "open"; lit "close"] = map Ok [Open; Close] /\
  get_status (lit "bad status") = Err ValueError /\ map get_side [lit "l"; lit "s"; lit "bad"; lit "bad side"] = repeat (Err ValueError) 4 /\
  map get_action [lit "o"; lit "bad"; lit "bad action"] = repeat (Err ValueError) 3.
Proof. repeat split; vm_compute; reflexivity. Qed.
(** lines 83-93 *)
Example test_get_style :
  get_style (lit "market") (PNum (lit "0")) = Ok (Market (PNum (lit "0"))) /\ get_style (lit "limit") (PNum (lit "10")) = Ok (Limit (PNum (lit "10"))) /\
  get_style (lit "bad style") (PNum (lit "10")) = Err ValueError.
Proof. repeat split; vm_compute; reflexivity. Qed.

(** ** tests/account/test_position.py; prices in hundredths *)
Example test_pos_instance :
  let p1 := Pos (lit "000001.XSHE") 1000 600 1111 Long None None in
  let p2 := Pos (lit "000002.XSHE") 2000 600 1112 Short (Some 1200) (Some 2400000) in
  (ps_code p1, ps_amount p1, ps_avail p1, pos_locked p1, ps_side p1, ps_value p1, ps_last p1, ps_avg p1) = (lit "000001.XSHE", 1000, 600, 400, Long, None, None, 1111) /\
  (ps_code p2, ps_amount p2, ps_avail p2, pos_locked p2, ps_side p2, ps_value p2, ps_last p2, ps_avg p2) =
    (lit "000002.XSHE", 2000, 600, 1400, Short, Some 2400000, Some 1200, 1112).
Proof. split; reflexivity. Qed.

(** ** tests/account/test_utils.py lines 22-49: the counter is the state; three attempts are the default *)
Definition test_func (n : Z) : res unit * Z := (Err ValueError, n + 1).
Example test_simple_retry :
  simple_retry None 3 (fun n => n) test_func 0 = (Err ValueError, 4) /\
  simple_retry (Some (fun e => match e with TypeError => true | _ => false end)) 3 (fun n => n) test_func 0 = (Err ValueError, 1) /\
  simple_retry (Some (fun e => match e with ValueError => true | _ => false end)) 3 (fun n => n) test_func 0 = (Err ValueError, 4).
Proof. repeat split; vm_compute; reflexivity. Qed.

(** ** tests/strategies/schedule.py, run by tests/test_strategies.py *)

Definition only_runs (l : list ucall) : Prop := Forall (fun c => match c with URun _ _ => True | _ => False end) l.
Lemma uexec_runs a sc st en l : forall s, only_runs l -> st_opts (uexec a sc st en l s) = st_opts s.
Proof.
  induction l as [|c l IH]; intros s H; [reflexivity|]. apply Forall_inv in H as Hc. apply Forall_inv_tail in H. destruct c as [f t| |]; try contradiction.
  cbn [uexec]. rewrite IH by exact H. cbn [ustep].
  assert (E : st_opts (snd (run_daily f t s)) = st_opts s).
  { unfold run_daily. repeat match goal with |- context [if ?x then _ else _] => destruct x end; try reflexivity; destruct (f_name f); reflexivity. }
  destruct (run_daily f t s) as [[u|x] s']; exact E.
Qed.
Lemma start_market fuel cfg sc tz st en now calls ns dates s4 s0 :
  only_runs calls -> start fuel cfg sc tz st en now calls ns dates = Some (s4, s0) -> market_period sc s4 = sc_mp sc.
Proof.
  intros Hr Hs. destruct (start_parts fuel cfg sc tz st en now calls ns dates s4 s0 Hs) as [_ E]. unfold setup in E.
  destruct (schedule_all_tasks _ _ _ _ _ _ _) as [s5|x|] eqn:Ea; [|discriminate E|discriminate E]. injection E as <-. revert Ea. unfold schedule_all_tasks. intro Ea.
  destruct (schedule_descs_frame _ _ _ _ _ _ _ _ _ Ea) as (_ & _ & F & _). unfold market_period. rewrite F.
  change (st_opts (set_allowed false ?s)) with (st_opts s). rewrite uexec_runs by exact Hr. reflexivity.
Qed.

(** lines 10-38, 41-71: function, time, and the times of day its calls check *)
Definition sched_times : list (str * Z) :=
  [(lit "08:00:00", 28800); (lit "09:00:00", 32400); (lit "open-1h", 30600); (lit "open-30m", 32400); (lit "open-30s", 34170); (lit "open", 34200);
   (lit "open+30s", 34230); (lit "open+30m", 36000); (lit "open+1h", 37800); (lit "11:00:00", 39600); (lit "12:00:00", 43200); (lit "13:00:00", 46800);
   (lit "14:00:00", 50400); (lit "15:00:00", 54000); (lit "close-1h", 50400); (lit "close-30m", 52200); (lit "close-30s", 53970); (lit "close", 54000);
   (lit "close+30s", 54030); (lit "close+30m", 55800); (lit "close+1h", 57600)].
Definition sched_name (k : nat) : str := lit "func_" ++ [N.of_nat (97 + k)].
Definition sched_calls : list ucall :=
  map (fun p => URun (Fn (fst p) (Some (sched_name (fst p))) true) (fst (snd p))) (List.combine (seq 0 21) sched_times) ++
  [URun (Fn 21 (Some (sched_name 21)) true) (lit "every_minute")].


Ltac owed_clock h m s := apply owes_clock;
  apply (clock_hms (lit h) (lit m) (lit s)); [split; [right; reflexivity|repeat constructor]|split; [right; reflexivity|repeat constructor]|
    split; [right; reflexivity|repeat constructor]|reflexivity|reflexivity|reflexivity].
Ltac owed_off b v p ds u := apply owes_rel;
  apply (dd_off (opening demo_ps) (closing demo_ps) (lit b) v [Group (lit ds) u] p);
    [constructor|split; [cbn; lia|repeat constructor; first [left; reflexivity|right; reflexivity|discriminate]]|repeat constructor; intros []].

Lemma sched_owed : Forall (fun p => owes demo_ps (fst p) [snd p * US]) sched_times.
Proof.
  unfold sched_times. repeat apply Forall_cons; [..|apply Forall_nil]; cbn [fst snd].
  - owed_clock "08"%string "00"%string "00"%string.
  - owed_clock "09"%string "00"%string "00"%string.
  - owed_off "open"%string (34200 * US) false "1"%string 104%N.
  - owed_off "open"%string (34200 * US) false "30"%string 109%N.
  - owed_off "open"%string (34200 * US) false "30"%string 115%N.
  - apply owes_rel. apply dd_base. constructor.
  - owed_off "open"%string (34200 * US) true "30"%string 115%N.
  - owed_off "open"%string (34200 * US) true "30"%string 109%N.
  - owed_off "open"%string (34200 * US) true "1"%string 104%N.
  - owed_clock "11"%string "00"%string "00"%string.
  - owed_clock "12"%string "00"%string "00"%string.
  - owed_clock "13"%string "00"%string "00"%string.
  - owed_clock "14"%string "00"%string "00"%string.
  - owed_clock "15"%string "00"%string "00"%string.
  - owed_off "close"%string (54000 * US) false "1"%string 104%N.
  - owed_off "close"%string (54000 * US) false "30"%string 109%N.
  - owed_off "close"%string (54000 * US) false "30"%string 115%N.
  - apply owes_rel. apply dd_base. constructor.
  - owed_off "close"%string (54000 * US) true "30"%string 115%N.
  - owed_off "close"%string (54000 * US) true "30"%string 109%N.
  - owed_off "close"%string (54000 * US) true "1"%string 104%N.
Qed.

Lemma owed_at a en cnt offs S : owed_until a en cnt offs S -> forall t, In t S -> exists d o, In o offs /\ t = d * DAY + o.
Proof.
  intros (S0 & (days & ls & _ & F & ->) & ->) t Hin. apply filter_In in Hin as [Hin _]. apply in_concat in Hin as (l & Hl & Ht).
  clear - F Hl Ht. induction F as [|d l' days ls [P _] _ IH]; [contradiction|]. destruct Hl as [->|Hl]; [|exact (IH Hl)].
  apply (Permutation_in _ P) in Ht. apply filter_In in Ht as [Ht _]. apply in_map_iff in Ht as (o & <- & Ho). exists d, o. auto.
Qed.

(** Whatever the clock does, when the run is over each function has been called on each of
    the 31 days at its time, and the last one 242 times a day: the assertions of the
    strategy (lines 74-181, 184-192). *)
Theorem C125_schedule :
  forall fuel tz now ns dates s4 s0 s ls,
    (1441 <= fuel)%nat ->
    start fuel (hist_cfg 365) scfg_default tz (19631 * DAY) (Some (19662 * DAY)) now sched_calls ns dates = Some (s4, s0) ->
    List.length dates = List.length (st_srcs s4) -> Forall ok_label ls -> Forall untold ls ->
    l_exec (sched_handler fuel (loop_cfg (hist_cfg 365) scfg_default s4) tz) s0 ls = Some s ->
    ended s -> l_raised s = [] ->
    (forall k t sec, nth_error sched_times k = Some (t, sec) ->
       List.length (calls_of k (invoked s4 (l_w s))) = 31%nat /\ Forall (fun c => fst c mod DAY = sec * US) (calls_of k (invoked s4 (l_w s)))) /\
    Z.of_nat (List.length (calls_of 21 (invoked s4 (l_w s)))) = 242 * 31.
Proof.
  intros fuel tz now ns dates s4 s0 s ls Hf Hs Hl Hok Hun Hx He Hr.
  assert (Hmp : market_period scfg_default s4 = raw_of demo_ps).
  { refine (start_market _ _ _ _ _ _ _ _ _ _ _ _ _ Hs). unfold only_runs. repeat constructor. }
  assert (Hps : Forall (fun p => tod_ok (fst p) /\ tod_ok (snd p)) demo_ps) by (repeat constructor; discriminate).
  assert (Hw : Forall (fun p => fst p mod US = 0) demo_ps) by (repeat constructor).
  assert (A : forall k n id t offs, nth_error (asked sched_calls) k = Some (n, id, t) -> owes demo_ps t offs ->
    owed_until (19631 * DAY) (Some (19662 * DAY)) 365 offs (map fst (calls_of k (invoked s4 (l_w s))))).
  { intros k n id t offs Hk Ho. destruct (owed_until_exists (19631 * DAY) (Some (19662 * DAY)) 365 offs) as [S HS].
    rewrite (C125_all fuel (hist_cfg 365) scfg_default tz (19631 * DAY) (Some (19662 * DAY)) now sched_calls ns dates s4 s0 s ls demo_ps Hs Hl Hok Hun Hx He Hr
      (or_introl eq_refl) Hmp Hps Hw ltac:(discriminate) Hf ltac:(intros a [<-|[]]; change (dt_date (19662 * DAY) - dt_date (19631 * DAY) + 1) with 32; lia) k n id t offs (19631 * DAY) S Hk Ho eq_refl HS). exact HS. }
  assert (N : forall k t sec, nth_error sched_times k = Some (t, sec) -> nth_error (asked sched_calls) k = Some (sched_name k, k, t) /\ 0 < sec * US < DAY).
  { intros k t sec Hk. do 21 (destruct k as [|k]; [injection Hk as <- <-; split; [reflexivity|split; reflexivity]|]). destruct k; discriminate Hk. }
  split.
  - intros k t sec Hk. destruct (N k t sec Hk) as [Hn Hb]. pose proof sched_owed as Ho. rewrite Forall_forall in Ho. specialize (Ho _ (nth_error_In _ _ Hk)). cbn [fst snd] in Ho.
    specialize (A k _ _ _ _ Hn Ho). split.
    + pose proof (C125_count 19631 19662 365 [sec * US] _ ltac:(lia) (Forall_cons _ Hb (Forall_nil _)) A) as C. rewrite map_length in C. cbn [List.length] in C. lia.
    + apply Forall_forall. intros c Hc. destruct (owed_at _ _ _ _ _ A (fst c) (in_map fst _ _ Hc)) as (d & o & [<-|[]] & ->).
      rewrite Z.add_comm, Z_mod_plus_full. apply Z.mod_small. lia.
  - pose proof (A 21%nat (sched_name 21) 21%nat (lit "every_minute") demo_minutes eq_refl demo_minutes_owed) as B.
    assert (M : Forall (fun o => 0 < o < DAY) demo_minutes).
    { apply Forall_app. split; apply Forall_forall; intros o Ho; unfold minutes in Ho; apply in_map_iff in Ho as (i & <- & Hi); apply in_seq in Hi; unfold MINUTE, US, DAY; lia. }
    pose proof (C125_count 19631 19662 365 demo_minutes _ ltac:(lia) M B) as C. rewrite map_length in C. rewrite C. vm_compute. reflexivity.
Qed.
Print Assumptions C125_schedule.
