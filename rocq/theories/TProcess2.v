(** C62: account syncs in a task process. *)
From Coq Require Import Permutation Sorted String.
From Verif Require Import PyBase PyStr MTime MTimeExpr MEventSource MQueue MLoop MSched MBus MStrategy SEvent SExpr SStrategy
  LEventSource2 LStrategy2 MProcess SProcess LProcess LProcess2.
Open Scope list_scope.
Open Scope Z_scope.

(** A process whose process_initialize makes one set_options call, which succeeds with
    use_account, options [o], sync interval [step] and sync periods [qs] (if any); it may
    call run_daily and rebind names before and after. *)
Record synced fuel cfg sc tz st now pre ko e0 post ns dates s4 s o step qs offs d S : Prop := {
  sy_run : runs fuel cfg sc tz st None now (pre ++ UOpt ko e0 :: post) ns dates s4 s;
  sy_live : cf_hist cfg = false;
  sy_pre : Forall not_opt pre;
  sy_post : Forall not_opt post;
  sy_use : use_in_force sc ko = true;
  sy_ok : fst (set_options fuel sc st None ko e0 (uexec fuel sc st None pre (set_allowed true (make_apis sc (strat_new ns))))) = GOk tt;
  sy_cbs : sync_cbs sc ko 0 <> [];
  sy_parse : parse_opts ko = Ok o;
  sy_int : interval_in_force sc o = Ok step;
  sy_step : 0 < step;
  sy_f0 : DAY / step + 1 < Z.of_nat fuel;
  sy_per : period_in_force sc o = raw_of qs;
  sy_qs : Forall (fun p => tod_ok (fst p) /\ tod_ok (snd p)) qs;
  sy_offs : sync_owes step qs (e_now e0) offs;
  sy_date : nth_error dates 0 = Some d;
  sy_owed : owed_on st offs d (d + cf_count cfg - 1) S;
  sy_f1 : (1441 <= fuel)%nat;
  sy_f2 : (Z.to_nat (cf_count cfg) < fuel)%nat
}.

(** The account calls made so far are, for each of the instants owed to the sync timer in
    order (a beginning of these, or all and then later ones), the balance sync and then
    the order sync, as far as enabled. *)
Theorem C62_syncs_are_owed :
  forall fuel cfg sc tz st now pre ko e0 post ns dates s4 s o step qs offs d S,
    synced fuel cfg sc tz st now pre ko e0 post ns dates s4 s o step qs offs d S ->
    exists em, agree em S /\
      syncs_of (invoked s4 (l_w s)) = flat_map (fun x => map (fun c => (x, c)) (sync_cbs sc ko 0)) em.
Proof.
  intros fuel cfg sc tz st now pre ko e0 post ns dates s4 s o step qs offs d S [].
  destruct (sync_calls_owed fuel cfg sc tz st now pre post ko e0 ns dates s4 s qs o step d offs S tt) as (em & E & Ha); try assumption.
  exists em. auto.
Qed.
Print Assumptions C62_syncs_are_owed.

(** Once a task's function has been called for instant [x], the syncs owed up to and
    including [x] have been made. *)
Theorem C62_sync_before_tasks :
  forall fuel cfg sc tz st now pre ko e0 post ns dates s4 s o step qs offs d S ps,
    synced fuel cfg sc tz st now pre ko e0 post ns dates s4 s o step qs offs d S ->
    tz mod US = 0 -> market_period sc s4 = raw_of ps -> Forall (fun p => tod_ok (fst p) /\ tod_ok (snd p)) ps ->
    Forall (fun p => fst p mod US = 0 /\ snd p mod US = 0) ps -> ps <> [] ->
    forall j nj idj tj oj x,
      w_hung (l_w s) = false -> nth_error (asked (pre ++ UOpt ko e0 :: post)) j = Some (nj, idj, tj) -> owes ps tj oj ->
      In x (map fst (calls_of j (invoked s4 (l_w s)))) ->
      exists r, syncs_of (invoked s4 (l_w s)) =
        flat_map (fun y => map (fun c => (y, c)) (sync_cbs sc ko 0)) (filter (fun y => y <=? x) S ++ r).
Proof.
  intros fuel cfg sc tz st now pre ko e0 post ns dates s4 s o step qs offs d S ps [] Htz Hmp Hps Hw Hne j nj idj tj oj x Hh Hj Ho Hx.
  exact (sync_first fuel cfg sc tz st now pre post ko e0 ns dates s4 s ps qs o step d offs S tt sy_run0 sy_live0 sy_pre0 sy_post0 sy_use0 sy_ok0
    sy_cbs0 sy_parse0 sy_int0 sy_step0 sy_f3 sy_per0 sy_qs0 sy_offs0 sy_date0 sy_owed0 sy_f4 sy_f5 Htz Hmp Hps Hw Hne j nj idj tj oj x Hh Hj Ho Hx).
Qed.
Print Assumptions C62_sync_before_tasks.

(** When the loop goes to sleep at clock reading [clock], no owed sync is left. *)
Theorem C62_no_due_sync_left :
  forall fuel cfg sc tz st now pre ko e0 post ns dates s4 s o step qs offs d S,
    synced fuel cfg sc tz st now pre ko e0 post ns dates s4 s o step qs offs d S -> tz mod US = 0 ->
    forall clock ex s' m,
      w_hung (l_w s) = false -> l_step (sched_handler fuel (loop_cfg cfg sc s4) tz) s (LTurn clock ex) = Some s' -> l_mode s' = Arming m ->
      exists r, syncs_of (invoked s4 (l_w s)) =
        flat_map (fun y => map (fun c => (y, c)) (sync_cbs sc ko 0)) (filter (fun y => y - tz <=? clock * 1000) S ++ r).
Proof.
  intros fuel cfg sc tz st now pre ko e0 post ns dates s4 s o step qs offs d S [] Htz clock ex s' m Hh Hs Hm.
  exact (sync_sleep fuel cfg sc tz st now pre post ko e0 ns dates s4 s qs o step d offs S tt sy_run0 sy_live0 sy_pre0 sy_post0 sy_use0 sy_ok0
    sy_cbs0 sy_parse0 sy_int0 sy_step0 sy_f3 sy_per0 sy_qs0 sy_offs0 sy_date0 sy_owed0 sy_f4 sy_f5 Htz clock ex s' m Hh Hs Hm).
Qed.
Print Assumptions C62_no_due_sync_left.

(** ** a process with syncs each minute from 9:30 to 9:32, one task at every_minute and one
    at 9:31, started at 9:29:30 *)
Definition sd_period : list (Z * Z) := [(34200 * US, 34320 * US)].
Definition sd_opts : sopts := SOpts None None true None None (Some (Ok (60 * US))) (Some (raw_of sd_period)).
Definition sd_now : Z := 20000 * DAY + 34170 * US.
Definition sd_env : senv := SEnv (Ok tt) (Ok tt) (Ok tt) sd_now.
Definition sd_pre : list ucall := [URun (Fn 1 (Some (lit "f")) true) (lit "every_minute")].
Definition sd_post : list ucall := [URun (Fn 2 (Some (lit "g")) true) (lit "9:31")].
Definition sd_ns : dict str obj := [(lit "f", OUser 1); (lit "g", OUser 2)].
Definition sd_tz : Z := 28800 * US.
Definition sd_ms (sec : Z) : Z := (20000 * 86400 + sec - 28800) * 1000.
Definition sd_done : label scb sout := LDone (SOut 20000 20000 [] None).
Definition sd_labels : list (label scb sout) :=
  [LAsync; LTurn (sd_ms 34260) false; sd_done; LTurn (sd_ms 34260) false; sd_done; LTurn (sd_ms 34260) false; sd_done;
   LTurn (sd_ms 34260) false; sd_done; LTurn (sd_ms 34260) false; sd_done].
Notation sd_start := (start 1500 cfg_default scfg_default sd_tz sd_now None (fun _ => sd_now) (sd_pre ++ UOpt sd_opts sd_env :: sd_post) sd_ns [20000; 20000; 20000]).
Definition sd_state : option (strat * lstate scb sworld) :=
  match sd_start with
  | Some (s4, s0) => option_map (fun s => (s4, s)) (l_exec (sched_handler 1500 (loop_cfg cfg_default scfg_default s4) sd_tz) s0 sd_labels)
  | None => None
  end.
(** the calls made when the clock is at 9:31, in order *)
Example C62_demo :
  option_map (fun x => let '(s4, s) := x in (List.length (st_srcs s4), invoked s4 (l_w s), w_hung (l_w s))) sd_state =
  let a := 20000 * DAY + 34200 * US in let b := 20000 * DAY + 34260 * US in
  Some (3%nat, [(a, CbBal 0); (a, CbOrd 0); (a, CbUser 0 (Some (OUser 1)));
          (b, CbBal 0); (b, CbOrd 0); (b, CbUser 0 (Some (OUser 1))); (b, CbUser 1 (Some (OUser 2)))], false).
Proof. vm_compute. reflexivity. Qed.

Example C62_demo_synced : exists s4 s S, sd_state = Some (s4, s) /\
  synced 1500 cfg_default scfg_default sd_tz sd_now (fun _ => sd_now) sd_pre sd_opts sd_env sd_post sd_ns [20000; 20000; 20000] s4 s
    sd_opts (60 * US) sd_period [34200 * US; 34260 * US; 34320 * US] 20000 S.
Proof.
  assert (G : forall st : option (strat * lstate scb sworld), st = sd_start ->
    match st with Some (s4, s0) => option_map (fun s => (s4, s)) (l_exec (sched_handler 1500 (loop_cfg cfg_default scfg_default s4) sd_tz) s0 sd_labels) | None => None end = sd_state).
  { intros st ->. unfold sd_state. reflexivity. }
  assert (G0 : option_map (fun x => List.length (st_srcs (fst x))) sd_state = Some 3%nat) by (vm_compute; reflexivity).
  assert (Gok : fst (set_options 1500 scfg_default sd_now None sd_opts sd_env (uexec 1500 scfg_default sd_now None sd_pre (set_allowed true (make_apis scfg_default (strat_new sd_ns))))) = GOk tt) by (vm_compute; reflexivity).
  remember sd_start as st eqn:E0. specialize (G st eq_refl). rewrite <- G in G0. revert G G0. generalize sd_state. intros ds G G0.
  destruct st as [[s4 s0]|]; [|discriminate G0].
  destruct (l_exec (sched_handler 1500 (loop_cfg cfg_default scfg_default s4) sd_tz) s0 sd_labels) as [s|] eqn:E1; [|discriminate G0].
  cbn [option_map fst] in G, G0. destruct (owed_exists sd_now [34200 * US; 34260 * US; 34320 * US] 20000 (cf_count cfg_default)) as (S & HS).
  exists s4, s, S. split; [symmetry; exact G|].
  assert (Hr : runs 1500 cfg_default scfg_default sd_tz sd_now None (fun _ => sd_now) (sd_pre ++ UOpt sd_opts sd_env :: sd_post) sd_ns [20000; 20000; 20000] s4 s).
  { exists s0, sd_labels. split; [symmetry; exact E0|]. split; [injection G0 as ->; reflexivity|]. split; [repeat constructor|exact E1]. }
  clear E0 E1 G G0 s0. constructor; try reflexivity; try assumption.
  - repeat constructor.
  - repeat constructor.
  - discriminate.
  - unfold sd_period. repeat constructor; vm_compute; discriminate.
  - change [34200 * US; 34260 * US; 34320 * US] with (map whole (concat [[34200 * US; 34260 * US; 34320 * US]])). apply sync_periods. constructor; [|constructor].
    cbn [fst snd]. split; [repeat constructor|]. intros t. split.
    + intros [<-|[<-|[<-|[]]]]; [exists 0|exists 1|exists 2]; unfold US; lia.
    + intros (k & Hk & -> & Hle). unfold US in *. assert (k = 0 \/ k = 1 \/ k = 2) as [->|[->| ->]] by lia; cbn; auto.
  - apply Nat.leb_le. vm_compute. reflexivity.
  - apply Nat.leb_le. vm_compute. reflexivity.
Qed.
