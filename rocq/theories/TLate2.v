(** C95 beyond the days generated at start-up. *)
From Coq Require Import Permutation Sorted String.
From Verif Require Import PyBase PyStr MTime MTimeExpr LTimeExpr MEventSource MQueue MLoop MSched MBus MStrategy SEvent SExpr SStrategy
  LEventSource2 MProcess SProcess LProcess SLong LLong2 SLate TProcess TLong TLate.
Open Scope list_scope.
Open Scope Z_scope.

(** The statement of [C95_tasks_partial] without a limit on how long the process runs, for
    callbacks that end on the day they were due. *)
Definition never_behind_for_years : Prop :=
  forall fuel cfg sc tz st now calls ns dates s4 s0 s ls ps,
    start fuel cfg sc tz st None now calls ns dates = Some (s4, s0) -> List.length dates = List.length (st_srcs s4) ->
    l_exec (sched_handler fuel (loop_cfg cfg sc s4) tz) s0 ls = Some s ->
    cf_hist cfg = false ->
    market_period sc s4 = raw_of ps -> Forall (fun p => tod_ok (fst p) /\ tod_ok (snd p)) ps ->
    Forall (fun p => fst p mod US = 0 /\ snd p mod US = 0) ps -> ps <> [] ->
    (1441 <= fuel)%nat -> (Z.to_nat (cf_count cfg) < fuel)%nat -> tz mod US = 0 -> 2 <= cf_count cfg ->
    List.length (st_srcs s4) = List.length (asked calls) ->
    same_day (sched_handler fuel (loop_cfg cfg sc s4) tz) tz s0 ls -> w_hung (l_w s) = false ->
    forall w lat due e tasks,
      timely (sched_handler fuel (loop_cfg cfg sc s4) tz) w lat due e s0 ls ->
      List.length tasks = List.length (asked calls) ->
      (forall m c T, m_cb m <> COther -> nth_error tasks (source m) = Some (c, T) -> w m <= c) ->
      (forall k n id t c T, nth_error (asked calls) k = Some (n, id, t) -> nth_error tasks k = Some (c, T) ->
         0 <= c /\ 0 < T /\
         exists offs d, owes ps t offs /\ nth_error dates k = Some d /\ apart T offs /\ Forall tod_ok offs /\ offs <> [] /\ dt_date (now k) <= d) ->
      fits tasks ->
      forall m t, In (m, t) (l_log s) -> t <= m_time m + lat + one_each tasks.

(** f every minute, with market hours from 9:30 to 9:31 and no account, woken on time each
    day of the first year; the calls take no time.  After the last call of the last day the
    calls of that day come again: that of 9:30 starts at 9:31. *)
Definition hours : list (Z * Z) := [(34200 * US, 34260 * US)].
Definition again_calls : list ucall :=
  [UOpt (SOpts (Some (raw_of hours)) (Some false) true None None None None) (SEnv (Ok tt) (Ok tt) (Ok tt) 0);
   URun (Fn 1 (Some (lit "f")) true) (lit "every_minute")].
Definition again_call (i sec : Z) : list (label scb sout) :=
  [LTurn (demo_ms (i * 86400 + sec)) false; LDone (SOut (20000 + i) (20000 + i) [] None); LTurn (demo_ms (i * 86400 + sec)) false; LArm; LTimer].
Definition again_day (i : nat) : list (label scb sout) := again_call (Z.of_nat i) 34200 ++ again_call (Z.of_nat i) 34260.
Definition again_labels : list (label scb sout) :=
  LAsync :: flat_map again_day (seq 0 364) ++ firstn 8 (again_day 364).
Notation again_start := (start 1500 cfg_default scfg_default demo_tz 0 None (fun _ => demo_now) again_calls demo_ns [20000]).
Definition again_facts (x : option (strat * lstate scb sworld)) :=
  match x with
  | Some (s4, s0) =>
      let h := sched_handler 1500 (loop_cfg cfg_default scfg_default s4) demo_tz in
      match l_exec h s0 again_labels with
      | Some s => Some ((List.length (st_srcs s4), market_period scfg_default s4),
                        (same_day_b demo_tz h s0 again_labels, w_hung (l_w s),
                         in_time_b h (fun _ => 0) 0 (demo_ms 34200) s0 again_labels, first_b (demo_ms 34200) 0 s0),
                        (List.length (l_log s), map (fun y => (m_time (fst y), snd y)) (skipn 729 (l_log s))))
      | None => None
      end
  | None => None
  end.
Example C95_again : again_facts again_start =
  Some ((1%nat, raw_of hours), (true, false, true, true),
        (731%nat, [(demo_ms (364 * 86400 + 34260), demo_ms (364 * 86400 + 34260)); (demo_ms (364 * 86400 + 34200), demo_ms (364 * 86400 + 34260))])).
Proof. vm_compute. reflexivity. Qed.

Lemma again_state : exists s4 s0 s m,
  again_start = Some (s4, s0) /\ l_exec (sched_handler 1500 (loop_cfg cfg_default scfg_default s4) demo_tz) s0 again_labels = Some s /\
  List.length (st_srcs s4) = 1%nat /\ market_period scfg_default s4 = raw_of hours /\
  same_day (sched_handler 1500 (loop_cfg cfg_default scfg_default s4) demo_tz) demo_tz s0 again_labels /\ w_hung (l_w s) = false /\
  in_time (sched_handler 1500 (loop_cfg cfg_default scfg_default s4) demo_tz) (fun _ => 0) 0 (demo_ms 34200) s0 again_labels /\
  (forall x, In x (queued s0) -> demo_ms 34200 <= m_time x + 0) /\
  m_time m = demo_ms (364 * 86400 + 34200) /\ In (m, demo_ms (364 * 86400 + 34260)) (l_log s).
Proof.
  pose proof C95_again as H. revert H. generalize again_start as x. intros [[s4 s0]|]; unfold again_facts; [|discriminate]. cbv zeta.
  generalize again_labels as ls. intros ls. destruct (l_exec _ s0 ls) as [s|] eqn:Ex; [|discriminate].
  assert (G : forall A B C D E F A' B' (a a' : A) (b b' : B) (c c' : C) (e e' : D) (f f' : E) (g g' : F) (i i' : A') (j j' : B'),
    Some ((a, b), (c, e, f, g), (i, j)) = Some ((a', b'), (c', e', f', g'), (i', j')) -> a = a' /\ b = b' /\ c = c' /\ e = e' /\ f = f' /\ g = g' /\ j = j')
    by (intros * E'; injection E'; auto 10).
  intros H. apply G in H as (H1 & H2 & H3 & H4 & H5 & H6 & H7).
  destruct (skipn 729 (l_log s)) as [|y0 [|[m t] [|y2 r]]] eqn:Es; try discriminate H7. cbn [map fst snd] in H7.
  assert (Hm : m_time m = demo_ms (364 * 86400 + 34200) /\ t = demo_ms (364 * 86400 + 34260)).
  { assert (G1 : forall (a b a' b' : Z * Z), [a; b] = [a'; b'] -> b = b') by (intros * E'; injection E'; auto).
    assert (G2 : forall a b a' b' : Z, (a, b) = (a', b') -> a = a' /\ b = b') by (intros * E'; injection E'; auto).
    apply G2, (G1 _ _ _ _ H7). }
  destruct Hm as [Hm ->]. exists s4, s0, s, m.
  repeat (split; [first [assumption|reflexivity|apply same_day_b_ok; assumption|apply in_time_b_ok; assumption|apply first_b_ok; assumption]|]).
  rewrite <- (firstn_skipn 729 (l_log s)), Es. apply in_or_app. right. right. left. reflexivity.
Qed.

Lemma again_owes : owes hours (lit "every_minute") (minutes (34200 * US) 2).
Proof.
  replace (minutes (34200 * US) 2) with (concat [minutes (34200 * US) 2]) by reflexivity.
  apply owes_minutes. constructor; [|constructor]. apply minutes_steps. reflexivity.
Qed.

Lemma again_calls_ok (P : label scb sout -> Prop) :
  (forall i sec, In sec [34200; 34260] -> 0 <= i <= 364 -> Forall P (again_call i sec)) -> P LAsync -> Forall P again_labels.
Proof.
  intros H H0. constructor; [exact H0|]. apply Forall_app.
  assert (G : forall i, (i <= 364)%nat -> Forall P (again_day i)).
  { intros i Hi. apply Forall_app. split; apply H; try lia; [left|right; left]; reflexivity. }
  split.
  - apply Forall_forall. intros l Hl. apply in_flat_map in Hl as (i & Hi & Hl). apply in_seq in Hi.
    pose proof (G i ltac:(lia)) as Hf. rewrite Forall_forall in Hf. exact (Hf l Hl).
  - pose proof (G 364%nat ltac:(lia)) as Hf. rewrite Forall_forall in Hf. apply Forall_forall. intros l Hl. apply Hf.
    rewrite <- (firstn_skipn 8 (again_day 364)). apply in_or_app. left. exact Hl.
Qed.

Theorem C95_again_refuted : ~ never_behind_for_years.
Proof.
  intros H. destruct again_state as (s4 & s0 & s & m & E1 & E2 & H1 & H2 & H3 & H4 & H5 & H6 & H7 & H8).
  assert (Hx : demo_ms (364 * 86400 + 34260) <= m_time m + 0 + one_each [(0, 60000)]).
  { eapply (H 1500%nat cfg_default scfg_default demo_tz 0 (fun _ => demo_now) again_calls demo_ns [20000] s4 s0 s again_labels hours) with
      (w := fun _ => 0) (lat := 0) (due := demo_ms 34200) (e := demo_ms (365 * 86400)) (tasks := [(0, 60000)]); try assumption; try reflexivity.
    - rewrite H1. reflexivity.
    - unfold hours. repeat constructor; vm_compute; discriminate.
    - unfold hours. repeat constructor.
    - discriminate.
    - apply Nat.leb_le. vm_compute. reflexivity.
    - apply Nat.leb_le. vm_compute. reflexivity.
    - vm_compute. discriminate.
    - constructor; [| |exact H5|exact H6|]; apply again_calls_ok; try exact I; intros i sec Hs Hi; unfold again_call; repeat constructor;
        unfold until, demo_ms; destruct Hs as [<-|[<-|[]]]; lia.
    - intros m' c T _. destruct (source m') as [|[|i]]; cbn [nth_error]; [|discriminate|discriminate]. intros E; injection E as <- <-. lia.
    - intros k n id t c T Hk Ht. destruct k as [|k]; [|destruct k; discriminate Hk]. cbn in Hk, Ht. injection Hk as <- <- <-. injection Ht as <- <-.
      split; [lia|]. split; [lia|]. exists (minutes (34200 * US) 2), 20000. split; [exact again_owes|]. split; [reflexivity|].
      assert (Hw : Forall (fun o => o mod MINUTE = 0 /\ tod_ok o) (minutes (34200 * US) 2)) by (repeat constructor; vm_compute; congruence).
      split; [apply minutes_apart; [repeat constructor; [intros [E|[]]; discriminate E|intros []]|exact Hw]|].
      split; [eapply Forall_impl; [|exact Hw]; intros o [_ Ho]; exact Ho|]. split; [discriminate|]. vm_compute. discriminate.
    - intros L HL. cbn [demand fold_right fst snd]. lia. }
  rewrite H7 in Hx. vm_compute in Hx. apply Hx. reflexivity.
Qed.
Print Assumptions C95_again_refuted.
