(** C95: how late scheduled callbacks start. *)
From Coq Require Import Permutation Sorted String.
From Verif Require Import PyBase PyStr MTime MTimeExpr MEventSource MQueue MLoop MSched MBus MStrategy LLoop SEvent SExpr SStrategy LStrategy2
  LEventSource2 MProcess SProcess LProcess LProcess2 SLate LLate LLate2 LLate3 TProcess TProcess2.
Open Scope list_scope.
Open Scope Z_scope.

(** ** the loop, whatever runs on it *)

(** If the loop is woken at most [lat] late, the callback of message [m] takes at most [w m]
    and no other thread pushes messages, then every callback starts, at the latest, [lat] and
    the work of the callbacks in between after the time of some callback not after it. *)
Theorem C118_waits :
  forall C W O (h : handler C W O) (w : msg C -> Z) lat due w0 s0 s ls,
    reachable h w0 s0 -> l_mode s0 = Idle -> l_log s0 = [] ->
    (forall m, In m (queued s0) -> due <= m_time m + lat) ->
    Forall no_push ls -> in_time h w lat due s0 ls -> l_exec h s0 ls = Some s ->
    waits w lat (l_log s).
Proof.
  intros C W O h w lat due w0 s0 s ls Hr Hm Hl Hd Hp Ht Hx. eapply (late_waits h w lat due s0); try eassumption.
  - eapply inv_reachable; exact Hr.
  - rewrite Hm. discriminate.
  - unfold held, in_hand. rewrite Hm. exact Hd.
Qed.
Print Assumptions C118_waits.

(** Kinds of callbacks that cost [c] each time and come [T] apart: if the work fits, no
    callback starts later than [lat] and one round of every kind after its time. *)
Theorem C95_bounded_partial :
  forall C (w : msg C -> Z) (kind : msg C -> nat) lat tasks log,
    waits w lat log -> StronglySorted (fun x y => m_time (fst x) <= m_time (fst y)) log ->
    (forall x, In x log -> exists c T, nth_error tasks (kind (fst x)) = Some (c, T) /\ w (fst x) <= c) ->
    (forall k c T, nth_error tasks k = Some (c, T) -> 0 <= c /\ 0 < T /\ spaced T (of_kind kind k log)) ->
    fits tasks -> forall m t, In (m, t) log -> t <= m_time m + lat + one_each tasks.
Proof. intros C w kind. exact (waits_bound w kind). Qed.
Print Assumptions C95_bounded_partial.

(** The work fits if it fits into a common period of the tasks. *)
Theorem C118_fits :
  forall tasks P, 0 < P -> Forall (fun p => 0 <= fst p /\ 0 < snd p /\ (snd p | P)) tasks -> demand tasks P <= P -> fits tasks.
Proof. exact fits_period. Qed.
Print Assumptions C118_fits.

(** ** task processes *)

(** the execution [ls] from [s0]: woken in time, callbacks done in time, nobody else pushes
    messages, the clock stays before [e] *)
Record timely (h : handler scb sworld sout) (w : msg scb -> Z) (lat due e : Z) (s0 : lstate scb sworld) (ls : list (label scb sout)) : Prop := {
  tm_push : Forall no_push ls;
  tm_defer : Forall no_defer ls;
  tm_time : in_time h w lat due s0 ls;
  tm_first : forall m, In m (queued s0) -> due <= m_time m + lat;
  tm_until : Forall (until e) ls
}.

(** the k-th run_daily entry: owed at [offs], at least [T] apart, generated from day [d] on *)
Definition entry_apart (cfg : escfg) (tz : Z) (now : nat -> Z) (ps : list (Z * Z)) (e T : Z) (k : nat) (t : str) (date : option Z) : Prop :=
  exists offs d, owes ps t offs /\ date = Some d /\ apart T offs /\ Forall tod_ok offs /\ offs <> [] /\ dt_date (now k) <= d /\
    e * 1000 + tz <= (d + cf_count cfg - 1) * DAY.

(** Processes without an account, in the first [cf_count - 1] days: if the work fits, every
    call starts at most [lat] and one round of all tasks after its time. *)
Theorem C95_tasks_partial :
  forall fuel cfg sc tz st now calls ns dates s4 s0 s ls ps,
    start fuel cfg sc tz st None now calls ns dates = Some (s4, s0) -> List.length dates = List.length (st_srcs s4) ->
    l_exec (sched_handler fuel (loop_cfg cfg sc s4) tz) s0 ls = Some s ->
    cf_hist cfg = false ->
    market_period sc s4 = raw_of ps -> Forall (fun p => tod_ok (fst p) /\ tod_ok (snd p)) ps ->
    Forall (fun p => fst p mod US = 0 /\ snd p mod US = 0) ps -> ps <> [] ->
    (1441 <= fuel)%nat -> (Z.to_nat (cf_count cfg) < fuel)%nat -> tz mod US = 0 -> 2 <= cf_count cfg ->
    List.length (st_srcs s4) = List.length (asked calls) ->
    forall w lat due e tasks,
      timely (sched_handler fuel (loop_cfg cfg sc s4) tz) w lat due e s0 ls ->
      List.length tasks = List.length (asked calls) ->
      (forall m c T, m_cb m <> COther -> nth_error tasks (source m) = Some (c, T) -> w m <= c) ->
      (forall k n id t c T, nth_error (asked calls) k = Some (n, id, t) -> nth_error tasks k = Some (c, T) ->
         0 <= c /\ 0 < T /\ entry_apart cfg tz now ps e T k t (nth_error dates k)) ->
      fits tasks ->
      forall m t, In (m, t) (l_log s) -> t <= m_time m + lat + one_each tasks.
Proof.
  intros fuel cfg sc tz st now calls ns dates s4 s0 s ls ps H1 H2 H3 H4 H5 H6 H7 H8 H9 H10 H11 H12 H13 w lat due e tasks [T1 T2 T3 T4 T5] H14 H15 H16 H17.
  assert (Hn : npre calls s4 = 0%nat) by (unfold npre; lia).
  eapply (process_late fuel cfg sc tz st now calls ns dates s4 s0 s ls ps H1 H2 H3 H4 H5 H6 H7 H8 H9 H10 H11 H12 T1 T2 w lat due e tasks T3 T4 T5 H15 H17); [lia| |].
  - rewrite Hn. cbn [plus]. intros k n id t c T Hk Ht. destruct (H16 k n id t c T Hk Ht) as (G1 & G2 & G3). split; [exact G1|]. split; [exact G2|].
    destruct G3 as (offs & d & Hg). exists offs, d. exact Hg.
  - rewrite Hn. intros k c T Hlt. lia.
Qed.
Print Assumptions C95_tasks_partial.

(** With an account: the sync timer is the first task. *)
Theorem C95_synced_partial :
  forall fuel cfg sc tz st now pre ko e0 post ns dates s4 s0 s ls o step qs offs d S ps,
    synced fuel cfg sc tz st now pre ko e0 post ns dates s4 s o step qs offs d S ->
    start fuel cfg sc tz st None now (pre ++ UOpt ko e0 :: post) ns dates = Some (s4, s0) -> List.length dates = List.length (st_srcs s4) ->
    l_exec (sched_handler fuel (loop_cfg cfg sc s4) tz) s0 ls = Some s ->
    market_period sc s4 = raw_of ps -> Forall (fun p => tod_ok (fst p) /\ tod_ok (snd p)) ps ->
    Forall (fun p => fst p mod US = 0 /\ snd p mod US = 0) ps -> ps <> [] -> tz mod US = 0 -> 2 <= cf_count cfg ->
    forall w lat due e cs Ts tasks,
      timely (sched_handler fuel (loop_cfg cfg sc s4) tz) w lat due e s0 ls ->
      List.length tasks = List.length (asked (pre ++ UOpt ko e0 :: post)) ->
      (forall m c T, m_cb m <> COther -> nth_error ((cs, Ts) :: tasks) (source m) = Some (c, T) -> w m <= c) ->
      (forall k n id t c T, nth_error (asked (pre ++ UOpt ko e0 :: post)) k = Some (n, id, t) -> nth_error tasks k = Some (c, T) ->
         0 <= c /\ 0 < T /\ entry_apart cfg tz now ps e T k t (nth_error dates (k + 1))) ->
      0 <= cs -> 0 < Ts -> apart Ts offs -> offs <> [] -> dt_date st <= d -> e * 1000 + tz <= (d + cf_count cfg - 1) * DAY ->
      fits ((cs, Ts) :: tasks) ->
      forall m t, In (m, t) (l_log s) -> t <= m_time m + lat + one_each ((cs, Ts) :: tasks).
Proof.
  intros fuel cfg sc tz st now pre ko e0 post ns dates s4 s0 s ls o step qs offs d S ps [Y1 Y2 Y3 Y4 Y5 Y6 Y7 Y8 Y9 Y10 Y11 Y12 Y13 Y14 Y15 Y16 Y17 Y18] H1 H2 H3 H5 H6 H7 H8 H11 H12 w lat due e cs Ts tasks [T1 T2 T3 T4 T5] H14 H15 H16 A1 A2 A3 A4 A5 A6 H17.
  assert (Hn : npre (pre ++ UOpt ko e0 :: post) s4 = 1%nat).
  { apply (npre_one fuel cfg sc tz st now pre post ko e0 ns dates s4 s qs o step offs tt); assumption. }
  assert (Hlen : List.length (st_srcs s4) = (1 + List.length (asked (pre ++ UOpt ko e0 :: post)))%nat).
  { destruct (sync_src_ok fuel cfg sc tz st now pre post ko e0 ns dates s4 s qs o step offs tt Y1 Y2 Y3 Y4 Y5 Y6
      Y7 Y8 Y9 Y10 Y11 Y12 Y13 Y14 []) as (es & ts & E & L & _). rewrite E. cbn. lia. }
  eapply (process_late fuel cfg sc tz st now (pre ++ UOpt ko e0 :: post) ns dates s4 s0 s ls ps H1 H2 H3 Y2 H5 H6 H7 H8 Y17 Y18 H11 H12 T1 T2 w lat due e ((cs, Ts) :: tasks) T3 T4 T5 H15 H17); [cbn; lia| |].
  - rewrite Hn. cbn [plus nth_error]. intros k n id t c T Hk Ht. destruct (H16 k n id t c T Hk Ht) as (G1 & G2 & G3). split; [exact G1|]. split; [exact G2|].
    destruct G3 as (offs' & d' & Hg). exists offs', d'. rewrite Nat.add_1_r in Hg. exact Hg.
  - rewrite Hn. intros k c T Hlt Hk. assert (k = 0%nat) as -> by lia. cbn in Hk. injection Hk as <- <-. split; [exact A1|]. split; [exact A2|].
    intros ls' s' Hok Hu Hx.
    assert (Hboot : boot fuel (loop_cfg cfg sc s4) tz (st_srcs s4) dates = Some s0).
    { eapply start_boot; exact H1. }
    destruct (sync_good fuel cfg sc tz st now pre post ko e0 ns dates s4 s qs o step d offs S tt Y1 Y2 Y3 Y4 Y5 Y6
      Y7 Y8 Y9 Y10 Y11 Y12 Y13 Y14 Y15 Y16 Y17 Y18 s0 Hboot H2) as [Hl Hg].
    eapply (daily_spaced fuel (loop_cfg cfg sc s4) tz (st_srcs s4) dates s0 s' ls' e ltac:(lia) H2 Hboot Hok Hx H11 Hu 0 st offs sync_cls d Ts Hl Hg); try assumption.
    + apply Forall_forall. intros x Hxo. exact (sync_in_day step qs _ offs Y10 Y13 Y14 x Hxo).
    + eapply sync_whole; eassumption.
Qed.
Print Assumptions C95_synced_partial.

(** ** nothing is left behind *)

(** If every call started so far started at most [B] late, then whenever the loop has read the
    clock and goes on, every instant owed more than [B] before that reading has been called. *)
Theorem C118_caught_up :
  forall fuel cfg sc tz st now calls ns dates s4 s0 s ls ps clock ex s' B,
    start fuel cfg sc tz st None now calls ns dates = Some (s4, s0) -> List.length dates = List.length (st_srcs s4) ->
    l_exec (sched_handler fuel (loop_cfg cfg sc s4) tz) s0 ls = Some s ->
    l_step (sched_handler fuel (loop_cfg cfg sc s4) tz) s (LTurn clock ex) = Some s' ->
    (exists m, l_mode s' = Running m) \/ (exists m, l_mode s' = Arming m) ->
    cf_hist cfg = false ->
    market_period sc s4 = raw_of ps -> Forall (fun p => tod_ok (fst p) /\ tod_ok (snd p)) ps ->
    Forall (fun p => fst p mod US = 0 /\ snd p mod US = 0) ps -> ps <> [] ->
    (1441 <= fuel)%nat -> (Z.to_nat (cf_count cfg) < fuel)%nat -> tz mod US = 0 ->
    Forall no_push ls -> Forall no_defer ls ->
    0 <= B -> (forall m t, In (m, t) (l_log s') -> t <= m_time m + B) ->
    forall k n id t offs d S,
      w_hung (l_w s) = false -> nth_error (asked calls) k = Some (n, id, t) -> owes ps t offs ->
      nth_error dates (List.length (st_srcs s4) - List.length (asked calls) + k) = Some d ->
      owed_on (now k) offs d (d + cf_count cfg - 1) S ->
      exists r, map fst (calls_of k (invoked s4 (l_w s'))) = filter (fun y => y - tz <? (clock - B) * 1000) S ++ r.
Proof. intros fuel cfg sc tz st now calls ns dates s4 s0 s ls ps clock ex s' B. exact (process_caught_up fuel cfg sc tz st now calls ns dates s4 s0 s s' ls ps clock ex B). Qed.
Print Assumptions C118_caught_up.

(** So, if the work fits, no call is ever missing for longer than [lat] and one round of all
    tasks. *)
Theorem C95_never_missing_partial :
  forall fuel cfg sc tz st now calls ns dates s4 s0 s ls ps clock ex s',
    start fuel cfg sc tz st None now calls ns dates = Some (s4, s0) -> List.length dates = List.length (st_srcs s4) ->
    l_exec (sched_handler fuel (loop_cfg cfg sc s4) tz) s0 ls = Some s ->
    l_step (sched_handler fuel (loop_cfg cfg sc s4) tz) s (LTurn clock ex) = Some s' ->
    (exists m, l_mode s' = Running m) \/ (exists m, l_mode s' = Arming m) ->
    cf_hist cfg = false ->
    market_period sc s4 = raw_of ps -> Forall (fun p => tod_ok (fst p) /\ tod_ok (snd p)) ps ->
    Forall (fun p => fst p mod US = 0 /\ snd p mod US = 0) ps -> ps <> [] ->
    (1441 <= fuel)%nat -> (Z.to_nat (cf_count cfg) < fuel)%nat -> tz mod US = 0 -> 2 <= cf_count cfg ->
    List.length (st_srcs s4) = List.length (asked calls) ->
    forall w lat due e tasks,
      timely (sched_handler fuel (loop_cfg cfg sc s4) tz) w lat due e s0 (ls ++ [LTurn clock ex]) ->
      List.length tasks = List.length (asked calls) ->
      (forall m c T, m_cb m <> COther -> nth_error tasks (source m) = Some (c, T) -> w m <= c) ->
      (forall k n id t c T, nth_error (asked calls) k = Some (n, id, t) -> nth_error tasks k = Some (c, T) ->
         0 <= c /\ 0 < T /\ entry_apart cfg tz now ps e T k t (nth_error dates k)) ->
      fits tasks -> 0 <= lat ->
      forall k n id t offs d S,
        w_hung (l_w s) = false -> nth_error (asked calls) k = Some (n, id, t) -> owes ps t offs ->
        nth_error dates k = Some d -> owed_on (now k) offs d (d + cf_count cfg - 1) S ->
        exists r, map fst (calls_of k (invoked s4 (l_w s'))) = filter (fun y => y - tz <? (clock - (lat + one_each tasks)) * 1000) S ++ r.
Proof.
  intros fuel cfg sc tz st now calls ns dates s4 s0 s ls ps clock ex s' H1 H2 H3 Ht Hg H4 H5 H6 H7 H8 H9 H10 H11 H12 H13 w lat due e tasks Htm H14 H15 H16 H17 Hlat
    k n id t offs d S Hh Hk Ho Hd HS.
  pose proof Htm as [T1 T2 _ _ _]. apply Forall_app in T1 as [T1 _]. apply Forall_app in T2 as [T2 _].
  eapply (C118_caught_up fuel cfg sc tz st now calls ns dates s4 s0 s ls ps clock ex s' (lat + one_each tasks)); try eassumption.
  - assert (Hnn : forall l : list (Z * Z), (forall c T, In (c, T) l -> 0 <= c) -> 0 <= one_each l).
    { induction l as [|[c T] l IH]; intros Hl; cbn [one_each fold_right fst]; [lia|]. pose proof (Hl c T (or_introl eq_refl)).
      pose proof (IH (fun c' T' Hi => Hl c' T' (or_intror Hi))) as IH'. unfold one_each in IH'. lia. }
    pose proof (Hnn tasks) as G. assert (0 <= one_each tasks); [|lia]. apply G. intros c T Hin. apply In_nth_error in Hin as (j & Hj).
    assert (Hja : (j < List.length (asked calls))%nat) by (rewrite <- H14; apply nth_error_Some; congruence).
    apply nth_error_Some in Hja. destruct (nth_error (asked calls) j) as [[[n' id'] t']|] eqn:Ea; [|congruence]. exact (proj1 (H16 j n' id' t' c T Ea Hj)).
  - intros m t0 Hin. rewrite Z.add_assoc.
    eapply (C95_tasks_partial fuel cfg sc tz st now calls ns dates s4 s0 s' (ls ++ [LTurn clock ex]) ps); try eassumption. eapply exec_snoc; eassumption.
  - rewrite H13, Nat.sub_diag. exact Hd.
Qed.
Print Assumptions C95_never_missing_partial.

(** ** overload *)

(** The full statement: every call starts at most [lat] and one round of all tasks after its
    time, whether the work fits or not. *)
Definition never_far_behind : Prop :=
  forall fuel cfg sc tz st now calls ns dates s4 s0 s ls ps,
    start fuel cfg sc tz st None now calls ns dates = Some (s4, s0) -> List.length dates = List.length (st_srcs s4) ->
    l_exec (sched_handler fuel (loop_cfg cfg sc s4) tz) s0 ls = Some s ->
    cf_hist cfg = false ->
    market_period sc s4 = raw_of ps -> Forall (fun p => tod_ok (fst p) /\ tod_ok (snd p)) ps ->
    Forall (fun p => fst p mod US = 0 /\ snd p mod US = 0) ps -> ps <> [] ->
    (1441 <= fuel)%nat -> (Z.to_nat (cf_count cfg) < fuel)%nat -> tz mod US = 0 -> 2 <= cf_count cfg ->
    List.length (st_srcs s4) = List.length (asked calls) ->
    forall w lat due e tasks,
      timely (sched_handler fuel (loop_cfg cfg sc s4) tz) w lat due e s0 ls ->
      List.length tasks = List.length (asked calls) ->
      (forall m c T, m_cb m <> COther -> nth_error tasks (source m) = Some (c, T) -> w m <= c) ->
      (forall k n id t c T, nth_error (asked calls) k = Some (n, id, t) -> nth_error tasks k = Some (c, T) ->
         0 <= c /\ 0 < T /\ entry_apart cfg tz now ps e T k t (nth_error dates k)) ->
      forall m t, In (m, t) (l_log s) -> t <= m_time m + lat + one_each tasks.

(** Times of day on whole minutes are a minute apart. *)
Lemma minutes_apart offs : NoDup offs -> Forall (fun o => o mod MINUTE = 0 /\ tod_ok o) offs -> apart 60000 offs.
Proof.
  intros Hn Hf. split; [exact Hn|]. split; [unfold DAY, US; lia|]. rewrite Forall_forall in Hf. intros a b Ha Hb Hlt.
  destruct (Hf a Ha) as [Ma [Ga La]]. destruct (Hf b Hb) as [Mb [Gb Lb]].
  pose proof (Z.div_mod a MINUTE ltac:(discriminate)) as Ea. pose proof (Z.div_mod b MINUTE ltac:(discriminate)) as Eb.
  rewrite Ma in Ea. rewrite Mb in Eb. unfold tod_ok, MINUTE, DAY, US in *. lia.
Qed.
Definition minutes (a : Z) (n : nat) : list Z := map (fun i => a + Z.of_nat i * MINUTE) (seq 0 n).
Lemma minutes_steps a b n : b = a + (Z.of_nat n - 1) * MINUTE -> steps MINUTE a b (minutes a n).
Proof.
  intros ->. split.
  - unfold minutes. apply sorted_map. generalize 0%nat. induction n as [|n IH]; intros i; cbn [seq]; constructor; [apply IH|].
    apply Forall_forall. intros j Hj. apply in_seq in Hj. unfold MINUTE, US. lia.
  - intros t. unfold minutes. rewrite in_map_iff. split.
    + intros (i & <- & Hi). apply in_seq in Hi. exists (Z.of_nat i). unfold MINUTE, US. lia.
    + intros (k & Hk & -> & Hle). exists (Z.to_nat k). rewrite Z2Nat.id by exact Hk. split; [reflexivity|]. apply in_seq. unfold MINUTE, US in *. lia.
Qed.
Definition demo_minutes : list Z := minutes (34200 * US) 121 ++ minutes (46800 * US) 121.
Lemma demo_minutes_owed : owes demo_ps (lit "every_minute") demo_minutes.
Proof.
  replace demo_minutes with (concat [minutes (34200 * US) 121; minutes (46800 * US) 121]) by (cbn [concat]; rewrite app_nil_r; reflexivity).
  apply owes_minutes. constructor; [|constructor; [|constructor]]; apply minutes_steps; reflexivity.
Qed.
Lemma demo_minutes_whole : Forall (fun o => o mod MINUTE = 0 /\ tod_ok o) demo_minutes.
Proof.
  assert (G : forall a, a mod MINUTE = 0 -> 0 <= a -> a + 121 * MINUTE < DAY -> Forall (fun o => o mod MINUTE = 0 /\ tod_ok o) (minutes a 121)).
  { intros a Hm H0 H1. apply Forall_forall. intros x Hx. apply in_map_iff in Hx as (i & <- & Hi). apply in_seq in Hi. split.
    - rewrite Z.mod_add by discriminate. exact Hm.
    - unfold tod_ok, MINUTE, US in *. lia. }
  apply Forall_app. split; apply G; try reflexivity; unfold US; lia.
Qed.
Lemma demo_minutes_apart : apart 60000 demo_minutes.
Proof.
  apply minutes_apart; [|exact demo_minutes_whole].
  assert (S : StronglySorted Z.lt demo_minutes).
  { apply LSched3.StronglySorted_app_intro; [apply (minutes_steps _ _ 121 eq_refl)|apply (minutes_steps _ _ 121 eq_refl)|].
    intros x y Hx Hy. apply in_map_iff in Hx as (i & <- & Hi). apply in_map_iff in Hy as (j & <- & Hj). apply in_seq in Hi, Hj. unfold MINUTE, US. lia. }
  induction S as [|x l S IH Hf]; constructor; [|exact IH]. rewrite Forall_forall in Hf. intros Hin. specialize (Hf x Hin). lia.
Qed.

Fixpoint in_time_b (h : handler scb sworld sout) (w : msg scb -> Z) (lat due : Z) (s : lstate scb sworld) (ls : list (label scb sout)) : bool :=
  match ls with
  | [] => true
  | l :: ls' =>
      match l with LTurn now _ => now <=? due | _ => true end &&
      match l_step h s l with
      | Some s' => in_time_b h w lat (match l with LTurn now _ => match l_mode s' with Running m => now + w m | Arming m => m_time m + lat | _ => due end | _ => due end) s' ls'
      | None => true
      end
  end.
Lemma in_time_b_ok h w lat ls : forall due s, in_time_b h w lat due s ls = true -> in_time h w lat due s ls.
Proof.
  induction ls as [|l ls IH]; intros due s; cbn [in_time_b in_time]; [auto|]. intros H. apply andb_true_iff in H as [H1 H2]. split.
  - destruct l; try exact I. apply Z.leb_le. exact H1.
  - destruct (l_step h s l); [apply IH; exact H2|exact I].
Qed.
Definition first_b (due lat : Z) (s : lstate scb sworld) : bool := forallb (fun m => due <=? m_time m + lat) (queued s).
Lemma first_b_ok due lat s : first_b due lat s = true -> forall m, In m (queued s) -> due <= m_time m + lat.
Proof. unfold first_b. rewrite forallb_forall. intros H m Hm. apply Z.leb_le, H, Hm. Qed.

(** a process: what is started, and what the checks above answer *)
Definition late_facts (x : option (strat * lstate scb sworld)) (w : msg scb -> Z) (lat due : Z) (ls : list (label scb sout)) :=
  match x with
  | Some (s4, s0) =>
      let h := sched_handler 1500 (loop_cfg cfg_default scfg_default s4) demo_tz in
      match l_exec h s0 ls with
      | Some s => Some ((List.length (st_srcs s4), market_period scfg_default s4),
                        (in_time_b h w lat due s0 ls && first_b due lat s0, map (fun y => (source (fst y), m_time (fst y), snd y)) (l_log s)))
      | None => None
      end
  | None => None
  end.
Lemma late_state x w lat due ls n mp log : late_facts x w lat due ls = Some ((n, mp), (true, log)) ->
  exists s4 s0 s, x = Some (s4, s0) /\ l_exec (sched_handler 1500 (loop_cfg cfg_default scfg_default s4) demo_tz) s0 ls = Some s /\
    List.length (st_srcs s4) = n /\ market_period scfg_default s4 = mp /\
    in_time (sched_handler 1500 (loop_cfg cfg_default scfg_default s4) demo_tz) w lat due s0 ls /\
    (forall m, In m (queued s0) -> due <= m_time m + lat) /\
    map (fun y => (source (fst y), m_time (fst y), snd y)) (l_log s) = log.
Proof.
  destruct x as [[s4 s0]|]; cbn [late_facts]; [|discriminate]. cbv zeta. destruct (l_exec _ s0 ls) as [s|] eqn:Ex; [|discriminate].
  assert (G : forall A B C D (a a' : A) (b b' : B) (c c' : C) (e e' : D), Some ((a, b), (c, e)) = Some ((a', b'), (c', e')) -> a = a' /\ b = b' /\ c = c' /\ e = e')
    by (intros * E; injection E; auto 10).
  intros H. apply G in H as (H1 & H2 & H3 & H4). apply andb_true_iff in H3 as [H3 H5]. exists s4, s0, s.
  repeat (split; [first [assumption|reflexivity|apply in_time_b_ok; assumption|apply first_b_ok; assumption]|]). exact H4.
Qed.

(** One entry, "every_minute", each call takes two and a half minutes.  The loop is woken on
    time, but the call owed at 9:32 starts at 9:35, and each further one a minute and a half later still. *)
Definition over_calls : list ucall := [URun (Fn 1 (Some (lit "f")) true) (lit "every_minute")].
Definition over_labels : list (label scb sout) :=
  [LAsync; LTurn (demo_ms 34200) false; demo_done; LTurn (demo_ms 34350) false; demo_done; LTurn (demo_ms 34500) false; demo_done].
Notation over_start := (start 1500 cfg_default scfg_default demo_tz 0 None (fun _ => demo_now) over_calls demo_ns [20000]).
Example C95_over : late_facts over_start (fun _ => 150000) 0 (demo_ms 34200) over_labels =
  Some ((1%nat, raw_of demo_ps),
        (true, [(0%nat, demo_ms 34200, demo_ms 34200); (0%nat, demo_ms 34260, demo_ms 34350); (0%nat, demo_ms 34320, demo_ms 34500)])).
Proof. vm_compute. reflexivity. Qed.

Lemma demo_bounds e d : e = demo_ms (10 * 86400) -> d = 20000 -> e * 1000 + demo_tz <= (d + cf_count cfg_default - 1) * DAY.
Proof. intros -> ->. vm_compute. discriminate. Qed.

Theorem C95_overload_refuted : ~ never_far_behind.
Proof.
  intros H. destruct (late_state _ _ _ _ _ _ _ _ C95_over) as (s4 & s0 & s & E1 & E2 & H1 & H2 & H3 & H4 & H5).
  destruct (l_log s) as [|x0 [|x1 [|[m t] [|x3 l]]]] eqn:El; try discriminate H5. cbn [map fst snd] in H5.
  assert (Ht : m_time m = demo_ms 34320 /\ t = demo_ms 34500).
  { assert (G : forall A B (a b c a' b' c' : A * Z * B), [a; b; c] = [a'; b'; c'] -> c = c') by (intros * E; injection E; auto).
    apply G in H5. assert (G2 : forall A B C (a a' : A) (b b' : B) (c c' : C), (a, b, c) = (a', b', c') -> b = b' /\ c = c') by (intros * E; injection E; auto).
    exact (G2 _ _ _ _ _ _ _ _ _ H5). }
  destruct Ht as [Hm ->].
  assert (Hx : demo_ms 34500 <= m_time m + 0 + one_each [(150000, 60000)]).
  { eapply (H 1500%nat cfg_default scfg_default demo_tz 0 (fun _ => demo_now) over_calls demo_ns [20000] s4 s0 s over_labels demo_ps) with
      (w := fun _ => 150000) (lat := 0) (due := demo_ms 34200) (e := demo_ms (10 * 86400)) (tasks := [(150000, 60000)]); try assumption; try reflexivity.
    - rewrite H1. reflexivity.
    - unfold demo_ps. repeat constructor; vm_compute; discriminate.
    - unfold demo_ps. repeat constructor.
    - discriminate.
    - apply Nat.leb_le. vm_compute. reflexivity.
    - apply Nat.leb_le. vm_compute. reflexivity.
    - vm_compute. discriminate.
    - constructor; [repeat constructor|repeat constructor|exact H3|exact H4|]. unfold over_labels. repeat constructor; vm_compute; reflexivity.
    - intros m' c T _. destruct (source m') as [|[|i]]; cbn [nth_error]; [|discriminate|discriminate]. intros E; injection E as <- <-. lia.
    - intros k n id t c T Hk Ht. destruct k as [|k]; [|destruct k; discriminate Hk]. cbn in Hk, Ht. injection Hk as <- <- <-. injection Ht as <- <-.
      split; [lia|]. split; [lia|]. exists demo_minutes, 20000. split; [exact demo_minutes_owed|]. split; [reflexivity|]. split; [exact demo_minutes_apart|].
      split; [eapply Forall_impl; [|exact demo_minutes_whole]; intros o [_ Ho]; exact Ho|]. split; [discriminate|]. split; [vm_compute; discriminate|].
      apply demo_bounds; reflexivity.
    - rewrite El. right; right; left; reflexivity. }
  rewrite Hm in Hx. vm_compute in Hx. apply Hx. reflexivity.
Qed.
Print Assumptions C95_overload_refuted.

(** ** a process that keeps up: f every minute for up to 20 seconds, g at the open for up to
    30, h at 9:31 for up to 5; the loop is woken up to 10 milliseconds late *)
Definition up_w (m : msg scb) : Z := match source m with 0%nat => 20000 | 1%nat => 30000 | _ => 5000 end.
Definition up_tasks : list (Z * Z) := [(20000, 60000); (30000, 86400000); (5000, 86400000)].
Definition up_labels : list (label scb sout) :=
  [LAsync; LTurn (demo_ms 34171) false; LArm; LTimer; LTurn (demo_ms 34200 + 7) false; demo_done; LTurn (demo_ms 34220) false; demo_done;
   LTurn (demo_ms 34245) false; LArm; LAsync; LTurn (demo_ms 34246) false; LArm; LTimer; LTurn (demo_ms 34260 + 10) false; demo_done; LTurn (demo_ms 34280 + 10) false].
Lemma up_fits : fits up_tasks.
Proof.
  apply (C118_fits up_tasks 86400000); [lia| |vm_compute; discriminate].
  unfold up_tasks. repeat constructor; cbn [fst snd]; try lia; [exists 1440|exists 1|exists 1]; reflexivity.
Qed.
Example C95_up : late_facts demo_start up_w 10 (demo_ms 34172) up_labels =
  Some ((3%nat, raw_of demo_ps),
        (true, [(0%nat, demo_ms 34200, demo_ms 34200 + 7); (1%nat, demo_ms 34200, demo_ms 34220); (0%nat, demo_ms 34260, demo_ms 34260 + 10);
                (2%nat, demo_ms 34260, demo_ms 34280 + 10)])).
Proof. vm_compute. reflexivity. Qed.

Example C95_demo : exists s4 s0 s,
  demo_start = Some (s4, s0) /\ l_exec (sched_handler 1500 (loop_cfg cfg_default scfg_default s4) demo_tz) s0 up_labels = Some s /\
  List.length (l_log s) = 4%nat /\ forall m t, In (m, t) (l_log s) -> t <= m_time m + 10 + 55000.
Proof.
  destruct (late_state _ _ _ _ _ _ _ _ C95_up) as (s4 & s0 & s & E1 & E2 & H1 & H2 & H3 & H4 & H5).
  exists s4, s0, s. split; [exact E1|]. split; [exact E2|]. split; [apply (f_equal (@List.length _)) in H5; rewrite map_length in H5; exact H5|].
  change 55000 with (one_each up_tasks).
  eapply (C95_tasks_partial 1500%nat cfg_default scfg_default demo_tz 0 (fun _ => demo_now) demo_calls demo_ns [20000; 20000; 20000] s4 s0 s up_labels demo_ps) with
    (w := up_w) (due := demo_ms 34172) (e := demo_ms (10 * 86400)); try assumption; try reflexivity.
  - rewrite H1. reflexivity.
  - unfold demo_ps. repeat constructor; vm_compute; discriminate.
  - unfold demo_ps. repeat constructor.
  - discriminate.
  - apply Nat.leb_le. vm_compute. reflexivity.
  - apply Nat.leb_le. vm_compute. reflexivity.
  - vm_compute. discriminate.
  - constructor; [repeat constructor|repeat constructor|exact H3|exact H4|]. unfold up_labels. repeat constructor; vm_compute; reflexivity.
  - intros m c T _. unfold up_w. destruct (source m) as [|[|[|i]]]; cbn [nth_error up_tasks]; try (intros E; injection E as <- <-; lia). destruct i; discriminate.
  - intros k n id t c T Hk Ht. destruct k as [|[|[|k]]]; [| | |destruct k; discriminate Hk]; cbn in Hk, Ht; injection Hk as <- <- <-; injection Ht as <- <-;
      (split; [lia|]); (split; [lia|]).
    + exists demo_minutes, 20000. split; [exact demo_minutes_owed|]. split; [reflexivity|]. split; [exact demo_minutes_apart|].
      split; [eapply Forall_impl; [|exact demo_minutes_whole]; intros o [_ Ho]; exact Ho|]. split; [discriminate|]. split; [vm_compute; discriminate|].
      apply demo_bounds; reflexivity.
    + exists [34200 * US], 20000. split; [apply C58_demo_owes|]. split; [reflexivity|].
      split; [split; [repeat constructor; intros []|split; [vm_compute; discriminate|intros a b [<-|[]] [<-|[]]; lia]]|].
      split; [repeat constructor; vm_compute; discriminate|]. split; [discriminate|]. split; [vm_compute; discriminate|]. apply demo_bounds; reflexivity.
    + exists [34260 * US], 20000. split; [apply C58_demo_owes|]. split; [reflexivity|].
      split; [split; [repeat constructor; intros []|split; [vm_compute; discriminate|intros a b [<-|[]] [<-|[]]; lia]]|].
      split; [repeat constructor; vm_compute; discriminate|]. split; [discriminate|]. split; [vm_compute; discriminate|]. apply demo_bounds; reflexivity.
  - exact up_fits.
Qed.

(** The last label of [up_labels] is such a reading of the clock: h is started, nothing hangs, and
    f has been called for both instants before it. *)
Example C95_missing_demo :
  match demo_start with
  | Some (s4, s0) =>
      match l_exec (sched_handler 1500 (loop_cfg cfg_default scfg_default s4) demo_tz) s0 up_labels with
      | Some s => (match l_mode s with Running _ => true | _ => false end, w_hung (l_w s), map fst (calls_of 0 (invoked s4 (l_w s))))
                  = (true, false, [20000 * DAY + 34200 * US; 20000 * DAY + 34260 * US])
      | None => False
      end
  | None => False
  end.
Proof. vm_compute. reflexivity. Qed.
