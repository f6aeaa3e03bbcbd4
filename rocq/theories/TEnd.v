(** C99: when a task process ends, and when it does not. *)
From Coq Require Import Permutation String.
From Verif Require Import PyBase PyStr MTime MTimeExpr MEventSource MQueue MLoop MSched MBus MStrategy MProcess LLoop LSched LSched2 LEventSource2
  SLate LBound SEnd LEnd SProcess LProcess TProcess.
Open Scope list_scope.
Open Scope Z_scope.

(** ** why a loop ends *)

(** A loop that has returned did so for one of five reasons: a signal, a call of stop() from
    outside, an exit checker while all queued messages lie in the future, an empty queue, or
    a callback that raised or called stop(). *)
Theorem C105_reason :
  forall (C W O : Type) (h : handler C W O) w ls s,
    l_exec h (l_init w) ls = Some s -> ended s ->
    exists pre l post s1, ls = pre ++ l :: post /\ l_exec h (l_init w) pre = Some s1 /\ l_stop s1 = false /\ ends_by h s1 l.
Proof.
  intros C W O h w ls s Hx [r Hr]. pose proof (inv_exec h ls _ _ (inv_init w) Hx) as I.
  destruct (exec_cause h ls _ _ (inv_init w) Hx eq_refl (proj2 (i_returned _ I r Hr))) as (pre & l & post & s1 & s2 & A & B & D & _ & F).
  exists pre, l, post, s1. auto.
Qed.
Print Assumptions C105_reason.

(** Once one of these has happened the loop returns within three steps of its own after
    what is running now, and calls nothing more. *)
Theorem C105_returns :
  forall (C W O : Type) (h : handler C W O) w ls s (now : Z),
    l_exec h (l_init w) ls = Some s -> l_stop s = true -> l_mode s = Idle ->
    exists ls' s', l_exec h s ls' = Some s' /\ Forall by_itself ls' /\ (List.length ls' <= 3)%nat /\ ended s' /\ l_log s' = l_log s.
Proof.
  intros C W O h w ls s now Hx Hs Hm. pose proof (J_exec h True ls _ _ (inv_init w) (J_init w) Hx) as Hj.
  destruct (J_returns h True s now Hj Hm Hs) as (ls' & s' & A & B & D & E & F). exists ls', s'.
  split; [exact A|]. split; [exact B|]. split; [exact D|]. split; [eexists; exact E|exact F].
Qed.
Print Assumptions C105_returns.

(** ** a process nobody stops *)

(** A process that ended although nobody told it to and no callback failed has nothing left:
    whatever the date, no event source has another event. *)
Theorem C105_all_done :
  forall fuel cfg sc tz st en now calls ns dates s4 s0 s ls,
    (0 < fuel)%nat ->
    start fuel cfg sc tz st en now calls ns dates = Some (s4, s0) -> List.length dates = List.length (st_srcs s4) ->
    Forall ok_label ls -> Forall untold ls -> l_exec (sched_handler fuel (loop_cfg cfg sc s4) tz) s0 ls = Some s ->
    ended s -> l_raised s = [] -> w_hung (l_w s) = false ->
    List.length (w_srcs (l_w s)) = List.length (st_srcs s4) /\
    forall es date, In es (w_srcs (l_w s)) -> get_next_event fuel (loop_cfg cfg sc s4) date es = GOk (None, es).
Proof.
  intros fuel cfg sc tz st en now calls ns dates s4 s0 s ls Hf Hs Hl Hok Hun Hx [r Hr] Hra Hh.
  destruct (start_slim fuel cfg sc st en tz now calls ns dates s4 s0 Hs) as [_ Hb].
  destruct (boot_facts fuel Hf _ _ _ _ _ Hb) as (I0 & _). pose proof (inv_exec _ ls _ _ I0 Hx) as I.
  split.
  { assert (Hreach : sreach fuel (loop_cfg cfg sc s4) tz (st_srcs s4) s) by (exists dates, s0, ls; auto).
    exact (s_len _ _ _ _ _ _ _ (f_SI _ _ _ _ _ (FI_reach fuel _ tz _ Hf s Hreach))). }
  intros es date Hin.
  destruct (ended_dry fuel Hf _ tz _ dates s0 ls s Hl Hb Hok Hun Hx (proj2 (i_returned _ I r Hr)) Hra Hh es Hin) as [H1 H2].
  unfold get_next_event. rewrite (settled_gen _ date fuel es H1 Hf), H2. reflexivity.
Qed.
Print Assumptions C105_all_done.

(** A live process with something to run never ends of its own accord: if it ended, it was
    told to, or a callback failed. *)
Theorem C105_live :
  forall fuel cfg sc tz st now calls ns dates s4 s0 s ls,
    (0 < fuel)%nat -> cf_hist cfg = false -> 0 < cf_count cfg ->
    start fuel cfg sc tz st None now calls ns dates = Some (s4, s0) -> List.length dates = List.length (st_srcs s4) -> st_srcs s4 <> [] ->
    Forall ok_label ls -> Forall untold ls -> l_exec (sched_handler fuel (loop_cfg cfg sc s4) tz) s0 ls = Some s ->
    ended s -> w_hung (l_w s) = false -> l_raised s <> [].
Proof.
  intros fuel cfg sc tz st now calls ns dates s4 s0 s ls Hf Hhist Hcnt Hs Hl Hne Hok Hun Hx [r Hr] Hh Hra.
  destruct (start_slim fuel cfg sc st None tz now calls ns dates s4 s0 Hs) as [Hsl Hb]. pose proof (start_ends _ _ _ _ _ _ _ _ _ _ _ _ Hs) as He.
  destruct (boot_facts fuel Hf _ _ _ _ _ Hb) as (I0 & _). pose proof (inv_exec _ ls _ _ I0 Hx) as I.
  assert (Hreach : sreach fuel (loop_cfg cfg sc s4) tz (st_srcs s4) s) by (exists dates, s0, ls; auto).
  destruct (st_srcs s4) as [|es0 srcs] eqn:E; [congruence|].
  destruct (sources_slim fuel _ tz _ Hf s 0%nat es0 Hreach eq_refl (Forall_inv Hsl)) as (es & Hk & _ & (_ & _ & K)).
  rewrite <- E in *.
  destruct (ended_dry fuel Hf _ tz _ dates s0 ls s Hl Hb Hok Hun Hx (proj2 (i_returned _ I r Hr)) Hra Hh es (nth_error_In _ _ Hk)) as [[_ H1] H2].
  destruct (H1 H2) as [_ H3]. specialize (H3 0). unfold get_days in H3. rewrite K in H3. cbv beta in He. rewrite E in He. rewrite (Forall_inv He) in H3. cbn [loop_cfg cf_hist cf_count] in H3. rewrite Hhist in H3. cbn [orb] in H3.
  injection H3 as H3 _. apply (f_equal (@List.length Z)) in H3. rewrite LEventSource.day_range_length in H3. cbn in H3. lia.
Qed.
Print Assumptions C105_live.

(** ** a process with an end date *)

(** [ends_from h s]: from [s], with the clock beyond some instant and nobody doing anything,
    the process makes at most some number of steps, and can always make one until it has ended *)
Definition ends_from (h : handler scb sworld sout) (s : lstate scb sworld) : Prop :=
  exists T n, forall ls s', Forall by_itself ls -> Forall no_defer ls -> Forall (past T) ls -> l_exec h s ls = Some s' ->
    (List.length ls <= n)%nat /\
    (ended s' \/ exists l s'', by_itself l /\ no_defer l /\ past T l /\ l_step h s' l = Some s'').

(** the statement: a process with an end date ends *)
Definition always_ends : Prop :=
  forall fuel cfg sc tz st e now calls ns dates s4 s0 s ls,
    (0 < fuel)%nat ->
    start fuel cfg sc tz st (Some e) now calls ns dates = Some (s4, s0) -> List.length dates = List.length (st_srcs s4) ->
    Forall ok_label ls -> l_exec (sched_handler fuel (loop_cfg cfg sc s4) tz) s0 ls = Some s ->
    ends_from (sched_handler fuel (loop_cfg cfg sc s4) tz) s.

(** It holds of processes with something to run. *)
Theorem C99_ends_partial :
  forall fuel cfg sc tz st e now calls ns dates s4 s0 s ls,
    (0 < fuel)%nat ->
    start fuel cfg sc tz st (Some e) now calls ns dates = Some (s4, s0) -> List.length dates = List.length (st_srcs s4) ->
    queued s0 <> [] ->
    Forall ok_label ls -> l_exec (sched_handler fuel (loop_cfg cfg sc s4) tz) s0 ls = Some s ->
    ends_from (sched_handler fuel (loop_cfg cfg sc s4) tz) s.
Proof.
  intros fuel cfg sc tz st e now calls ns dates s4 s0 s ls Hf Hs Hl Hq Hok Hx.
  destruct (start_slim fuel cfg sc st (Some e) tz now calls ns dates s4 s0 Hs) as [Hsl Hb]. pose proof (start_ends _ _ _ _ _ _ _ _ _ _ _ _ Hs) as He.
  destruct (boot_facts fuel Hf _ _ _ _ _ Hb) as (I0 & Hs0 & _). pose proof (inv_exec _ ls _ _ I0 Hx) as I.
  pose proof (J_exec _ False ls _ _ I0 (J_start _ Hs0 Hq) Hx) as Hj.
  assert (Hreach : sreach fuel (loop_cfg cfg sc s4) tz (st_srcs s4) s) by (exists dates, s0, ls; auto).
  assert (Hen : Forall (fun es => es_end es = Some e) (w_srcs (l_w s))).
  { apply Forall_forall. intros es Hin. destruct (In_nth_error _ _ Hin) as [k Hk].
    destruct (nth_error (st_srcs s4) k) as [es0|] eqn:E.
    - rewrite Forall_forall in Hsl, He. pose proof (nth_error_In _ _ E) as Hin0.
      destruct (sources_slim fuel _ tz _ Hf s k es0 Hreach E (Hsl _ Hin0)) as (es' & Hk' & _ & (_ & _ & K)). rewrite Hk in Hk'. injection Hk' as <-.
      rewrite K. exact (He _ Hin0).
    - exfalso. apply nth_error_None in E. pose proof (s_len _ _ _ _ _ _ _ (f_SI _ _ _ _ _ (FI_reach fuel _ tz _ Hf s Hreach))) as G.
      assert (H : (k < List.length (w_srcs (l_w s)))%nat) by (apply nth_error_Some; congruence). lia. }
  assert (B : forall l : list Z, exists b, forall x, In x l -> x <= b).
  { induction l as [|y l [b IH]]; [exists 0; intros x []|]. exists (Z.max y b). intros x [->|Hin]; [lia|]. specialize (IH x Hin). lia. }
  destruct (B (e :: flat_map (fun es => map fst (es_events es)) (w_srcs (l_w s)))) as [b Hbnd].
  destruct (B (msb tz b :: map m_time (queued s) ++ match l_mode s with Arming m => [m_time m] | _ => [] end)) as [T HT].
  assert (Hk : K b T s).
  { constructor; [exact I| | |].
    - rewrite Forall_forall in *. intros es Hin. split; [exists e; split; [apply Hen; exact Hin|apply Hbnd; left; reflexivity]|].
      intros _. apply Forall_forall. intros x Hxin. apply Hbnd. right. apply in_flat_map. exists es. split; [exact Hin|]. apply in_map. exact Hxin.
    - intros m Hin. apply HT. right. apply in_or_app. left. apply in_map. exact Hin.
    - intros m Hm. apply HT. right. apply in_or_app. right. rewrite Hm. left. reflexivity. }
  assert (HbT : msb tz b <= T) by (apply HT; left; reflexivity).
  exists T, (weight s). intros ls' s' Hi Hn Hp Hx'. split.
  - pose proof (K_exec fuel _ tz b T HbT ls' s s' Hk Hi Hn Hp Hx'). lia.
  - pose proof (inv_exec _ ls' _ _ I Hx') as I'. pose proof (J_exec _ False ls' _ _ I Hj Hx') as Hj'.
    assert (D : ended s' \/ ~ ended s') by (unfold ended; destruct (l_mode s'); [right|right|right|right|left]; try (intros [r0 E0]; discriminate); eexists; reflexivity).
    destruct D as [D|D]; [left; exact D|right].
    destruct (J_goes (sched_handler fuel (loop_cfg cfg sc s4) tz) s' T (SOut 0 0 [] None) I' Hj' D) as (l & s'' & Hst & Hl').
    exists l, s''. destruct Hl' as [->|[->|[->|[->|[->| ->]]]]]; (split; [exact Logic.I|split; [first [exact Logic.I|reflexivity]|split; [first [exact Logic.I|apply Z.le_refl]|exact Hst]]]).
Qed.
Print Assumptions C99_ends_partial.

(** The process of one "open" entry on day 20000: started at 9:29:30 it waits, calls its
    function at 9:30, finds the queue empty and returns without an error; the functions it
    owed were called.  [end_state ls]: after [ls]. *)
Definition end_calls : list ucall := [URun (Fn 2 (Some (lit "g")) true) (lit "open")].
Definition end_ns : dict str obj := [(lit "g", OUser 2)].
Definition end_at : Z := 20000 * DAY + 54000 * US.
Definition end_start (calls : list ucall) (dates : list Z) (en : option Z) : option (strat * lstate scb sworld) :=
  start 50 cfg_default scfg_default demo_tz 0 en (fun _ => demo_now) calls end_ns dates.
Definition end_state (ls : list (label scb sout)) : option (strat * lstate scb sworld) :=
  match end_start end_calls [20000] (Some end_at) with
  | Some (s4, s0) => option_map (fun s => (s4, s)) (l_exec (sched_handler 50 (loop_cfg cfg_default scfg_default s4) demo_tz) s0 ls)
  | None => None
  end.
Definition end_labels : list (label scb sout) :=
  [LAsync; LTurn (demo_ms 34170) false; LArm; LTimer; LTurn (demo_ms 34200) false; demo_done; LTurn (demo_ms 34200) false; LReturn].
Example C99_demo :
  option_map (fun x => (List.length (queued (snd x)), l_mode (snd x))) (end_state []) = Some (1%nat, Idle) /\
  option_map (fun x => let '(s4, s) := x in (l_mode s, l_raised s, w_hung (l_w s), calls_of 0 (invoked s4 (l_w s)))) (end_state end_labels) =
    Some (Returned None, [], false, [(20000 * DAY + 34200 * US, Some (OUser 2))]) /\
  Forall ok_label end_labels /\ Forall untold end_labels.
Proof. split; [vm_compute; reflexivity|]. split; [vm_compute; reflexivity|]. split; repeat constructor. Qed.

(** The same entry without an end date: after its call it waits for the next day. *)
Example C99_live_demo :
  option_map (fun x => let '(s4, s0) := x in
    option_map (fun s => (l_mode s, l_stop s, map m_time (queued s)))
      (l_exec (sched_handler 50 (loop_cfg cfg_default scfg_default s4) demo_tz) s0
        [LAsync; LTurn (demo_ms 34200) false; demo_done; LTurn (demo_ms 34200) false; LArm])) (end_start end_calls [20000] None) =
  Some (Some (Idle, false, [demo_ms (34200 + 86400)])).
Proof. vm_compute. reflexivity. Qed.

(** ** refuted *)

(** A process that has nothing to run is never woken: the check that ends the loop when
    nothing is queued is made only after something was queued. *)
Theorem C99_ends_refuted : ~ always_ends.
Proof.
  intros H. destruct (end_start [] [] (Some end_at)) as [[s4 s0]|] eqn:E; [|vm_compute in E; discriminate].
  assert (G : option_map (fun x => (List.length (st_srcs (fst x)), snd x)) (end_start [] [] (Some end_at)) = Some (0%nat, l_init (SW [] [] 0 [] false))) by (vm_compute; reflexivity).
  rewrite E in G. cbn [option_map fst snd] in G.
  assert (G1 : List.length (st_srcs s4) = 0%nat /\ s0 = l_init (SW [] [] 0 [] false)) by (split; congruence). destruct G1 as [G1 ->].
  destruct (H 50%nat cfg_default scfg_default demo_tz 0 end_at (fun _ => demo_now) [] end_ns [] s4 _ _ [] ltac:(lia) E (eq_sym G1) (Forall_nil _) eq_refl) as (T & n & A).
  destruct (A [] _ (Forall_nil _) (Forall_nil _) (Forall_nil _) eq_refl) as [_ [[r Hr]|(l & s'' & Hi & _ & _ & Hst)]]; [discriminate|].
  destruct l; try contradiction; discriminate.
Qed.
Print Assumptions C99_ends_refuted.

(** ... and stays so for ever: without signals and other threads it makes no step at all. *)
Theorem C99_silent :
  forall (C W O : Type) (h : handler C W O) s ls s',
    l_mode s = Idle -> l_async s = false -> l_timer s = None -> l_sig s = false -> l_uvstop s = false ->
    Forall by_itself ls -> l_exec h s ls = Some s' -> ls = [] /\ ~ ended s'.
Proof.
  intros C W O h s [|l ls] s' Hm Ha Ht Hs Hu Hi Hx; [injection Hx as <-; split; [reflexivity|intros [r Hr]; congruence]|].
  exfalso. pose proof (Forall_inv Hi) as H. cbn [l_exec] in Hx. destruct l; try contradiction; cbn [l_step] in Hx; rewrite Hm in Hx; rewrite ?Ha, ?Ht, ?Hs, ?Hu in Hx; discriminate.
Qed.
Print Assumptions C99_silent.

(** Two such processes: nothing scheduled; an "open" entry and an end before 9:30. *)
Example C99_silent_demo :
  let quiet := fun x : strat * lstate scb sworld => let s := snd x in (List.length (st_srcs (fst x)), l_mode s, (l_async s, l_timer s, l_sig s, l_uvstop s)) in
  option_map quiet (end_start [] [] (Some end_at)) = Some (0%nat, Idle, (false, None, false, false)) /\
  option_map quiet (end_start end_calls [20000] (Some (20000 * DAY + 34180 * US))) = Some (1%nat, Idle, (false, None, false, false)).
Proof. split; vm_compute; reflexivity. Qed.
