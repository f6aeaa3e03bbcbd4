(** C128: errors that are no Exceptions (loop.py:96-105). *)
From Coq Require Import Permutation.
From Verif Require Import PyBase PyStr MTime MTimeExpr MEventSource MQueue MLoop MSched MEscape
  SQueue LQueue LLoop LEventSource2 LSched LSched2 LSched3 LEscape TSched.
Open Scope Z_scope.

(** C128: whatever leaves the loop's callbacks, no callback is started before its time. *)
Theorem C128_never_early :
  forall (C W O : Type) (h : handler C W O) w ls (s : lstate C W),
    e_exec h (l_init w) ls = Some s ->
    forall m now, In (m, now) (l_log s) -> m_time m <= now.
Proof.
  intros C W O h w ls s H. assert (Hi : einv s) by (eapply einv_exec; [apply inv_async, inv_init|exact H]).
  apply (i_log _ Hi).
Qed.
Print Assumptions C128_never_early.

(** C128: such an error is not what run() ends with: that is the first Exception a callback
    raised, if any. *)
Theorem C128_untold :
  forall (C W O : Type) (h : handler C W O) w ls (s : lstate C W) r,
    e_exec h (l_init w) ls = Some s -> l_mode s = Returned r -> r = hd_error (l_raised s).
Proof.
  intros C W O h w ls s r H Hm. assert (Hi : einv s) by (eapply einv_exec; [apply inv_async, inv_init|exact H]).
  destruct (i_returned _ Hi r Hm) as [-> _]. cbn.
  destruct (i_raised _ Hi) as [[H1 H2]|(e & H1 & H2 & _)]; cbn in *; rewrite H1, H2; reflexivity.
Qed.
Print Assumptions C128_untold.

Lemma acts_keep {C W} (acts : list (act C)) : forall s : lstate C W,
  ~ In AStop acts ->
  let s' := fold_left (fun st a => do_act a st) acts s in
  l_stop s' = l_stop s /\ l_uvstop s' = l_uvstop s /\ l_exc s' = l_exc s /\ l_raised s' = l_raised s.
Proof.
  induction acts as [|a acts IH]; intros s Hn; cbn [fold_left]; [auto|].
  destruct (IH (do_act a s)) as (H1 & H2 & H3 & H4); [intros Hin; apply Hn; right; exact Hin|].
  destruct a; [|exfalso; apply Hn; left; reflexivity]. auto.
Qed.

(** C128: the process does not end by it: the loop is idle again, not stopped, with no
    error recorded. *)
Theorem C128_alive :
  forall (C W O : Type) (h : handler C W O) (s s' : lstate C W) o,
    (forall c o w, ~ In AStop (snd (fst (h c o w)))) ->
    e_step h s (EEscape o) = Some s' ->
    l_mode s' = Idle /\ l_stop s' = l_stop s /\ l_uvstop s' = l_uvstop s /\
    l_exc s' = l_exc s /\ l_raised s' = l_raised s.
Proof.
  intros C W O h s s' o Hn H. cbn [e_step] in H. destruct (l_mode s) eqn:Hm; try discriminate.
  unfold escape in H. specialize (Hn (m_cb m) o (l_w s)).
  destruct (h (m_cb m) o (l_w s)) as [[w' acts] [x|]]; [|discriminate]. injection H as <-.
  destruct (acts_keep acts (set_w w' s) Hn) as (H1 & H2 & H3 & H4). cbn in *. auto.
Qed.
Print Assumptions C128_alive.

(** a step nobody outside the loop's thread makes *)
Definition own {C O} (l : elabel C O) : Prop :=
  match l with ELoop (LOther _) | ELoop LSigArrive => False | _ => True end.

(** C128: if the callback pushed nothing and neither notification nor timer is outstanding,
    the loop does nothing any more, whatever is queued and however late it is, until another
    thread or a signal comes. *)
Theorem C128_asleep :
  forall (C W O : Type) (h : handler C W O) w ls (s s' : lstate C W) m o w' x,
    e_exec h (l_init w) ls = Some s -> l_mode s = Running m ->
    l_stop s = false -> l_async s = false -> l_timer s = None -> l_sig s = false ->
    h (m_cb m) o (l_w s) = (w', [], Some x) ->
    e_step h s (EEscape o) = Some s' ->
    queued s' = queued s /\
    forall ls' s'', Forall own ls' -> e_exec h s' ls' = Some s'' -> ls' = [] /\ s'' = s'.
Proof.
  intros C W O h w ls s s' m o w' x H Hm Hs Ha Ht Hg Hh H'.
  assert (Hi : einv s) by (eapply einv_exec; [apply inv_async, inv_init|exact H]).
  assert (Hu : l_uvstop s = false).
  { destruct (l_uvstop s) eqn:E; [|reflexivity]. pose proof (i_uvstop _ Hi E) as E2. cbn in E2. congruence. }
  cbn [e_step] in H'. rewrite Hm in H'. unfold escape in H'. rewrite Hh in H'. injection H' as <-. cbn [fold_left].
  split; [reflexivity|]. intros ls' s'' Ho Hx. destruct ls' as [|l ls']; [injection Hx as <-; auto|].
  exfalso. inversion Ho as [|? ? Ho1 _]; subst. cbn [e_exec] in Hx.
  destruct l as [l|o']; cbn [e_step] in Hx; [|discriminate].
  destruct l; cbn in Ho1, Hx; try contradiction; try discriminate; rewrite ?Ha, ?Ht, ?Hg, ?Hu in Hx; discriminate.
Qed.
Print Assumptions C128_asleep.

(** C128, full statement: an error a callback raises ends the process with this error, or at
    least leaves the loop with a wake-up while something is queued (C05, C06):
      forall h w ls s, e_exec h (l_init w) ls = Some s -> l_mode s = Idle -> l_stop s = false ->
        queued s <> [] -> l_async s = true \/ l_timer s <> None.
    It is false: after the raise the loop sleeps with a message that is due. *)
Theorem C128_ends_refuted :
  exists (h : handler unit unit unit) w ls s,
    e_exec h (l_init w) (ls ++ [EEscape tt]) = Some s /\
    l_mode s = Idle /\ l_stop s = false /\ l_exc s = None /\ l_async s = false /\ l_timer s = None /\
    exists m m' now, In (m', now) (l_log s) /\ In m (queued s) /\ m_time m <= now.
Proof.
  exists (fun _ _ w => (w, [], Some (UserExn 0))), tt,
    [ELoop (LOther (APush 1 0 tt)); ELoop (LOther (APush 2 0 tt)); ELoop LAsync; ELoop (LTurn 5 false)].
  eexists. split; [vm_compute; reflexivity|]. repeat split.
  eexists. eexists. exists 5. split; [left; reflexivity|]. split; [left; reflexivity|]. cbn. lia.
Qed.
Print Assumptions C128_ends_refuted.

(** C128: a message from another thread wakes it, and what is due is called then. *)
Theorem C128_woken :
  forall (C W O : Type) (h : handler C W O) w ls (s : lstate C W) now ex,
    e_exec h (l_init w) ls = Some s -> l_mode s = Idle -> l_stop s = false -> l_async s = true ->
    (exists m, In m (queued s) /\ m_time m <= now) ->
    exists m s2, e_exec h s [ELoop LAsync; ELoop (LTurn now ex)] = Some s2 /\ l_mode s2 = Running m /\
      In m (queued s) /\ l_log s2 = l_log s ++ [(m, now)] /\
      (forall m', In m' (queued s) -> m_time m <= m_time m').
Proof.
  intros C W O h w ls s now ex H Hm Hs Ha (m0 & Hin & Hle).
  assert (Hi : einv s) by (eapply einv_exec; [apply inv_async, inv_init|exact H]).
  destruct (einv_heap s Hi) as [Hq Hk].
  cbn [e_exec e_step l_step]. rewrite Hm, Ha. cbn [e_exec e_step l_step set_mode l_mode].
  unfold check_turn. cbn [set_mode set_async l_stop l_q]. rewrite Hs.
  destruct (pop_q_ok (l_q s) Hq Hk) as [[Eq _]|(m & q' & Ep & _ & _ & Hp & Hmin)].
  { unfold queued in Hin. rewrite Eq in Hin. destruct Hin. }
  rewrite Ep. assert (Hfirst : forall m', In m' (queued s) -> m_time m <= m_time m').
  { intros m' Hin'. apply key_nlt_time, Hmin. exact Hin'. }
  specialize (Hfirst m0 Hin) as Hm0. destruct (Z.ltb_spec now (m_time m)); [lia|].
  exists m. eexists. split; [reflexivity|]. split; [reflexivity|]. split; [|split; [reflexivity|exact Hfirst]].
  unfold queued. apply (Permutation_in _ (Permutation_sym Hp)). left. reflexivity.
Qed.
Print Assumptions C128_woken.

(** C128: a signal ends the sleeping process, and run() returns as if nothing had happened. *)
Theorem C128_stopped :
  forall (C W O : Type) (h : handler C W O) (s : lstate C W) now,
    l_mode s = Idle -> l_stop s = false -> l_exc s = None ->
    exists s', e_exec h s [ELoop LSigArrive; ELoop LSignal; ELoop LAsync; ELoop (LTurn now false); ELoop LReturn] = Some s' /\
      l_mode s' = Returned None /\ l_log s' = l_log s.
Proof.
  intros C W O h s now Hm Hs He.
  set (s1 := set_sig true s). set (s2 := set_async true (set_stop true (set_sig false s1))).
  set (s3 := set_mode Checking (set_async false s2)). set (s4 := set_uvstop true (set_mode Idle s3)).
  assert (E1 : l_step h s LSigArrive = Some s1) by (unfold l_step; rewrite Hm; reflexivity).
  assert (E2 : l_step h s1 LSignal = Some s2).
  { unfold l_step. change (l_mode s1) with (l_mode s). rewrite Hm. change (l_sig s1) with true.
    unfold do_stop. change (l_stop (set_sig false s1)) with (l_stop s). rewrite Hs. reflexivity. }
  assert (E3 : l_step h s2 LAsync = Some s3).
  { unfold l_step. change (l_mode s2) with (l_mode s). rewrite Hm. reflexivity. }
  assert (E4 : l_step h s3 (LTurn now false) = Some s4) by reflexivity.
  assert (E5 : l_step h s4 LReturn = Some (set_mode (Returned None) s4)).
  { unfold l_step. change (l_mode s4) with (@Idle C). change (l_exc s4) with (l_exc s). rewrite He. reflexivity. }
  cbn [e_exec e_step]. rewrite E1, E2, E3, E4, E5.
  eexists. split; [reflexivity|]. split; reflexivity.
Qed.
Print Assumptions C128_stopped.

(** C128: the times of the function that raised are over: its source has no message any more
    (event_source.py:214 is not reached), so it is never called again, also when the loop
    goes on with the others. *)
Theorem C128_never_again :
  forall fuel cfg tz srcs dates s0 ls s m sid k o s1 ls' s2,
    (0 < fuel)%nat -> length dates = length srcs -> boot fuel cfg tz srcs dates = Some s0 ->
    Forall ok_elabel ls -> e_exec (sched_handler fuel cfg tz) s0 ls = Some s ->
    l_mode s = Running m -> m_cb m = CSched sid k ->
    e_step (sched_handler fuel cfg tz) s (EEscape o) = Some s1 ->
    Forall ok_elabel ls' -> e_exec (sched_handler fuel cfg tz) s1 ls' = Some s2 ->
    emitted k (l_w s2) = emitted k (l_w s1).
Proof.
  intros fuel cfg tz srcs dates s0 ls s m sid k o s1 ls' s2 Hf Hl Hb Hok Hex Hm Hc He Hok' Hex'.
  assert (F : FI fuel cfg tz srcs s0).
  { apply FI_reach; [exact Hf|]. exists dates, s0, []. split; [exact Hl|]. split; [exact Hb|]. split; [constructor|reflexivity]. }
  pose proof (f_inv _ _ _ _ _ F) as Hi0. pose proof (s_uniq _ _ _ _ _ _ _ (f_SI _ _ _ _ _ F)) as Hu0.
  destruct (exec_srcs fuel cfg tz ls s0 s (inv_async _ Hi0) Hok Hex) as [(d & Hp) _].
  assert (Hi : einv s) by (eapply einv_exec; [exact (inv_async _ Hi0)|exact Hex]).
  assert (Hu : NoDup (srcs_of (msgs s))).
  { apply (Permutation_NoDup Hp) in Hu0. apply NoDup_app_r in Hu0. exact Hu0. }
  assert (Hn : ~ In k (srcs_of (queued s))).
  { unfold msgs, hand in Hu. rewrite Hm in Hu. unfold srcs_of in Hu. cbn [app flat_map] in Hu. unfold src_of at 1 in Hu.
    rewrite Hc in Hu. cbn [app] in Hu. inversion Hu; assumption. }
  destruct (exec_srcs fuel cfg tz ls' s1 s2 (einv_step _ _ _ _ Hi He) Hok' Hex') as [_ Hem].
  apply Hem. cbn [e_step] in He. rewrite Hm in He. unfold escape in He.
  destruct (sched_handler fuel cfg tz (m_cb m) o (l_w s)) as [[w' acts] [x|]] eqn:Hh; [|discriminate].
  injection He as <-. destruct (ended_srcs fuel cfg tz s m o w' acts _ Hi Hm Hh) as [Hq _].
  destruct (handler_shape fuel cfg tz _ _ _ _ _ _ Hh) as (_ & [Hs|(sid' & k' & _ & Hx & _)] & _); [|discriminate].
  intros Hin. apply Hn. rewrite Hs in Hq. cbn [app] in Hq. apply (Permutation_in _ Hq). exact Hin.
Qed.
Print Assumptions C128_never_again.

(** The process of TSched's demo, with 9:30 of both sources long past: the first callback
    raises such an error. *)
Definition esc_out : sout := SOut 10 10 [] (Some (UserExn 3)).
Definition esc_run : list (elabel scb sout) :=
  map (@ELoop scb sout) [LAsync; LTurn 0 false; LArm; LTimer; LTurn demo_now false].
Definition esc_on (ls : list (elabel scb sout)) : option (lstate scb sworld) :=
  match boot 10 cfg_default 0 demo_srcs [10; 10] with
  | Some s0 => e_exec (sched_handler 10 cfg_default 0) s0 ls
  | None => None
  end.

(** it sleeps with the other source's message due ... *)
Example C128_demo_asleep :
  match esc_on esc_run with
  | Some s => match l_mode s with
              | Running m => snd (fst (sched_handler 10 cfg_default 0 (m_cb m) esc_out (l_w s))) = []
              | _ => False
              end /\
              l_stop s = false /\ l_async s = false /\ l_timer s = None /\ l_sig s = false
  | None => False
  end /\
  match esc_on (esc_run ++ [EEscape esc_out]) with
  | Some s => l_mode s = Idle /\ map m_time (queued s) = [10 * 86400000 + 34200000] /\ l_raised s = []
  | None => False
  end.
Proof. vm_compute. repeat split. Qed.

(** ... another thread wakes it: the other source is served to its end, the first never
    again; run() ends normally *)
Example C128_demo_never_again :
  match esc_on (esc_run ++ [EEscape esc_out; ELoop (LOther (APush 0 0 COther)); ELoop LAsync;
                            ELoop (LTurn demo_now false); ELoop (LDone out0);
                            ELoop (LTurn demo_now false); ELoop (LDone out0);
                            ELoop (LTurn demo_now false); ELoop (LDone out0);
                            ELoop (LTurn demo_now false); ELoop LReturn]) with
  | Some s => l_mode s = Returned None /\
              map (fun x => (fst x, fst (snd x))) (w_emits (l_w s)) =
                [(1%nat, 10 * DAY + 34200 * US); (0%nat, 10 * DAY + 34200 * US); (0%nat, 11 * DAY + 34200 * US)]
  | None => False
  end.
Proof. vm_compute. split; reflexivity. Qed.
