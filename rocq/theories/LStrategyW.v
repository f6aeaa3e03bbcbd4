(** Witnesses and negative results for strategies. *)
From Coq Require Import Permutation Sorted.
From Verif Require Import PyBase PyStr LStr MTime MTimeExpr MEventSource SEvent SExpr
  LEventSource LTimeExpr LEventSource2 MBus SBus LBus MStrategy SStrategy LStrategy LStrategy2.
Open Scope Z_scope.

Lemma trunc_mod t : trunc t mod US = 0.
Proof. unfold trunc. apply Z_mod_mult. Qed.

Lemma subsecond_missed fuel cfg sc st now d s ps :
  cf_hist cfg = false -> d_time d = lit "every_minute" -> (1441 <= fuel)%nat ->
  mp_in_force sc s = raw_of ps -> Forall (fun p => tod_ok (fst p) /\ tod_ok (snd p)) ps ->
  exists s' es tasks, schedule_one fuel cfg sc st None now d s = GOk s' /\ st_srcs s' = st_srcs s ++ [es] /\
    tasks_of (cf_mp cfg) (es_daily es) tasks /\
    forall p, In p ps -> fst p mod US <> 0 -> ~ In (fst p) (map fst tasks).
Proof.
  intros Hh Hd Hf Hmp Hps. destruct (every_minute_source fuel cfg sc st now d s ps Hh Hd Hf Hmp Hps) as (s' & es & ls & H1 & H2 & H3 & H4 & H5 & H5' & H6 & H7).
  exists s', es, (map (fun t => (t, task_cls (d_name d) (st_count s) 1)) (map trunc (concat ls))).
  split; [exact H1|]. split; [exact H2|]. split; [exact H7|]. intros p _ Hm Hin. rewrite map_map in Hin. cbn [fst] in Hin.
  rewrite map_id in Hin. apply in_map_iff in Hin as (t & E & _). rewrite <- E in Hm. apply Hm, trunc_mod.
Qed.

Lemma no_minutes_hang fuel cfg sc st now d s ps :
  cf_hist cfg = false -> 0 < cf_count cfg -> d_time d = lit "every_minute" -> (1441 <= fuel)%nat ->
  mp_in_force sc s = raw_of ps -> Forall (fun p => tod_ok (fst p) /\ tod_ok (snd p) /\ snd p < fst p) ps ->
  exists s' es, schedule_one fuel cfg sc st None now d s = GOk s' /\ st_srcs s' = st_srcs s ++ [es] /\
    forall f today, peek_next_event f cfg today es = GFuel /\ get_next_event f cfg today es = GFuel.
Proof.
  intros Hh Hc Hd Hf Hmp Hps.
  assert (Hp2 : Forall (fun p => tod_ok (fst p) /\ tod_ok (snd p)) ps) by (eapply Forall_impl; [|exact Hps]; intros p (A & B & _); auto).
  destruct (es_setup_live cfg now st Hh) as (es0 & E0 & H1 & H2 & H3 & H4 & H5).
  destruct (periods_entries_ok (cf_mp cfg) fuel MINUTE (dt_date now) ltac:(reflexivity) ps) as (ls & ent & E1 & Hls & He).
  { eapply Forall_impl; [|exact Hp2]. intros p [Ha Hb]. split; [exact Ha|]. split; [exact Hb|]. apply minute_fuel; assumption. }
  assert (concat ls = []).
  { clear - Hps Hls. induction Hls as [|p l ps ls Hl Hls IH]; [reflexivity|]. inversion Hps as [|? ? (_ & _ & Hlt) Hps']; subst.
    cbn [concat]. rewrite (IH Hps'), app_nil_r. destruct l as [|x l]; [reflexivity|]. exfalso.
    destruct (proj1 (proj2 Hl x) (or_introl eq_refl)) as (k & Hk & -> & Hle). unfold MINUTE, US in Hle. nia. }
  rewrite H in He. cbn [map] in He. inversion He; subst ent.
  eexists _, es0. split.
  { unfold schedule_one. rewrite E0, Hd. change (str_eqb (lit "every_minute") (lit "every_minute")) with true. cbn match.
    unfold mp_in_force in Hmp. rewrite Hmp, E1. reflexivity. }
  split; [reflexivity|]. apply empty_live_never; try assumption; [congruence|auto].
Qed.

Lemma nameless_witness : exists f s, st_allowed s = false /\
  forall t fuel sc st en, ustep fuel sc st en (URun f t) s = (GErr AttributeError, s).
Proof. exists (Fn 0 None true), (strat_new []). split; [reflexivity|]. intros. reflexivity. Qed.

Lemma init_raises fuel cfg sc st en now ns x : exists s',
  setup fuel cfg sc st en now true [] (Some x) (strat_new ns) = (GErr x, s') /\
  forall f n t, f_name f = Some n -> f_callable f = true ->
    exists s'', run_daily f t s' = (Ok tt, s'') /\ st_sched s'' = st_sched s' ++ [Desc n (time_dict t)].
Proof.
  eexists. split; [reflexivity|]. intros f n t Hn Hc. unfold run_daily. rewrite Hn, Hc. eexists. split; reflexivity.
Qed.

Lemma same_name_witness : exists calls ns s4 id,
  setup 10 cfg_default scfg_default 0 None (fun _ => 0) true calls None (strat_new ns) = (GOk tt, s4) /\
  nth_error (asked calls) 0 = Some (lit "f", id, lit "open") /\ id <> 2%nat /\
  forall d, nth_error (st_sched s4) 0 = Some d -> MBus.calls inst (cls_of 0 d) (st_bus s4) = [CbUser 0 (Some (OUser 2))].
Proof.
  exists [URun (Fn 1 (Some (lit "f")) true) (lit "open"); UBind (lit "f") (OUser 2); URun (Fn 2 (Some (lit "f")) true) (lit "close")],
    [(lit "f", OUser 1)]. eexists _, 1%nat. split; [vm_compute; reflexivity|]. split; [reflexivity|]. split; [discriminate|].
  intros d H. injection H as <-. vm_compute. reflexivity.
Qed.
Lemma lambda_witness : exists calls ns s4,
  setup 10 cfg_default scfg_default 0 None (fun _ => 0) true calls None (strat_new ns) = (GOk tt, s4) /\
  nth_error (asked calls) 0 = Some (lit "<lambda>", 1%nat, lit "open") /\
  forall d, nth_error (st_sched s4) 0 = Some d -> MBus.calls inst (cls_of 0 d) (st_bus s4) = [CbUser 0 None].
Proof.
  exists [URun (Fn 1 (Some (lit "<lambda>")) true) (lit "open")], [(lit "g", OUser 1)]. eexists. split; [vm_compute; reflexivity|]. split; [reflexivity|].
  intros d H. injection H as <-. vm_compute. reflexivity.
Qed.
Lemma api_name_witness : exists calls ns s4,
  setup 10 cfg_default scfg_default 0 None (fun _ => 0) true calls None (strat_new ns) = (GOk tt, s4) /\
  dget (lit "order") ns = Some (OUser 1) /\
  nth_error (asked calls) 0 = Some (lit "order", 1%nat, lit "open") /\
  forall d, nth_error (st_sched s4) 0 = Some d -> MBus.calls inst (cls_of 0 d) (st_bus s4) = [CbUser 0 (Some (OApi (lit "order")))].
Proof.
  exists [URun (Fn 1 (Some (lit "order")) true) (lit "open")], [(lit "order", OUser 1)]. eexists. split; [vm_compute; reflexivity|].
  split; [reflexivity|]. split; [reflexivity|]. intros d H. injection H as <-. vm_compute. reflexivity.
Qed.

Lemma night_gap fuel sc st en i now o s step mp :
  interval_in_force sc o = Ok step -> period_in_force sc o = [] -> 0 < step -> step mod US = 0 ->
  DAY / step + 1 < Z.of_nat fuel ->
  exists s' es tasks, setup_timer fuel sc st en i now o s = (GOk tt, s') /\ st_srcs s' = st_srcs s ++ [es] /\
    tasks_of mp (es_daily es) tasks /\
    forall lo hi S, stream_ok st en tasks lo hi S ->
      forall x c, In (x, c) S -> trunc (dt_time now) + step <= dt_time x.
Proof.
  intros Hi Hp Hs Hm Hf. destruct (timer_no_period fuel sc st en i now o s step mp Hi Hp Hs Hf) as (s' & es & l & H1 & H2 & H3 & H4 & H4' & H5 & H6 & H7 & H8).
  exists s', es, (map (fun t => (t, sync_cls)) (map trunc l)). split; [exact H1|]. split; [exact H2|]. split; [exact H8|].
  pose proof (trunc_tod now).
  intros lo hi S HS x c Hin. apply (stream_times st en _ lo hi S (trunc (dt_time now) + step) HS) with (c := c); [|lia|exact Hin].
  assert (Hw : (trunc (dt_time now) + step) mod US = 0) by (rewrite Z.add_mod, trunc_mod, Hm by discriminate; reflexivity).
  rewrite (steps_whole step _ _ l Hw Hm H7).
  apply Forall_forall. intros [y c'] Hy. apply in_map_iff in Hy as (t & E & Ht). injection E as <- <-. cbn [fst].
  apply (proj2 H7) in Ht as (k & Hk & -> & Hle). assert (86399 * US < DAY) by reflexivity. nia.
Qed.

Lemma half_second_witness : exists s' es, setup_timer 100 scfg_default 0 None 0 (20000 * DAY + 86390 * US)
    (SOpts None None true None None (Some (Ok 500000)) None) (strat_new []) = (GOk tt, s') /\
  st_srcs s' = [es] /\
  firstn 4 (map fst (es_daily es)) = [lit "23:59:50"; lit "23:59:51"; lit "23:59:51"; lit "23:59:52"].
Proof. eexists _, _. split; [vm_compute; reflexivity|]. split; [reflexivity|]. vm_compute. reflexivity. Qed.

Lemma two_calls_witness : exists k e s4,
  setup 100 cfg_default scfg_default 0 None (fun _ => 0) true [UOpt k e; UOpt k e] None (strat_new []) = (GOk tt, s4) /\
  st_acc s4 = Some 1%nat /\ length (st_srcs s4) = 2%nat /\
  MBus.calls inst sync_cls (st_bus s4) = [CbBal 0; CbOrd 0; CbBal 1; CbOrd 1].
Proof.
  exists (SOpts None None true None None None None), (SEnv (Ok tt) (Ok tt) (Ok tt) (86300 * US)). eexists.
  split; [vm_compute; reflexivity|]. split; [reflexivity|]. split; vm_compute; reflexivity.
Qed.
