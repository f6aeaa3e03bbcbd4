(** C94: tasks run at their time of day also where the clock is changed for summer time.

    The statement: in every zone, a task due at local time dt runs when the clock shows dt,
    once, and tasks run in the order of their times.  Proved for times that the clock shows
    (C94_on_time_partial, C94_order_partial): the message is due at the first moment the clock
    shows dt, which is not before the process started, unless that was in the second
    showing of an hour.  A time skipped by the clock is run as much later as the clock jumps
    (C94_skipped).  False in general (C94_refuted): skipped times run under another time and
    out of order; and a process started in a repeated hour runs at once the tasks still to
    come in it (C94_restart_refuted). *)
From Coq Require Import Lia.
From Verif Require Import PyBase MTime MZone SZone LZone.
Open Scope Z_scope.

Lemma US_pos : 0 < US. Proof. reflexivity. Qed.
Lemma ms_whole off dt : dt mod US = 0 -> z_dt_to_ms off dt * 1000 = mktime off (dt / US) * US /\ z_timestamp off dt = mktime off (dt / US) * US.
Proof.
  intro W. unfold z_dt_to_ms, z_timestamp. rewrite W, !Z.add_0_r. split; [|reflexivity]. unfold US. replace (mktime off (dt / 1000000) * 1000000) with (mktime off (dt / 1000000) * 1000 * 1000) by lia.
  rewrite Z.quot_mul by lia. reflexivity.
Qed.
Lemma clock_whole off u : z_clock off (u * US) = localtime off u * US.
Proof. unfold z_clock. rewrite Z.div_mul, Z.mod_mul by (unfold US; lia). lia. Qed.
Lemma whole dt : dt mod US = 0 -> dt = dt / US * US.
Proof. intro W. pose proof (Z.div_mod dt US ltac:(unfold US; lia)). lia. Qed.
Lemma clock_shows off us dt : dt mod US = 0 -> z_clock off us = dt -> shows_at off (dt / US) (us / US) /\ us mod US = 0.
Proof.
  intros W E. unfold z_clock, localtime in E. pose proof (Z.mod_pos_bound us US US_pos). unfold shows_at. subst dt.
  rewrite (Z.add_comm _ (us mod US)), Z.mod_add, Z.mod_small in W by (unfold US in *; lia). rewrite W, Z.add_0_r, Z.div_mul by (unfold US; lia). split; reflexivity.
Qed.

(** [w0]: when the process starts, in microseconds since the epoch *)
Theorem C94_on_time_partial :
  forall off dt w0, zone_ok off -> dt mod US = 0 -> shown off (dt / US) ->
    z_clock off w0 <= dt -> (forall v, shows_at off (localtime off (w0 / US)) v -> w0 / US <= v) ->
    let ms := z_dt_to_ms off dt in
    w0 <= ms * 1000 /\ z_clock off (ms * 1000) = dt /\ z_ms_to_dt off ms = dt /\ (forall us, z_clock off us = dt -> ms * 1000 <= us).
Proof.
  intros off dt w0 ZO W S L F. cbv zeta. unfold z_ms_to_dt. destruct (ms_whole off dt W) as [-> _].
  destruct (mktime_shown off ZO _ S) as [H1 H2]. set (t := dt / US) in *.
  assert (E : z_clock off (mktime off t * US) = dt) by (rewrite clock_whole; unfold localtime; unfold shows_at in H1; rewrite H1; symmetry; apply whole, W).
  assert (Q : localtime off (w0 / US) <= t /\ (localtime off (w0 / US) = t -> w0 mod US = 0)).
  { unfold z_clock in L. pose proof (Z.mod_pos_bound w0 US US_pos). pose proof (whole dt W). fold t in H0. unfold US in *. lia. }
  repeat split; [|exact E|exact E|].
  - destruct Q as [Q1 Q2]. pose proof (start_order off ZO (w0 / US) t F Q1) as M. pose proof (Z.div_mod w0 US ltac:(unfold US; lia)) as D.
    destruct (Z.eq_dec (mktime off t) (w0 / US)) as [X|X].
    + unfold shows_at in H1. rewrite X in H1. specialize (Q2 H1). rewrite X. lia.
    + pose proof (Z.mod_pos_bound w0 US US_pos). unfold US in *. lia.
  - intros us C. destruct (clock_shows off us dt W C) as [C1 C2]. specialize (H2 _ C1). pose proof (Z.div_mod us US ltac:(unfold US; lia)). unfold US in *. lia.
Qed.
Print Assumptions C94_on_time_partial.
Theorem C94_order_partial :
  forall off dt1 dt2, zone_ok off -> dt1 mod US = 0 -> dt2 mod US = 0 -> shown off (dt1 / US) -> shown off (dt2 / US) ->
    (dt1 < dt2 <-> z_dt_to_ms off dt1 < z_dt_to_ms off dt2).
Proof.
  intros off dt1 dt2 ZO W1 W2 S1 S2. destruct (ms_whole off dt1 W1) as [E1 _]. destruct (ms_whole off dt2 W2) as [E2 _].
  pose proof (whole dt1 W1). pose proof (whole dt2 W2). pose proof (mktime_order off ZO (dt1 / US) (dt2 / US)) as A. pose proof (mktime_order off ZO (dt2 / US) (dt1 / US)) as B.
  unfold US in *. split; intro L.
  - specialize (A ltac:(lia) S1 S2). lia.
  - destruct (Z_lt_le_dec dt1 dt2) as [X|X]; [exact X|]. destruct (Z.eq_dec dt1 dt2) as [Y|Y]; [subst; lia|]. specialize (B ltac:(lia) S2 S1). lia.
Qed.
Print Assumptions C94_order_partial.
(** the clock jumps by [n] seconds over [dt] *)
Theorem C94_skipped :
  forall off dt u t0 n, zone_ok off -> dt mod US = 0 -> jump off u t0 n -> t0 <= dt / US < t0 + n ->
    z_ms_to_dt off (z_dt_to_ms off dt) = dt + n * US /\ z_dt_to_ms off dt * 1000 = (u + (dt / US - t0)) * US.
Proof.
  intros off dt u t0 n ZO W J R. destruct (mktime_gap off ZO u t0 n _ J R) as [M E]. unfold z_ms_to_dt. destruct (ms_whole off dt W) as [-> _].
  split; [|rewrite M; reflexivity]. rewrite clock_whole, E. pose proof (whole dt W). unfold US in *. lia.
Qed.
Print Assumptions C94_skipped.
(** with an offset that does not change, MTime's functions *)
Theorem C94_fixed :
  forall k dt ms, z_dt_to_ms (fun _ => k) dt = dt_to_milliseconds (k * US) dt /\ z_ms_to_dt (fun _ => k) ms = milliseconds_to_dt (k * US) ms.
Proof.
  intros k dt ms. assert (M : forall t, mktime (fun _ => k) t = t - k).
  { intro t. unfold mktime, localtime. replace (t + k - t) with k by lia. replace (t - k + k) with t by lia. rewrite Z.eqb_refl.
    replace (t - k - MAX_FOLD + k - (t - k - MAX_FOLD)) with k by lia. rewrite Z.eqb_refl. reflexivity. }
  unfold z_dt_to_ms, dt_to_milliseconds, z_timestamp, z_ms_to_dt, milliseconds_to_dt, z_clock, localtime. rewrite M.
  pose proof (Z.div_mod dt US ltac:(unfold US; lia)). pose proof (Z.div_mod (ms * 1000) US ltac:(unfold US; lia)). split; [f_equal; unfold US in *; lia|unfold US in *; lia].
Qed.
Print Assumptions C94_fixed.

(** ** The statement in full is false *)
(** New York in 2024: 2024-03-10 07:00 UTC and 2024-11-03 06:00 UTC *)
Definition spring : Z := 1710054000.
Definition autumn : Z := 1730613600.
Definition ny (u : Z) : Z := if u <? spring then - 18000 else if u <? autumn then - 14400 else - 18000.
Lemma ny_ok : zone_ok ny.
Proof.
  split; [intro u; unfold ny; destruct (u <? spring), (u <? autumn); lia|]. intro x. destruct (Z_lt_le_dec (x + 432000) autumn) as [L|L].
  - exists spring, (- 18000), (- 14400). repeat split; try lia. intros u U. unfold ny. destruct (u <? spring); [reflexivity|]. destruct (Z.ltb_spec u autumn); lia.
  - exists autumn, (- 14400), (- 18000). repeat split; try lia. intros u U. unfold ny. destruct (Z.ltb_spec u spring); [unfold spring, autumn in *; lia|reflexivity].
Qed.
(** seconds of local time: 2024-03-10 00:00, 2024-11-03 00:00 *)
Definition mar10 : Z := 1710028800.
Definition nov3 : Z := 1730592000.
Definition at_ (day h m : Z) : Z := (day + h * 3600 + m * 60) * US.
Definition all_on_time : Prop := forall off dt, zone_ok off -> dt mod US = 0 -> z_ms_to_dt off (z_dt_to_ms off dt) = dt.
Definition all_in_order : Prop := forall off dt1 dt2, zone_ok off -> dt1 mod US = 0 -> dt2 mod US = 0 -> dt1 < dt2 -> z_dt_to_ms off dt1 <= z_dt_to_ms off dt2.
Theorem C94_refuted : ~ all_on_time /\ ~ all_in_order.
Proof.
  split; intro H.
  - specialize (H ny (at_ mar10 2 30) ny_ok eq_refl). vm_compute in H. discriminate H.
  - specialize (H ny (at_ mar10 2 30) (at_ mar10 3 15) ny_ok eq_refl eq_refl ltac:(reflexivity)). vm_compute in H. exact (H eq_refl).
Qed.
Print Assumptions C94_refuted.
(** started when the clock shows a time not after the task's, the task is not due before *)
Definition never_before_start : Prop :=
  forall off dt w0, zone_ok off -> dt mod US = 0 -> shown off (dt / US) -> z_clock off w0 <= dt -> w0 <= z_dt_to_ms off dt * 1000.
Theorem C94_restart_refuted : ~ never_before_start.
Proof.
  (* started at 01:30 of the second showing, the task of 01:40 was due 50 minutes before *)
  intro H. specialize (H ny (at_ nov3 1 40) ((autumn + 1800) * US) ny_ok eq_refl).
  assert (S : shown ny (at_ nov3 1 40 / US)) by (exists (autumn + 2400); vm_compute; reflexivity).
  specialize (H S). assert (L : z_clock ny ((autumn + 1800) * US) <= at_ nov3 1 40) by (vm_compute; discriminate). specialize (H L). vm_compute in H. exact (H eq_refl).
Qed.
Print Assumptions C94_restart_refuted.

(** ** Concrete cases *)
Example C94_demo :
  shown ny (at_ nov3 1 40 / US) /\ z_ms_to_dt ny (z_dt_to_ms ny (at_ nov3 1 40)) = at_ nov3 1 40 /\
  z_dt_to_ms ny (at_ nov3 1 40) = (autumn - 1200) * 1000 /\
  z_dt_to_ms ny (at_ nov3 1 59) + 61 * 60 * 1000 = z_dt_to_ms ny (at_ nov3 2 0) /\
  jump ny spring (mar10 + 7200) 3600 /\ z_ms_to_dt ny (z_dt_to_ms ny (at_ mar10 2 30)) = at_ mar10 3 30.
Proof. split; [exists (autumn - 1200); vm_compute; reflexivity|]. vm_compute. repeat split. Qed.
