(** C69: waiting for the lock of an order file. *)
From Verif Require Import PyBase MLock SLock.
Open Scope Z_scope.

Lemma wait_after tmo start pre l : waits tmo start pre ->
  wait_lock tmo start (pre ++ l) = (fst (wait_lock tmo start l), (length pre + snd (wait_lock tmo start l))%nat).
Proof.
  induction 1 as [|a pre (now & -> & H) _ IH]; cbn [app wait_lock]; [destruct (wait_lock tmo start l); reflexivity|].
  replace (tmo <=? now - start) with false by (symmetry; apply Z.leb_gt; exact H). rewrite IH. reflexivity.
Qed.
(** every run is a wait and then its end *)
Lemma wait_split tmo start l : exists pre rest, l = pre ++ rest /\ waits tmo start pre /\
  match rest with
  | [] | AtFree :: _ | AtFail _ :: _ => True
  | AtBusy now :: _ => tmo <= now - start
  end.
Proof.
  induction l as [|a l (pre & rest & -> & H & E)]; [exists [], []; repeat constructor|].
  destruct a as [|now|e]; [exists [], (AtFree :: pre ++ rest); repeat constructor| |exists [], (AtFail e :: pre ++ rest); repeat constructor].
  destruct (Z.le_gt_cases tmo (now - start)) as [Hl|Hg].
  - exists [], (AtBusy now :: pre ++ rest). split; [reflexivity|]. split; [constructor|exact Hl].
  - exists (AtBusy now :: pre), rest. split; [reflexivity|]. split; [constructor; [exists now; split; [reflexivity|lia]|exact H]|exact E].
Qed.

(** The submission is written exactly if some attempt gets the lock while all before it
    found it busy and left time. *)
Theorem C121_written :
  forall tmo start l, fst (wait_lock tmo start l) = WaWritten <->
    exists pre rest, l = pre ++ AtFree :: rest /\ waits tmo start pre.
Proof.
  intros tmo start l. split.
  - destruct (wait_split tmo start l) as (pre & rest & -> & H & E). rewrite wait_after by exact H. cbn [fst].
    destruct rest as [|[|now|e] rest]; cbn [wait_lock fst]; try discriminate.
    + intros _. exists pre, rest. auto.
    + apply Z.leb_le in E. rewrite E. discriminate.
  - intros (pre & rest & -> & H). rewrite wait_after by exact H. reflexivity.
Qed.
Print Assumptions C121_written.
(** TimeOut is raised exactly if the clock shows the configured time gone after a busy
    attempt, and all attempts before were busy too. *)
Theorem C121_time_out :
  forall tmo start l, fst (wait_lock tmo start l) = WaTimeOut <->
    exists pre now rest, l = pre ++ AtBusy now :: rest /\ waits tmo start pre /\ tmo <= now - start.
Proof.
  intros tmo start l. split.
  - destruct (wait_split tmo start l) as (pre & rest & -> & H & E). rewrite wait_after by exact H. cbn [fst].
    destruct rest as [|[|now|e] rest]; cbn [wait_lock fst]; try discriminate. intros _. exists pre, now, rest. auto.
  - intros (pre & now & rest & -> & H & E). rewrite wait_after by exact H. cbn [wait_lock fst].
    apply Z.leb_le in E. rewrite E. reflexivity.
Qed.
Print Assumptions C121_time_out.

Lemma paced_waits lo hi : 0 <= lo -> forall pre prev f tmo start l, paced lo hi prev f (pre ++ l) -> waits tmo start pre ->
  exists last f', paced lo hi last f' l /\ (pre = [] -> last = prev /\ f' = f) /\
    (pre <> [] -> f' = false /\ last - start < tmo /\ (if f then 0 else lo) + Z.of_nat (length pre - 1) * lo <= last - prev).
Proof.
  intros Hlo. induction pre as [|a pre IH]; intros prev f tmo start l HP HW.
  - exists prev, f. split; [exact HP|]. split; [auto|congruence].
  - inversion HW as [|? ? (now & -> & Hn) HW']; subst. cbn [app paced] in HP. destruct HP as [Hd HP].
    destruct (IH now false tmo start l HP HW') as (last & f' & P & P0 & P1). exists last, f'. split; [exact P|]. split; [discriminate|].
    intros _. destruct pre as [|b pre].
    + destruct (P0 eq_refl) as [-> ->]. split; [reflexivity|]. split; [exact Hn|]. cbn. lia.
    + destruct (P1 ltac:(discriminate)) as (-> & P2 & P3). split; [reflexivity|]. split; [exact P2|].
      cbn [length Nat.sub] in *. rewrite Nat.sub_0_r in *. destruct f; nia.
Qed.

(** If each round takes at least [lo] > 0 by the clock, the wait ends: while it goes on,
    there were at most timeout/[lo] + 1 attempts. *)
Theorem C69_ends_partial :
  forall lo hi tmo start l, 0 < lo -> paced lo hi start true l -> fst (wait_lock tmo start l) = WaWaiting ->
    l <> [] -> Z.of_nat (length l - 1) * lo < tmo.
Proof.
  intros lo hi tmo start l Hlo HP HW Hne. destruct (wait_split tmo start l) as (pre & rest & -> & H & E).
  rewrite wait_after in HW by exact H. cbn [fst] in HW. destruct rest as [|[|now|e] rest]; cbn [wait_lock fst] in HW; try discriminate HW.
  - rewrite app_nil_r in *. rewrite <- (app_nil_r pre) in HP.
    destruct (paced_waits lo hi ltac:(lia) pre start true tmo start [] HP H) as (last & f' & _ & _ & P). specialize (P Hne). lia.
  - apply Z.leb_le in E. rewrite E in HW. discriminate HW.
Qed.
Print Assumptions C69_ends_partial.
(** TimeOut comes less than one round after the configured time. *)
Theorem C69_overshoot_partial :
  forall lo hi tmo start pre now rest, 0 <= lo -> 0 < tmo -> paced lo hi start true (pre ++ AtBusy now :: rest) ->
    waits tmo start pre -> tmo <= now - start -> now - start < tmo + hi.
Proof.
  intros lo hi tmo start pre now rest Hlo Ht HP HW Hn.
  destruct (paced_waits lo hi Hlo pre start true tmo start _ HP HW) as (last & f' & P & P0 & P1). cbn [paced] in P. destruct P as [P _].
  destruct pre as [|b pre]; [destruct (P0 eq_refl) as [-> ->]; lia|]. destruct (P1 ltac:(discriminate)) as (-> & P2 & _). lia.
Qed.
Print Assumptions C69_overshoot_partial.

(** C69 asks for no longer than the configured time.  False: with a polling interval above
    the time-out (here 10 s and 5 s) TimeOut comes after the interval. *)
Theorem C69_late_refuted :
  exists l, paced 10000000 10000000 0 true l /\ wait_lock 5000000 0 l = (WaTimeOut, 2%nat) /\ In (AtBusy 10000000) l.
Proof. exists [AtBusy 0; AtBusy 10000000]. split; [cbn; lia|]. split; [reflexivity|]. right. left. reflexivity. Qed.
Print Assumptions C69_late_refuted.
(** And without the assumption on the clock there is no end: time.time() may be set back. *)
Theorem C69_clock_refuted :
  forall tmo start n, 0 < tmo -> wait_lock tmo start (repeat (AtBusy start) n) = (WaWaiting, n).
Proof.
  intros tmo start n Ht. induction n as [|n IH]; [reflexivity|]. cbn [repeat wait_lock].
  replace (tmo <=? start - start) with false by (symmetry; apply Z.leb_gt; lia). rewrite IH. reflexivity.
Qed.
Print Assumptions C69_clock_refuted.
(** the defaults: 5 s, every 0.05 s *)
Example C69_demo :
  wait_lock 5000000 0 [AtBusy 0; AtBusy 50000; AtFree] = (WaWritten, 3%nat) /\
  waits 5000000 0 [AtBusy 0; AtBusy 50000] /\
  paced 50000 60000 0 true [AtBusy 0; AtBusy 50000; AtBusy 105000] /\
  fst (wait_lock 5000000 0 [AtBusy 0; AtBusy 50000; AtBusy 105000]) = WaWaiting /\
  wait_lock 100000 0 [AtBusy 0; AtBusy 50000; AtBusy 105000; AtFree] = (WaTimeOut, 3%nat) /\
  wait_lock 100000 0 [AtBusy 0; AtFail OSError] = (WaRaised OSError, 2%nat).
Proof.
  split; [reflexivity|]. split.
  { apply Forall_cons; [exists 0; split; [reflexivity|lia]|]. apply Forall_cons; [exists 50000; split; [reflexivity|lia]|apply Forall_nil]. }
  split; [cbn; lia|]. repeat split.
Qed.
