(** C88: the loop wakes up when its next message is due. *)
From Verif Require Import PyBase PyFloat MTimer STimer LTimer.
Open Scope Z_scope.

(** ** the numbers *)

(** A clock reading (until 2106) is that of the clock, to 2 microseconds. *)
Theorem C124_reading : forall ns, 2000 <= ns < 2 ^ 32 * NS - 2000 -> (ns - 2000) / MS <= read_ms ns <= (ns + 2000) / MS.
Proof. exact read_ms_near. Qed.
Print Assumptions C124_reading.

(** The timer is started for the time left or, because of rounding, one millisecond less;
    never for 0, and exactly for the time left up to a tenth of a second. *)
Theorem C124_wait : forall d, 0 < d < 2 ^ 42 -> d - 1 <= wait_ms d <= d /\ 0 < wait_ms d /\ (d <= 100 -> wait_ms d = d).
Proof.
  intros d H. split; [exact (wait_ms_near d H)|]. split; [exact (wait_ms_pos d H)|]. intros L. apply wait_ms_short. lia.
Qed.
Print Assumptions C124_wait.

Definition wait_is_exact : Prop := forall d, 0 < d < 2 ^ 42 -> wait_ms d = d.
(** 1001 ms become 1000 ms *)
Theorem C88_wait_refuted : ~ wait_is_exact.
Proof. intros H. specialize (H 1001 ltac:(change (2 ^ 42) with 4398046511104; lia)). vm_compute in H. discriminate H. Qed.
Print Assumptions C88_wait_refuted.

Definition reading_is_exact : Prop := forall ns, 2000 <= ns < 2 ^ 32 * NS - 2000 -> read_ms ns = ns / MS.
(** 100 nanoseconds before a millisecond is over, the next one is read *)
Theorem C88_reading_refuted : ~ reading_is_exact.
Proof.
  intros H. specialize (H 1699999999999999900 ltac:(vm_compute; split; [discriminate|reflexivity])). vm_compute in H. discriminate H.
Qed.
Print Assumptions C88_reading_refuted.

(** ** the sleep *)
Section Steady.
  Context (wall mono : Z -> Z) (Hw : steady wall) (Hm : steady mono) (lat due : Z) (Hlat : 0 <= lat).
  Context (Hdue : due * MS + MS + 2000 + 2 * lat < 2 ^ 32 * NS - 2000).

  Let inr (t : Z) := 2000 <= wall t < 2 ^ 32 * NS - 2000.

  Lemma wall_diff t t' : wall t' - wall t = t' - t.
  Proof. destruct Hw as (o & H). rewrite !H. lia. Qed.
  Lemma mono_diff t t' : mono t' - mono t = t' - t.
  Proof. destruct Hm as (o & H). rewrite !H. lia. Qed.

  Lemma left_ok t : inr t -> read_ms (wall t) < due -> 0 < due - read_ms (wall t) < 2 ^ 42.
  Proof.
    intros [H1 H2] Hr. pose proof (read_ms_near (wall t) (conj H1 H2)) as [A _].
    assert (0 <= (wall t - 2000) / MS) by (apply Z.div_pos; [lia|reflexivity]).
    change (2 ^ 42) with 4398046511104. change (2 ^ 32) with 4294967296 in Hdue. unfold MS, NS in *. lia.
  Qed.

  (** the end of a sleep is in time *)
  Lemma nap_late t t' : inr t -> nap wall mono lat due t t' -> wall t' < due * MS + MS + 2000 + 2 * lat.
  Proof.
    intros Hi (Hr & t1 & H1 & H2 & _ & H4). pose proof (left_ok t Hi Hr) as Hd. pose proof (wait_ms_near _ Hd) as W.
    set (w := wait_ms _) in *. clearbody w. specialize (H4 (t1 + w * MS)).
    assert (E : mono t1 / MS + w <= mono (t1 + w * MS) / MS).
    { replace (mono (t1 + w * MS)) with (mono t1 + w * MS) by (pose proof (mono_diff t1 (t1 + w * MS)); lia). rewrite Z.div_add by discriminate. lia. }
    specialize (H4 ltac:(unfold MS; lia) E).
    pose proof (read_ms_near (wall t) Hi) as [A _]. pose proof (Z.div_mod (wall t - 2000) MS ltac:(discriminate)) as D. pose proof (Z.mod_pos_bound (wall t - 2000) MS ltac:(reflexivity)) as M.
    pose proof (wall_diff t t') as Wd. unfold MS in *. nia.
  Qed.

  Lemma nap_after t t' : nap wall mono lat due t t' -> t <= t'.
  Proof. intros (_ & t1 & H1 & H2 & _). lia. Qed.
  Lemma nap_in t t' : inr t -> nap wall mono lat due t t' -> inr t'.
  Proof.
    intros Hi Hn. pose proof (nap_late t t' Hi Hn). pose proof (nap_after t t' Hn). pose proof (wall_diff t t'). destruct Hi. split; lia.
  Qed.

  Lemma naps_mono t n t2 : inr t -> naps wall mono lat due t n t2 -> t <= t2 /\ mono t / MS + Z.of_nat n <= mono t2 / MS.
  Proof.
    intros Hi H. revert Hi. induction H as [t|t t' n t2 Hn Hs IH]; intros Hi; [lia|].
    destruct (IH (nap_in t t' Hi Hn)) as [I1 I2]. pose proof (nap_after _ _ Hn) as L. split; [lia|].
    destruct Hn as (Hr & t1 & H1 & H2 & H3 & _). pose proof (wait_ms_pos _ (left_ok t Hi Hr)) as W.
    assert (mono t / MS <= mono t1 / MS) by (apply Z.div_le_mono; [reflexivity|]; pose proof (mono_diff t t1); lia). lia.
  Qed.

  Lemma naps_read t t' n t2 : inr t -> nap wall mono lat due t t' -> naps wall mono lat due t' n t2 -> inr t2 -> due + Z.of_nat n - 3 <= read_ms (wall t2).
  Proof.
    intros Hi Hn Hs Hi2. destruct (naps_mono t' n t2 (nap_in _ _ Hi Hn) Hs) as [L1 L2].
    destruct Hn as (Hr & t1 & H1 & H2 & H3 & _). pose proof (wait_ms_near _ (left_ok t Hi Hr)) as W.
    pose proof (read_ms_near (wall t2) Hi2) as [A _]. pose proof (read_ms_near (wall t) Hi) as [_ B].
    pose proof (wall_diff t t2) as D1. pose proof (mono_diff t1 t2) as D2.
    pose proof (Z.div_mod (mono t1) MS ltac:(discriminate)) as E1. pose proof (Z.mod_pos_bound (mono t1) MS ltac:(reflexivity)) as M1.
    pose proof (Z.div_mod (mono t2) MS ltac:(discriminate)) as E2. pose proof (Z.mod_pos_bound (mono t2) MS ltac:(reflexivity)) as M2.
    pose proof (Z.div_mod (wall t2 - 2000) MS ltac:(discriminate)) as E3. pose proof (Z.mod_pos_bound (wall t2 - 2000) MS ltac:(reflexivity)) as M3.
    pose proof (Z.div_mod (wall t + 2000) MS ltac:(discriminate)) as E4. pose proof (Z.mod_pos_bound (wall t + 2000) MS ltac:(reflexivity)) as M4.
    unfold MS in *. lia.
  Qed.

  Lemma naps_in t n t2 : inr t -> naps wall mono lat due t n t2 -> inr t2.
  Proof. intros Hi H. revert Hi. induction H as [t|t t' n t2 Hn Hs IH]; intros Hi; [exact Hi|]. apply IH. exact (nap_in t t' Hi Hn). Qed.

  Lemma naps_late t n t2 : inr t -> naps wall mono lat due t n t2 -> (0 < n)%nat -> wall t2 < due * MS + MS + 2000 + 2 * lat.
  Proof.
    intros Hi H. revert Hi. induction H as [t|t t' n t2 Hn Hs IH]; intros Hi Hp; [lia|].
    destruct n as [|n]; [inversion Hs; subst; exact (nap_late t t2 Hi Hn)|]. apply IH; [exact (nap_in t t' Hi Hn)|lia].
  Qed.

  Lemma naps_snoc t n t2 : naps wall mono lat due t (S n) t2 -> exists t1, naps wall mono lat due t n t1 /\ nap wall mono lat due t1 t2.
  Proof.
    revert t. induction n as [|n IH]; intros t H; inversion H as [|? t' ? ? Hn Hs]; subst.
    - inversion Hs; subst. exists t. split; [constructor|exact Hn].
    - destruct (IH t' Hs) as (t1 & G1 & G2). exists t1. split; [econstructor; [exact Hn|exact G1]|exact G2].
  Qed.

  Lemma naps_few t n t2 : inr t -> naps wall mono lat due t n t2 -> (n <= 4)%nat.
  Proof.
    intros Hi H. destruct (Nat.le_gt_cases n 4) as [L|L]; [exact L|exfalso]. destruct n as [|n]; [lia|].
    destruct (naps_snoc t n t2 H) as (t1 & G1 & (Hr & _)). destruct n as [|n]; [lia|].
    pose proof (naps_in t (S n) t1 Hi G1) as Hi1. inversion G1 as [|? t' ? ? Hn Hs]; subst.
    pose proof (naps_read t t' n t1 Hi Hn Hs Hi1). lia.
  Qed.
End Steady.

(** With clocks that run evenly, a message not yet due is slept on at most 4 times, and
    every sleep ends within one millisecond (and 2 microseconds) of its time, apart from
    the time the machine takes: [lat] before the timer is started and [lat] after it fires. *)
Theorem C88_wakes_in_time_partial :
  forall wall mono, steady wall -> steady mono ->
  forall lat due, 0 <= lat -> due * MS + MS + 2000 + 2 * lat < 2 ^ 32 * NS - 2000 ->
  forall t n t', 2000 <= wall t < 2 ^ 32 * NS - 2000 -> naps wall mono lat due t n t' ->
    (n <= 4)%nat /\ ((0 < n)%nat -> wall t' < due * MS + MS + 2000 + 2 * lat).
Proof.
  intros wall mono Hw Hm lat due Hlat Hdue t n t' Hi H. split.
  - exact (naps_few wall mono Hw Hm lat due Hlat Hdue t n t' Hi H).
  - exact (naps_late wall mono Hw Hm lat due Hlat Hdue t n t' Hi H).
Qed.
Print Assumptions C88_wakes_in_time_partial.

(** ... and sleeping does go on until the message is due: it can be slept on again as long
    as it is not. *)
Theorem C124_sleeps_on :
  forall wall mono, steady wall -> steady mono ->
  forall lat due, 0 <= lat -> due * MS + MS + 2000 + 2 * lat < 2 ^ 32 * NS - 2000 ->
  forall t, 2000 <= wall t < 2 ^ 32 * NS - 2000 -> exists n t', naps wall mono lat due t n t' /\ due <= read_ms (wall t').
Proof.
  intros wall mono Hw Hm lat due Hlat Hdue.
  assert (Hone : forall t, 2000 <= wall t < 2 ^ 32 * NS - 2000 -> read_ms (wall t) < due -> exists t', nap wall mono lat due t t').
  { intros t Hi Hr. pose proof (wait_ms_pos _ (left_ok wall lat due Hlat Hdue t Hi Hr)) as W. set (w := wait_ms (due - read_ms (wall t))) in *.
    exists (t + (w * MS - mono t mod MS)). split; [exact Hr|]. exists t. fold w.
    pose proof (Z.mod_pos_bound (mono t) MS ltac:(reflexivity)) as M. pose proof (Z.div_mod (mono t) MS ltac:(discriminate)) as D. clearbody w.
    split; [lia|]. split; [unfold MS in *; lia|]. split.
    - replace (mono (t + (w * MS - mono t mod MS))) with ((mono t / MS + w) * MS) by (pose proof (mono_diff mono Hm t (t + (w * MS - mono t mod MS))); lia).
      rewrite Z.div_mul by discriminate. lia.
    - intros u Hu G. pose proof (mono_diff mono Hm t u). pose proof (Z.mod_pos_bound (mono u) MS ltac:(reflexivity)) as M'.
      pose proof (Z.div_mod (mono u) MS ltac:(discriminate)) as D'. unfold MS in *. lia. }
  intros t Hi.
  assert (G : forall k, exists n t', naps wall mono lat due t n t' /\ (due <= read_ms (wall t') \/ n = k)).
  { induction k as [|k (n & t' & H & [E|E])].
    - exists 0%nat, t. split; [constructor|right; reflexivity].
    - exists n, t'. auto.
    - destruct (Z.le_gt_cases due (read_ms (wall t'))) as [L|L]; [exists n, t'; auto|].
      destruct (Hone t' (naps_in wall mono Hw Hm lat due Hlat Hdue t n t' Hi H) L) as (t2 & Hn). exists (S n), t2. split; [|right; lia].
      clear - H Hn. induction H as [t|t t1 n t' Hx Hs IH]; [econstructor; [exact Hn|constructor]|]. econstructor; [exact Hx|exact (IH Hn)]. }
  destruct (G 5%nat) as (n & t' & H & [E|E]); [eauto|]. pose proof (naps_few wall mono Hw Hm lat due Hlat Hdue t n t' Hi H). lia.
Qed.
Print Assumptions C124_sleeps_on.

(** ** clocks that are set *)
Definition in_time_always : Prop :=
  forall wall mono, (forall t u, t <= u -> wall t <= wall u) -> steady mono ->
  forall lat due, 0 <= lat -> due * MS + MS + 2000 + 2 * lat < 2 ^ 32 * NS - 2000 ->
  forall t n t', 2000 <= wall t < 2 ^ 32 * NS - 2000 -> naps wall mono lat due t n t' ->
    (0 < n)%nat -> wall t' < due * MS + MS + 2000 + 2 * lat.

(** At 0:00:00 the loop goes to sleep for 10 seconds; at 0:00:05 the wall clock is set forward
    one hour.  It sleeps on for 5 seconds: the message is an hour late. *)
Definition jump (t : Z) : Z := if t <? 1000000005 * NS then t else t + 3600 * NS.
Theorem C88_clock_set_refuted : ~ in_time_always.
Proof.
  intros H. specialize (H jump (fun t => t)).
  assert (Hj : forall t u, t <= u -> jump t <= jump u) by (intros t u L; unfold jump; destruct (Z.ltb_spec t (1000000005 * NS)), (Z.ltb_spec u (1000000005 * NS)); unfold NS in *; lia).
  specialize (H Hj ltac:(exists 0; intros; lia) 0 (1000000010 * 1000) ltac:(lia) ltac:(reflexivity) (1000000000 * NS) 1%nat (1000000010 * NS)
    ltac:(split; [vm_compute; discriminate|reflexivity])).
  assert (Hn : naps jump (fun t => t) 0 (1000000010 * 1000) (1000000000 * NS) 1 (1000000010 * NS)).
  { econstructor; [|constructor].
    assert (Er : read_ms (jump (1000000000 * NS)) = 1000000000 * 1000) by (vm_compute; reflexivity).
    assert (Ew : wait_ms (1000000010 * 1000 - read_ms (jump (1000000000 * NS))) = 10000) by (vm_compute; reflexivity).
    split; [rewrite Er; reflexivity|]. exists (1000000000 * NS). rewrite Ew. split; [lia|]. split; [vm_compute; discriminate|]. split; [vm_compute; discriminate|].
    intros u _ G. change (1000000000 * NS / MS + 10000) with 1000000010000 in G.
    pose proof (Z.mul_div_le u MS ltac:(reflexivity)). unfold MS, NS in *. lia. }
  specialize (H Hn ltac:(lia)). vm_compute in H. discriminate H.
Qed.
Print Assumptions C88_clock_set_refuted.

(** Evenly running clocks, no latency, 1001 ms before the message is due: the first wait is a
    millisecond short, and the clock is then read a millisecond low, so that the loop sleeps
    three times and is a millisecond late. *)
Example C88_demo :
  naps (fun t => t) (fun t => t) 0 (1000000001 * 1000 + 1) (1000000000 * NS) 3 ((1000000001 * 1000 + 2) * MS) /\
  map read_ms [1000000001 * NS; (1000000001 * 1000 + 1) * MS; (1000000001 * 1000 + 2) * MS] = [1000000001 * 1000; 1000000001 * 1000; 1000000001 * 1000 + 2].
Proof.
  split; [|vm_compute; reflexivity].
  assert (G : forall t t', read_ms t < 1000000001 * 1000 + 1 -> t / MS + wait_ms (1000000001 * 1000 + 1 - read_ms t) = t' / MS -> t <= t' -> t' mod MS = 0 ->
    nap (fun t => t) (fun t => t) 0 (1000000001 * 1000 + 1) t t').
  { intros t t' Hr Ht Hle Hm. split; [exact Hr|]. exists t. cbv beta. split; [lia|]. split; [exact Hle|]. rewrite Ht. split; [lia|]. intros u Hu L.
    pose proof (Z.div_mod t' MS ltac:(discriminate)) as D. pose proof (Z.mul_div_le u MS ltac:(reflexivity)) as B. unfold MS in *. lia. }
  apply naps_one with (t' := 1000000001 * NS); [apply G; [vm_compute; reflexivity|vm_compute; reflexivity|vm_compute; discriminate|reflexivity]|].
  apply naps_one with (t' := (1000000001 * 1000 + 1) * MS); [apply G; [vm_compute; reflexivity|vm_compute; reflexivity|vm_compute; discriminate|reflexivity]|].
  apply naps_one with (t' := (1000000001 * 1000 + 2) * MS); [apply G; [vm_compute; reflexivity|vm_compute; reflexivity|vm_compute; discriminate|reflexivity]|constructor].
Qed.
