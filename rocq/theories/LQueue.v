(** Proofs for queue.py (C01). *)
From Coq Require Import Permutation.
From Verif Require Import PyBase PyHeap LHeap MQueue SQueue.

Lemma key_ltb_spec a b : key_ltb a b = true <-> key_lt a b.
Proof.
  unfold key_ltb, key_lt.
  destruct (Z.eqb_spec (k_time a) (k_time b)) as [Et|Et];
    [destruct (Z.eqb_spec (k_nprio a) (k_nprio b)) as [Ep|Ep]|];
    rewrite Z.ltb_lt; lia.
Qed.
Lemma key_ltb_false a b : key_ltb a b = false <-> ~ key_lt a b.
Proof. rewrite <- key_ltb_spec; destruct (key_ltb a b); split; congruence. Qed.
Lemma key_lt_asym a b : key_lt a b -> ~ key_lt b a.
Proof. unfold key_lt; lia. Qed.
Lemma key_nlt_trans a b c : ~ key_lt b a -> ~ key_lt c b -> ~ key_lt c a.
Proof. unfold key_lt; lia. Qed.
Lemma key_total a b : ~ key_lt a b -> ~ key_lt b a -> a = b.
Proof. destruct a as [t p s], b as [t' p' s']; unfold key_lt; cbn; intros; f_equal; lia. Qed.

Section Q.
  Context {I : Type}.
  Implicit Types q : queue I.

  Lemma entry_asym (a b : skey * I) : entry_ltb a b = true -> entry_ltb b a = false.
  Proof. unfold entry_ltb; rewrite key_ltb_spec, key_ltb_false; apply key_lt_asym. Qed.
  Lemma entry_trans (a b c : skey * I) : hle entry_ltb a b -> hle entry_ltb b c -> hle entry_ltb a c.
  Proof. unfold hle, entry_ltb; rewrite !key_ltb_false; eauto using key_nlt_trans. Qed.

  (** representation invariant of [_queue] *)
  Definition qinv q : Prop := forall d, heap entry_ltb d q.

  Lemma qinv_empty : qinv q_empty.
  Proof. intros d i Hi Hl; cbn in Hl; lia. Qed.

  Lemma q_push_ok q x k : qinv q -> qinv (q_push q x k) /\ Permutation (q_push q x k) ((k, x) :: q).
  Proof.
    intros Hq. split.
    - intros d. destruct (heappush_ok entry_ltb entry_asym entry_trans d q (k, x) (Hq d)) as [H _]; exact H.
    - destruct (heappush_ok entry_ltb entry_asym entry_trans (k, x) q (k, x) (Hq (k, x))) as [_ H]; exact H.
  Qed.

  Lemma q_pop_nonempty q : qinv q -> q <> [] ->
    exists k x q', q_pop q = (Ok x, q') /\ qinv q' /\ Permutation q ((k, x) :: q') /\
                   minimal k q /\ q_top q = Ok x.
  Proof.
    intros Hq Hne. unfold q_pop.
    destruct (heappop entry_ltb q) as [[[k x] q']|] eqn:E.
    - exists k, x, q'. split; [reflexivity|].
      assert (Hall : forall d, heap entry_ltb d q' /\ Permutation ((k, x) :: q') q /\
                nth_error q 0 = Some (k, x) /\ (forall y, In y q -> hle entry_ltb (k, x) y)).
      { intros d; exact (heappop_ok entry_ltb entry_asym entry_trans d q (k, x) q' (Hq d) E). }
      destruct (Hall (k, x)) as (_ & Hp & Hn & Hm).
      split; [intros d; apply Hall|]. split; [symmetry; exact Hp|]. split.
      + intros k' x' Hin. specialize (Hm _ Hin). unfold hle, entry_ltb in Hm. cbn [fst] in Hm.
        rewrite key_ltb_false in Hm. exact Hm.
      + destruct q as [|[k0 x0] q0]; [congruence|]. cbn in Hn. injection Hn as -> ->. reflexivity.
    - apply heappop_none in E. contradiction.
  Qed.

  Lemma q_pop_empty : q_pop (@nil (skey * I)) = (Err QueueEmptyError, []).
  Proof. reflexivity. Qed.

  Lemma q_step_ok q o : qinv q ->
    let '(out, q') := q_step q o in qinv q' /\ spec_step q o out q'.
  Proof.
    intros Hq. destruct o as [x k| | |]; cbn [q_step].
    - destruct (q_push_ok q x k Hq) as [H1 H2]. split; [exact H1|]. apply sp_push; exact H2.
    - destruct q as [|e q0] eqn:Eq.
      + rewrite q_pop_empty. split; [exact qinv_empty|constructor].
      + rewrite <- Eq in *. destruct (q_pop_nonempty q Hq) as (k & x & q' & E & H1 & H2 & H3 & _); [congruence|].
        rewrite E. split; [exact H1|]. apply sp_pop with (k := k); [|exact H3|exact H2].
        rewrite H2; left; reflexivity.
    - split; [exact Hq|]. destruct q as [|[k x] q0] eqn:Eq; [constructor|].
      rewrite <- Eq in *. destruct (q_pop_nonempty q Hq) as (k1 & x1 & q' & E & H1 & H2 & H3 & H4); [congruence|].
      rewrite H4. apply sp_top with (k := k1); [rewrite H2; left; reflexivity|exact H3|reflexivity].
    - split; [exact Hq|]. apply sp_empty. reflexivity.
  Qed.

  Lemma q_run_ok ops : forall q, qinv q ->
    qinv (snd (q_run q ops)) /\ spec_run q ops (fst (q_run q ops)) (snd (q_run q ops)).
  Proof.
    induction ops as [|o ops IH]; intros q Hq; cbn [q_run].
    - split; [exact Hq|constructor].
    - pose proof (q_step_ok q o Hq) as Hs. destruct (q_step q o) as [out q1].
      destruct Hs as [H1 H2]. destruct (IH q1 H1) as [H3 H4].
      destruct (q_run q1 ops) as [outs q2]. cbn [fst snd] in *.
      split; [exact H3|]. econstructor; eassumption.
  Qed.

  (** C01, main statement *)
  Lemma queue_spec (ops : list (qop I)) : spec_run [] ops (fst (q_run q_empty ops)) (snd (q_run q_empty ops)).
  Proof. apply q_run_ok, qinv_empty. Qed.

  (** C01, top = next pop, in every reachable queue *)
  Lemma queue_top_pop (ops : list (qop I)) :
    let q := snd (q_run q_empty ops) in q_top q = fst (@q_pop I q).
  Proof.
    cbn zeta. destruct (q_run_ok ops q_empty qinv_empty) as [Hq _].
    set (q := snd (q_run q_empty ops)) in *. destruct q as [|e q0] eqn:Eq; [reflexivity|].
    rewrite <- Eq in *. destruct (q_pop_nonempty q Hq) as (k & x & q' & E & _ & _ & _ & H4); [congruence|].
    rewrite E, H4. reflexivity.
  Qed.
End Q.
