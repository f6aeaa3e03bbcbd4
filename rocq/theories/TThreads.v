(** C63: the event queue shared by threads.  C64: message numbers under threads. *)
From Coq Require Import Sorted.
From Verif Require Import PyBase PyHeap MQueue SQueue MThreads SThreads LThreads.
Open Scope nat_scope.

(** ** C63 *)

(** Whatever the threads do and however they are interleaved, the calls on a
    ThreadSafeQueue look like calls made one at a time on a priority queue, in an order
    that respects which call returned before which was made. *)
Theorem C63_linearizable :
  forall (I : Type) (ls : list (tlabel I)) (s : tstate I),
    t_exec true t_init ls = Some s -> linearizable (t_hist s).
Proof. intros I. exact threads_linearizable. Qed.
Print Assumptions C63_linearizable.

(** No call can get stuck: from every state every call can still return. *)
Theorem C63_no_deadlock :
  forall (I : Type) (ls : list (tlabel I)) (s : tstate I) (t : nat),
    t_exec true t_init ls = Some s -> t_pc s t <> PIdle ->
    exists ls' s', t_exec true s ls' = Some s' /\ t_pc s' t = PIdle.
Proof. intros I. exact can_return. Qed.
Print Assumptions C63_no_deadlock.

(** Two threads push while a third looks and pops. *)
Definition th_labels (locked : bool) : list (tlabel nat) :=
  let k1 := SKey 1 0 1 in let k2 := SKey 2 0 2 in
  [TCall 1 (QPush 20 k2); TAcquire 1; TMicro 1; TCall 2 (QPush 10 k1)] ++
  (if locked then [TMicro 1; TRelease 1; TAcquire 2; TMicro 2; TMicro 2; TMicro 2; TRelease 2; TReturn 1; TReturn 2]
   else [TAcquire 2; TMicro 2; TMicro 2; TMicro 2; TRelease 2; TReturn 2; TMicro 1; TRelease 1; TReturn 1]) ++
  [TCall 3 QPop; TAcquire 3; TMicro 3; TMicro 3; TMicro 3; TMicro 3; TRelease 3; TReturn 3;
   TCall 3 QPop; TAcquire 3; TMicro 3; TMicro 3; TRelease 3; TReturn 3].
Example C63_demo :
  option_map (@t_hist nat) (t_exec true t_init (th_labels true)) =
  Some [EInv 1 0 (QPush 20 (SKey 2 0 2)); EInv 2 0 (QPush 10 (SKey 1 0 1)); ERet 1 0 OUnit; ERet 2 0 OUnit;
        EInv 3 0 QPop; ERet 3 0 (OItem (Ok 10)); EInv 3 1 QPop; ERet 3 1 (OItem (Ok 20))].
Proof. vm_compute. reflexivity. Qed.

(** Without the lock (PriorityQueue, "not thread-safe") an item can be lost and another
    handed out twice. *)
Definition unlocked_linearizable : Prop :=
  forall (ls : list (tlabel nat)) (s : tstate nat), t_exec false t_init ls = Some s -> linearizable (t_hist s).
Example C63_unlocked_run :
  option_map (@t_hist nat) (t_exec false t_init (th_labels false)) =
  Some [EInv 1 0 (QPush 20 (SKey 2 0 2)); EInv 2 0 (QPush 10 (SKey 1 0 1)); ERet 2 0 OUnit; ERet 1 0 OUnit;
        EInv 3 0 QPop; ERet 3 0 (OItem (Ok 20)); EInv 3 1 QPop; ERet 3 1 (OItem (Ok 20))].
Proof. vm_compute. reflexivity. Qed.
Theorem C63_lock_needed : ~ unlocked_linearizable.
Proof.
  intros H. pose proof C63_unlocked_run as E. destruct (t_exec false t_init (th_labels false)) as [s|] eqn:Es; [|discriminate].
  cbn [option_map] in E. assert (Eh : forall x y : list (tev nat), Some x = Some y -> x = y) by (intros x y G; injection G; auto). apply Eh in E. clear Eh.
  destruct (H _ _ Es) as (lin & Hl). rewrite E in Hl. clear H Es E. pose proof (lin_count 20 lin _ Hl) as Hc. destruct Hl as (Hn & _ & Hr & Hm & _).
  destruct (Hr 3 0 (OItem (Ok 20))) as (o1 & Ho1 & Hin1); [cbn; auto 10|]. destruct (Hr 3 1 (OItem (Ok 20))) as (o2 & Ho2 & Hin2); [cbn; auto 10|].
  assert (o1 = QPop) as -> by (cbn in Ho1; repeat (destruct Ho1 as [Ho1|Ho1]; [congruence|]); destruct Ho1).
  assert (o2 = QPop) as -> by (cbn in Ho2; repeat (destruct Ho2 as [Ho2|Ho2]; [congruence|]); destruct Ho2).
  assert (H2 : 2 <= sum (map (fun c => is_pop 20 (lc_op c) (lc_out c)) lin)) by (eapply sum_ge; [exact Hin1|exact Hin2|discriminate|reflexivity|reflexivity]).
  assert (H1 : sum (map (fun c => is_push 20 (lc_op c)) lin) <= 1).
  { apply (sum_one _ lc_id (1, 0)); [exact Hn|]. intros [[[t i] o] out] Hin. specialize (Hm _ _ _ _ Hin). cbn in Hm.
    unfold lc_op, lc_id. cbn [fst snd]. repeat (destruct Hm as [Hm|Hm]; [first [discriminate Hm|injection Hm as <- <- <-; cbn; split; [lia|congruence]]|]). destruct Hm. }
  lia.
Qed.
Print Assumptions C63_lock_needed.

(** ** C64 *)
Open Scope Z_scope.

(** Messages made one after the other, by whichever threads, are numbered upwards. *)
Theorem C64_numbers_partial :
  forall us, map fst (ms_made (ms_exec (one_by_one us))) = us /\ StronglySorted Z.lt (map snd (ms_made (ms_exec (one_by_one us)))).
Proof.
  intros us. unfold ms_exec. rewrite one_by_one_numbers by reflexivity. cbn [ms_made ms_init ms_num app]. split; [|apply numbered_sorted].
  generalize 0. induction us as [|t us IH]; intros n; [reflexivity|]. cbn. f_equal. apply IH.
Qed.
Print Assumptions C64_numbers_partial.

(** Pushing a message with a key not in the queue compares no messages, so it cannot raise. *)
Theorem C64_push_partial :
  forall (I : Type) (h : list (skey * I)) x, ~ In (fst x) (map fst h) -> heappush_x h x = (Ok tt, heappush entry_ltb h x).
Proof. exact @heappush_x_ok. Qed.
Print Assumptions C64_push_partial.

(** The full statement: however the threads are interleaved, no two messages get the same
    number. *)
Definition numbers_distinct : Prop := forall ts, NoDup (map snd (ms_made (ms_exec ts))).
(** Thread 1 is interrupted between reading and storing the counter. *)
Theorem C64_numbers_refuted : ~ numbers_distinct.
Proof.
  intros H. specialize (H [1; 2; 1; 2; 1; 2]%nat). vm_compute in H. inversion H as [|? ? Hn _]. apply Hn. left. reflexivity.
Qed.
Print Assumptions C64_numbers_refuted.
(** One such interruption sets the counter back: messages made later, one at a time, repeat
    the numbers of earlier ones, in the same thread too. *)
Theorem C64_set_back_refuted :
  ms_made (ms_exec ([1] ++ one_by_one [2; 2; 2] ++ [1; 1] ++ one_by_one [2; 2])%nat) =
  [(2%nat, 1); (2%nat, 2); (2%nat, 3); (1%nat, 1); (2%nat, 2); (2%nat, 3)].
Proof. vm_compute. reflexivity. Qed.
Print Assumptions C64_set_back_refuted.
(** Then a push of a message with the time and priority of a queued one raises, and leaves
    the message in the queue. *)
Theorem C64_push_refuted :
  forall (I : Type) (k : skey) (a b : I), heappush_x [(k, a)] (k, b) = (Err TypeError, [(k, a); (k, b)]).
Proof.
  intros I k a b. unfold heappush_x. cbn [length app siftdown_x Nat.ltb Nat.leb Nat.sub Nat.div2 nth]. unfold entry_cmp. cbn [fst].
  assert (E : key_ltb k k = false) by (unfold key_ltb; rewrite !Z.eqb_refl, Z.ltb_irrefl; reflexivity). rewrite E. reflexivity.
Qed.
Print Assumptions C64_push_refuted.

Example C64_demo :
  ms_made (ms_exec (one_by_one [1; 2; 1]%nat)) = [(1%nat, 1); (2%nat, 2); (1%nat, 3)] /\
  heappush_x [(SKey 5 0 1, 7%nat)] (SKey 5 0 2, 8%nat) = (Ok tt, [(SKey 5 0 1, 7%nat); (SKey 5 0 2, 8%nat)]).
Proof. vm_compute. auto. Qed.
