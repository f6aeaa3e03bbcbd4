(** C01: the event queue (queue.py) is a faithful priority queue. *)
From Verif Require Import PyBase MQueue SQueue LQueue MLoop LLoop.
Open Scope Z_scope.

Theorem C01_queue_is_priority_queue :
  forall (I : Type) (ops : list (qop I)),
    spec_run [] ops (fst (q_run q_empty ops)) (snd (q_run q_empty ops)).
Proof. exact @queue_spec. Qed.
Print Assumptions C01_queue_is_priority_queue.

Theorem C01_top_is_next_pop :
  forall (I : Type) (ops : list (qop I)),
    let q := snd (q_run q_empty ops) in q_top q = fst (q_pop q).
Proof. exact @queue_top_pop. Qed.
Print Assumptions C01_top_is_next_pop.

(** sort keys of queued messages never tie, so the comparison never reaches the
    Message objects (which have no order) *)
Theorem C01_no_key_ties :
  forall (C W O : Type) (h : handler C W O) (w : W) (s : lstate C W),
    reachable h w s -> NoDup (map fst (l_q s)).
Proof. exact @keys_nodup. Qed.
Print Assumptions C01_no_key_ties.

Example C01_example :
  fst (q_run q_empty
    [QPush 1%nat (SKey 5 0 1); QPush 2%nat (SKey 5 (-1) 2); QPush 3%nat (SKey 4 0 3); QPush 4%nat (SKey 5 0 0);
     QTop; QPop; QPop; QPop; QPop; QPop; QEmpty]) =
  [OUnit; OUnit; OUnit; OUnit; OItem (Ok 3%nat); OItem (Ok 3%nat); OItem (Ok 2%nat); OItem (Ok 4%nat);
   OItem (Ok 1%nat); OItem (Err QueueEmptyError); OBool true].
Proof. vm_compute. reflexivity. Qed.
