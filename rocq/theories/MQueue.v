(** Model of jqtrade/scheduler/queue.py and jqtrade/scheduler/message.py. *)
From Verif Require Import PyBase PyHeap.

(** message.py:18,23-25 [sort_key]: (time, -priority, seq_number), compared
    lexicographically as a Python tuple of ints. *)
Record skey := SKey { k_time : Z; k_nprio : Z; k_seq : Z }.

Definition key_ltb (a b : skey) : bool :=
  if Z.eqb (k_time a) (k_time b) then
    if Z.eqb (k_nprio a) (k_nprio b) then Z.ltb (k_seq a) (k_seq b)
    else Z.ltb (k_nprio a) (k_nprio b)
  else Z.ltb (k_time a) (k_time b).

Section Queue.
  Context {I : Type}.

  (** queue.py:21-22 [self._queue = []]: a heapq list of (sort_key, item) *)
  Definition queue := list (skey * I).

  (** Tuple comparison of heap entries.  Simplification: entries with equal sort
      keys are "not smaller" than each other, where Python goes on to compare the
      items and raises TypeError for Message objects; [LLoop.keys_nodup] shows
      that two queued messages of the loop never have equal keys. *)
  Definition entry_ltb (a b : skey * I) : bool := key_ltb (fst a) (fst b).

  Definition q_empty : queue := [].

  (** queue.py:24-26 (and 59-61, under the lock) *)
  Definition q_push (q : queue) (item : I) (k : skey) : queue :=
    heappush entry_ltb q (k, item).

  (** queue.py:28-34 (63-65) *)
  Definition q_pop (q : queue) : res I * queue :=
    match heappop entry_ltb q with
    | Some ((_, item), q') => (Ok item, q')
    | None => (Err QueueEmptyError, q)
    end.

  (** queue.py:36-42 (67-69) *)
  Definition q_top (q : queue) : res I :=
    match q with
    | (_, item) :: _ => Ok item
    | [] => Err QueueEmptyError
    end.

  (** queue.py:44-45 (71-73) *)
  Definition q_is_empty (q : queue) : bool := Nat.eqb (length q) 0.

  (** One call on the queue.  The thread-safe variant holds one lock for the whole
      call, so any multi-threaded use is some sequence of these (MThreads, C63). *)
  Inductive qop := QPush (item : I) (k : skey) | QPop | QTop | QEmpty.
  Inductive qout := OUnit | OItem (r : res I) | OBool (b : bool).

  Definition q_step (q : queue) (o : qop) : qout * queue :=
    match o with
    | QPush item k => (OUnit, q_push q item k)
    | QPop => let '(r, q') := q_pop q in (OItem r, q')
    | QTop => (OItem (q_top q), q)
    | QEmpty => (OBool (q_is_empty q), q)
    end.

  Fixpoint q_run (q : queue) (ops : list qop) : list qout * queue :=
    match ops with
    | [] => ([], q)
    | o :: ops' =>
        let '(out, q1) := q_step q o in
        let '(outs, q2) := q_run q1 ops' in
        (out :: outs, q2)
    end.
End Queue.
Arguments queue : clear implicits.
Arguments qop : clear implicits.
Arguments qout : clear implicits.

(** message.py:11-19 [Message.__init__]; the callback (with its data) is [m_cb].
    [seq] is the value of the class counter after the increment. *)
Record msg (C : Type) := Msg { m_time : Z; m_prio : Z; m_seq : Z; m_cb : C }.
Arguments Msg {C}. Arguments m_time {C}. Arguments m_prio {C}.
Arguments m_seq {C}. Arguments m_cb {C}.

(** message.py:21-23 *)
Definition sort_key {C} (m : msg C) : skey := SKey (m_time m) (- m_prio m) (m_seq m).
