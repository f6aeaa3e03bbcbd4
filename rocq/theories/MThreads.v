(** Model of ThreadSafeQueue (jqtrade/scheduler/queue.py:48-73) used by several threads,
    and of Message.__init__ (jqtrade/scheduler/message.py:12-19) run by several threads.

    The threads are interleaved at every single list operation inside heapq
    (Lib/heapq.py), more often than CPython's C implementation allows.  Simplifications:
    a call not returned from yet only blocks its own thread; logging (queue.py:25,31,39)
    is left out; list accesses are in range, as they are under the lock. *)
From Verif Require Import PyBase PyHeap MQueue.

Section Queue.
  Context {I : Type}.
  Notation entry := (skey * I)%type.
  Notation lt := (@entry_ltb I).

  (** where a thread is inside a queue method: the local variables of heapq's functions *)
  Inductive qlocal :=
  | LPush (x : I) (k : skey)                        (* heappush: before heap.append(item) *)
  | LDown (pos : nat) (new : entry) (out : qout I)  (* _siftdown: at the while *)
  | LPop                                            (* heappop: before heap.pop() *)
  | LPop2 (last : entry)                            (* heappop: before heap[0] = lastelt *)
  | LUp (pos : nat) (new : entry) (out : qout I)    (* _siftup: at the while *)
  | LTop                                            (* self._queue[0] *)
  | LEmpty                                          (* len(self._queue) == 0 *)
  | LDone (out : qout I).                           (* before leaving the with block *)

  Definition q_start (o : qop I) : qlocal :=
    match o with QPush x k => LPush x k | QPop => LPop | QTop => LTop | QEmpty => LEmpty end.

  (** one list operation of heapq (queue.py:26, 30, 38, 45) *)
  Definition micro (q : queue I) (l : qlocal) : queue I * qlocal :=
    match l with
    | LPush x k => (q ++ [(k, x)], LDown (length q) (k, x) OUnit)
    | LDown pos new out =>
        if Nat.ltb 0 pos then
          let pp := Nat.div2 (pos - 1) in
          let parent := nth pp q new in
          if lt new parent then (upd q pos parent, LDown pp new out) else (upd q pos new, LDone out)
        else (upd q pos new, LDone out)
    | LPop =>
        match rev q with
        | [] => (q, LDone (OItem (Err QueueEmptyError)))
        | last :: r => (rev r, LPop2 last)
        end
    | LPop2 last =>
        match q with
        | [] => (q, LDone (OItem (Ok (snd last))))
        | top :: h => (last :: h, LUp 0 last (OItem (Ok (snd top))))
        end
    | LUp pos new out =>
        let child := 2 * pos + 1 in
        if Nat.ltb child (length q) then
          let right := child + 1 in
          let c := if Nat.ltb right (length q) && negb (lt (nth child q new) (nth right q new)) then right else child in
          (upd q pos (nth c q new), LUp c new out)
        else (upd q pos new, LDown pos new out)
    | LTop => (q, LDone (OItem (q_top q)))
    | LEmpty => (q, LDone (OBool (q_is_empty q)))
    | LDone out => (q, LDone out)
    end.

  (** what a thread is doing *)
  Inductive pc :=
  | PIdle
  | PCalled (o : qop I)               (* waiting for the lock *)
  | PIn (o : qop I) (l : qlocal)      (* inside the with block *)
  | PRet (out : qout I).              (* lock released, not returned yet *)

  (** calls and returns as the callers see them: thread, number of the call, ... *)
  Inductive tev := EInv (t i : nat) (o : qop I) | ERet (t i : nat) (out : qout I).

  Record tstate := TS {
    t_q : queue I;
    t_lock : option nat;              (* the thread holding the lock *)
    t_pc : nat -> pc;
    t_cnt : nat -> nat;               (* calls finished by each thread *)
    t_hist : list tev
  }.
  (** queue.py:21-22, 54-57 *)
  Definition t_init : tstate := TS q_empty None (fun _ => PIdle) (fun _ => 0) [].

  Definition fset {A} (f : nat -> A) (t : nat) (x : A) : nat -> A := fun u => if Nat.eqb u t then x else f u.

  Inductive tlabel := TCall (t : nat) (o : qop I) | TAcquire (t : nat) | TMicro (t : nat) | TRelease (t : nat) | TReturn (t : nat).

  (** queue.py:59-73: [with self._lock: return super().method(...)].  [locked] false: the
      methods of PriorityQueue (24-45), without the lock. *)
  Definition t_step (locked : bool) (s : tstate) (l : tlabel) : option tstate :=
    match l with
    | TCall t o =>
        match t_pc s t with
        | PIdle => Some (TS (t_q s) (t_lock s) (fset (t_pc s) t (PCalled o)) (t_cnt s) (t_hist s ++ [EInv t (t_cnt s t) o]))
        | _ => None
        end
    | TAcquire t =>
        match t_pc s t, (if locked then t_lock s else None) with
        | PCalled o, None => Some (TS (t_q s) (Some t) (fset (t_pc s) t (PIn o (q_start o))) (t_cnt s) (t_hist s))
        | _, _ => None
        end
    | TMicro t =>
        match t_pc s t with
        | PIn o l => let '(q, l') := micro (t_q s) l in Some (TS q (t_lock s) (fset (t_pc s) t (PIn o l')) (t_cnt s) (t_hist s))
        | _ => None
        end
    | TRelease t =>
        match t_pc s t with
        | PIn o (LDone out) => Some (TS (t_q s) None (fset (t_pc s) t (PRet out)) (t_cnt s) (t_hist s))
        | _ => None
        end
    | TReturn t =>
        match t_pc s t with
        | PRet out => Some (TS (t_q s) (t_lock s) (fset (t_pc s) t PIdle) (fset (t_cnt s) t (S (t_cnt s t))) (t_hist s ++ [ERet t (t_cnt s t) out]))
        | _ => None
        end
    end.

  Fixpoint t_exec (locked : bool) (s : tstate) (ls : list tlabel) : option tstate :=
    match ls with
    | [] => Some s
    | l :: ls' => match t_step locked s l with Some s' => t_exec locked s' ls' | None => None end
    end.
End Queue.
Arguments qlocal : clear implicits.
Arguments pc : clear implicits.
Arguments tev : clear implicits.
Arguments tstate : clear implicits.
Arguments tlabel : clear implicits.

(** ** message.py:18-19: [Message._unique_num += 1; self.seq_number = Message._unique_num] *)

(** where a thread is inside Message.__init__ *)
Inductive mpc := MIdle | MRead (n : Z) (* counter read for += *) | MStored (* counter stored *).

Record mstate := MS {
  ms_num : Z;                        (* Message._unique_num *)
  ms_pc : nat -> mpc;
  ms_made : list (nat * Z)           (* thread and seq_number of each message made, oldest first *)
}.
Definition ms_init : mstate := MS 0 (fun _ => MIdle) [].

(** one bytecode that touches the counter, in thread [t] *)
Definition ms_step (s : mstate) (t : nat) : mstate :=
  match ms_pc s t with
  | MIdle => MS (ms_num s) (fset (ms_pc s) t (MRead (ms_num s))) (ms_made s)
  | MRead n => MS (n + 1) (fset (ms_pc s) t MStored) (ms_made s)
  | MStored => MS (ms_num s) (fset (ms_pc s) t MIdle) (ms_made s ++ [(t, ms_num s)])
  end.

Definition ms_exec (ts : list nat) : mstate := fold_left ms_step ts ms_init.

(** ** heappush when keys tie (Lib/heapq.py; Modules/_heapqmodule.c) *)

(** [a < b] on (sort_key, Message) tuples: None is the TypeError raised when the sort keys
    are equal and the messages get compared *)
Definition entry_cmp {I} (a b : skey * I) : option bool :=
  if key_ltb (fst a) (fst b) then Some true else if key_ltb (fst b) (fst a) then Some false else None.

(** [_siftdown] with that comparison; on an error the list is left as it is *)
Fixpoint siftdown_x {I} (fuel : nat) (h : list (skey * I)) (pos : nat) (new : skey * I) : res unit * list (skey * I) :=
  match fuel with
  | O => (Ok tt, upd h pos new)
  | S f =>
      if Nat.ltb 0 pos then
        let pp := Nat.div2 (pos - 1) in
        let parent := nth pp h new in
        match entry_cmp new parent with
        | None => (Err TypeError, h)
        | Some true => siftdown_x f (upd (upd h pos parent) pp new) pp new
        | Some false => (Ok tt, upd h pos new)
        end
      else (Ok tt, upd h pos new)
  end.
Definition heappush_x {I} (h : list (skey * I)) (x : skey * I) : res unit * list (skey * I) :=
  siftdown_x (S (length h)) (h ++ [x]) (length h) x.
