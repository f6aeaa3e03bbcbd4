(** Model of CPython's [heapq] (Lib/heapq.py: heappush, heappop, _siftdown,
    _siftup) on lists, for an arbitrary comparison [lt].
    Nothing here is jqtrade code.  Simplification: [startpos] is always 0, as in
    heappush/heappop. *)
From Verif Require Import PyBase.

Section Heap.
  Context {A : Type} (lt : A -> A -> bool).

  (** [h[i] = x] *)
  Fixpoint upd (h : list A) (i : nat) (x : A) : list A :=
    match h, i with
    | [], _ => []
    | _ :: h', O => x :: h'
    | y :: h', S i' => y :: upd h' i' x
    end.

  (** [_siftdown(heap, 0, pos)] with [newitem = new]; the [while pos > 0] loop. *)
  Fixpoint siftdown (fuel : nat) (h : list A) (pos : nat) (new : A) : list A :=
    match fuel with
    | O => upd h pos new
    | S f =>
        if Nat.ltb 0 pos then
          let pp := Nat.div2 (pos - 1) in
          let parent := nth pp h new in
          if lt new parent then siftdown f (upd h pos parent) pp new
          else upd h pos new
        else upd h pos new
    end.

  (** [_siftup(heap, pos)] with [newitem = new]: the [while childpos < endpos]
      loop followed by [_siftdown]. *)
  Fixpoint siftup (fuel : nat) (h : list A) (pos : nat) (new : A) : list A :=
    let child := 2 * pos + 1 in
    match fuel with
    | O => siftdown (length h) (upd h pos new) pos new
    | S f =>
        if Nat.ltb child (length h) then
          let right := child + 1 in
          let c := if Nat.ltb right (length h)
                      && negb (lt (nth child h new) (nth right h new))
                   then right else child in
          siftup f (upd h pos (nth c h new)) c new
        else siftdown (length h) (upd h pos new) pos new
    end.

  (** [heappush(heap, item)] *)
  Definition heappush (h : list A) (x : A) : list A :=
    siftdown (S (length h)) (h ++ [x]) (length h) x.

  (** [heappop(heap)]; [None] = IndexError on an empty heap *)
  Definition heappop (h : list A) : option (A * list A) :=
    match rev h with
    | [] => None
    | lastelt :: r =>
        match rev r with
        | [] => Some (lastelt, [])
        | top :: h' => Some (top, siftup (length h) (lastelt :: h') 0 lastelt)
        end
    end.
End Heap.
