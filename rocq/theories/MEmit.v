(** EventBus.emit when the callbacks themselves register or unregister callbacks
    (jqtrade/scheduler/bus.py, lines 47-62).  The bus is within reach of every callback:
    [Context.get_instance().event_bus] (scheduler/context.py, lines 37-39 and 61-65).
    [K]: event classes; [C]: callbacks; [E]: events; [W]: everything else a callback
    can change; [V]: return values.
    [act c e s]: the changes the call [c(e)] makes to the bus, in order, the new
    rest of the world, and its return value or exception.  A nested emit is covered:
    it changes the bus only by what its callbacks do, which are then part of the
    changes of the outer callback.
    Simplification: the debug and error log calls (lines 29, 38, 45, 59) have no
    effect. *)
From Verif Require Import PyBase MBus.
Open Scope Z_scope.

(** how emit ends: it returns, a callback's exception passes through, the
    OrderedDict iterator raises RuntimeError ("OrderedDict mutated during
    iteration"), or the steps allowed for one list are used up *)
Inductive eend := EndDone | EndRaise (x : exn) | EndChanged | EndFuel.

Section Emit.
  Context {K C E W V : Type} `{Eqb K} `{Eqb C} (inst : E -> K -> bool)
          (act : C -> E -> W -> list (bop K C) * W * res V).

  (** the bus, the rest of the world, the calls made (each with the bus it was made
      from), and [ret] (line 53) *)
  Record est := Est { e_bus : bus K C; e_rest : W; e_calls : list (bus K C * C); e_ret : list V }.

  (** lines 60-61: one callback is called and its value appended *)
  Definition call1 (e : E) (c : C) (x : est) : est * option exn :=
    let '(ops, s', r) := act c e (e_rest x) in
    let b' := fold_left b_step ops (e_bus x) in
    let cs := e_calls x ++ [(e_bus x, c)] in
    match r with
    | Ok v => (Est b' s' cs (e_ret x ++ [v]), None)
    | Err er => (Est b' s' cs (e_ret x), Some er)
    end.

  (** the list [self._subscribes[k][p]] as it is now *)
  Definition now_at (k : K) (p : Z) (b : bus K C) : list C :=
    dflt (dget p (dflt (dget k b) [])) [].

  (** line 58: [for _callback in list] is iteration by index over the live list;
      it ends when the index reaches the length the list has then *)
  Fixpoint iter_list (fuel : nat) (e : E) (k : K) (p : Z) (i : nat) (x : est) : est * eend :=
    match nth_error (now_at k p (e_bus x)) i with
    | None => (x, EndDone)
    | Some c =>
        match fuel with
        | O => (x, EndFuel)
        | S n =>
            match call1 e c x with
            | (x', Some er) => (x', EndRaise er)
            | (x', None) => iter_list n e k p (S i) x'
            end
        end
    end.

  (** line 57: [sorted] makes a new list of the priorities; each list is looked up
      when its turn comes *)
  Fixpoint iter_prios (fuel : nat) (e : E) (k : K) (ps : list Z) (x : est) : est * eend :=
    match ps with
    | [] => (x, EndDone)
    | p :: ps' =>
        match iter_list fuel e k p 0 x with
        | (x', EndDone) => iter_prios fuel e k ps' x'
        | r => r
        end
    end.

  (** lines 54-56: the iterator of the OrderedDict knows its next key in advance.
      With no next key it stops; otherwise it raises RuntimeError if classes were
      added since it was made (classes are never removed).  [n]: the number of
      classes when it was made; [ks]: the keys to come. *)
  Fixpoint iter_classes (fuel : nat) (e : E) (n : nat) (ks : list K) (x : est) : est * eend :=
    match ks with
    | [] => (x, EndDone)
    | k :: ks' =>
        if negb (Nat.eqb (length (e_bus x)) n) then (x, EndChanged)
        else if inst e k then
          match iter_prios fuel e k (sort_by (fun p => - p) (dkeys (dflt (dget k (e_bus x)) []))) x with
          | (x', EndDone) => iter_classes fuel e n ks' x'
          | r => r
          end
        else iter_classes fuel e n ks' x
    end.

  (** lines 47-62; [fuel]: the most callbacks called from one list *)
  Definition emit_live (fuel : nat) (e : E) (b : bus K C) (s : W) : est * eend :=
    iter_classes fuel e (length b) (dkeys b) (Est b s [] []).
End Emit.
Arguments est : clear implicits.
