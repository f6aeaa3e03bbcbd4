(** Model of EventBus (jqtrade/scheduler/bus.py).
    [K]: event classes; [C]: callbacks with Python equality; [E]: events;
    [inst e k] is [isinstance(e, k)].
    Simplification: callbacks do not register or unregister while an event is being
    delivered; [MEmit] drops this. *)
From Verif Require Import PyBase.
Open Scope Z_scope.

Section Bus.
  Context {K C E : Type} `{Eqb K} `{Eqb C} (inst : E -> K -> bool).

  (** line 18 [_subscribes]: OrderedDict class -> {priority -> [callbacks]} *)
  Definition bus := dict K (dict Z (list C)).
  Definition bus_new : bus := [].

  Definition dflt {V} (o : option V) (v : V) : V := match o with Some x => x | None => v end.

  (** line 30: setdefault(cls, {}).setdefault(priority, []).append(callback) *)
  Definition register (k : K) (c : C) (p : Z) (b : bus) : bus :=
    let subs := dflt (dget k b) [] in
    dset k (dset p (dflt (dget p subs) [] ++ [c]) subs) b.

  (** list.remove: the first equal element; unchanged if absent (the ValueError is
      logged, line 44) *)
  Fixpoint remove1 (c : C) (l : list C) : list C :=
    match l with
    | [] => []
    | x :: l' => if eqb c x then l' else x :: remove1 c l'
    end.

  (** lines 40-45 [unregister] *)
  Definition unregister (k : K) (c : C) (b : bus) : bus :=
    match dget k b with
    | None => b
    | Some subs => dset k (map (fun pc => (fst pc, remove1 c (snd pc))) subs) b
    end.

  (** lines 58-61: the callbacks of one class, priorities in descending order *)
  Definition class_calls (subs : dict Z (list C)) : list C :=
    flat_map (fun p => dflt (dget p subs) []) (sort_by (fun p => - p) (dkeys subs)).

  (** lines 53-61: the callbacks to call, in order *)
  Definition calls (e : E) (b : bus) : list C :=
    flat_map (fun ks => if inst e (fst ks) then class_calls (snd ks) else []) b.

  (** the calls are made in order; an exception aborts emit (lines 59-61).
      Result: the callbacks called, and the return values or the exception. *)
  Fixpoint run_calls {V} (f : C -> res V) (cs : list C) : list C * res (list V) :=
    match cs with
    | [] => ([], Ok [])
    | c :: cs' =>
        match f c with
        | Err x => ([c], Err x)
        | Ok v => let '(done, r) := run_calls f cs' in
                  (c :: done, match r with Ok vs => Ok (v :: vs) | Err x => Err x end)
        end
    end.
  Definition emit {V} (f : C -> res V) (e : E) (b : bus) : list C * res (list V) :=
    run_calls f (calls e b).

  Inductive bop := Reg (k : K) (c : C) (p : Z) | Unreg (k : K) (c : C).
  Definition b_step (b : bus) (o : bop) : bus :=
    match o with Reg k c p => register k c p b | Unreg k c => unregister k c b end.
  Definition b_run (ops : list bop) : bus := fold_left b_step ops bus_new.
End Bus.
Arguments bop : clear implicits.
Arguments bus : clear implicits.
