(** Specification of event streams (C09, C10): which instants a source owes. *)
From Coq Require Import Permutation Sorted.
From Verif Require Import PyBase MTime MEventSource.
Open Scope Z_scope.

(** A task: offset of its instant from midnight (microseconds) and event class. *)
Definition task := (Z * ecls)%type.

Definition within (st : Z) (en : option Z) (t : Z) : bool :=
  (st <=? t) && match en with Some e => t <=? e | None => true end.

(** the instants of one day that lie in the window, in declaration order *)
Definition day_instants (st : Z) (en : option Z) (tasks : list task) (d : Z) : list (Z * ecls) :=
  filter (fun x => within st en (fst x)) (map (fun t => (d * DAY + fst t, snd t)) tasks).

(** [l] is that day's schedule: the same instants, ordered by time, simultaneous
    ones in declaration order *)
Definition day_ok (st : Z) (en : option Z) (tasks : list task) (d : Z) (l : list (Z * ecls)) : Prop :=
  Permutation l (day_instants st en tasks d) /\
  StronglySorted (fun a b => fst a <= fst b) l /\
  forall t, filter (fun x => Z.eqb (fst x) t) l =
            filter (fun x => Z.eqb (fst x) t) (day_instants st en tasks d).

(** [days] lists, in order, exactly the days lo..hi *)
Definition consecutive (lo hi : Z) (days : list Z) : Prop :=
  (forall d, In d days <-> lo <= d <= hi) /\ StronglySorted Z.lt days.

(** the stream of a source over the days lo..hi: day after day *)
Definition stream_ok (st : Z) (en : option Z) (tasks : list task) (lo hi : Z) (S : list (Z * ecls)) : Prop :=
  exists days ls, consecutive lo hi days /\ Forall2 (day_ok st en tasks) days ls /\ S = concat ls.

(** n successive answers: the stream, then None *)
Definition answers (n : nat) (S : list (Z * ecls)) : list (option (Z * ecls)) :=
  map Some (firstn n S) ++ repeat None (n - length S).
