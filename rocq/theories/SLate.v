(** Specification of how late callbacks start (C95). *)
From Coq Require Import Sorted.
From Verif Require Import PyBase MQueue MLoop.
Open Scope Z_scope.

(** No other thread pushes messages. *)
Definition no_push {C O} (l : label C O) : Prop :=
  match l with LOther (APush _ _ _) => False | _ => True end.

(** The execution of [ls] from [s] keeps time: the loop looks at its queue at [due] at the
    latest; a callback for message [m] is over [w m] after it was started, and the loop is
    woken at most [lat] after the time its timer is aimed at. *)
Fixpoint in_time {C W O} (h : handler C W O) (w : msg C -> Z) (lat due : Z) (s : lstate C W) (ls : list (label C O)) : Prop :=
  match ls with
  | [] => True
  | l :: ls' =>
      match l with LTurn now _ => now <= due | _ => True end /\
      match l_step h s l with
      | Some s' =>
          in_time h w lat
            (match l with
             | LTurn now _ => match l_mode s' with
                              | Running m => now + w m
                              | Arming m => m_time m + lat
                              | _ => due
                              end
             | _ => due
             end) s' ls'
      | None => True
      end
  end.

(** the time the callbacks [b] may take together *)
Definition work {C} (w : msg C -> Z) (b : list (msg C * Z)) : Z :=
  fold_right (fun x acc => w (fst x) + acc) 0 b.

(** Every callback starts as if the loop had been woken [lat] late for some callback not
    after it, and had been busy since with the ones in between. *)
Definition waits {C} (w : msg C -> Z) (lat : Z) (log : list (msg C * Z)) : Prop :=
  forall a m t z, log = a ++ (m, t) :: z ->
    exists x b, a = x ++ b /\ t <= m_time (hd m (map fst b)) + lat + work w b.

(** consecutive instants are [T] apart at least *)
Definition spaced (T : Z) (l : list Z) : Prop := StronglySorted (fun a b => a + T <= b) l.

(** Tasks cost [c] each time and come every [T] at most: in any stretch of time of length
    [L] the tasks of [L / T] rounds fit. *)
Definition demand (tasks : list (Z * Z)) (L : Z) : Z :=
  fold_right (fun p acc => fst p * (L / snd p) + acc) 0 tasks.
Definition fits (tasks : list (Z * Z)) : Prop := forall L, 0 <= L -> demand tasks L <= L.

(** the times of the messages of kind [k], in the order of their callbacks *)
Definition of_kind {C} (kind : msg C -> nat) (k : nat) (log : list (msg C * Z)) : list Z :=
  map (fun x => m_time (fst x)) (filter (fun x => Nat.eqb (kind (fst x)) k) log).

(** one round of every task *)
Definition one_each (tasks : list (Z * Z)) : Z := fold_right (fun p acc => fst p + acc) 0 tasks.

(** ** task processes *)
From Verif Require Import PyStr MTime MSched.

(** a callback leaves no messages of its own on the loop *)
Definition no_defer (l : label scb sout) : Prop := match l with LDone o => o_defer o = [] | _ => True end.

(** the loop read its clock before [e] only *)
Definition until (e : Z) (l : label scb sout) : Prop := match l with LTurn now _ => now < e | _ => True end.

(** times of day (microseconds) that are [T] milliseconds apart at least, over midnight too *)
Definition apart (T : Z) (offs : list Z) : Prop :=
  NoDup offs /\ T * 1000 <= DAY /\
  forall a b, In a offs -> In b offs -> a < b -> T * 1000 <= b - a /\ T * 1000 <= a + DAY - b.

(** the kind of a message: the number of the event source it is for *)
Definition source (m : msg scb) : nat := match m_cb m with CSched _ k => k | COther => 0 end.
