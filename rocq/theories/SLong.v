(** Specification of task processes that outlive their first window of generated days
    (C90). *)
From Coq Require Import Permutation Sorted.
From Verif Require Import PyBase PyStr MTime MQueue MLoop MSched MStrategy MProcess SEvent SProcess.
Open Scope Z_scope.

(** [a] is a beginning of [b] *)
Definition begins {A} (a b : list A) : Prop := exists t, b = a ++ t.

(** the calls are those owed in windows of [w] days starting on the days [ds]: every window
    but the last one whole, a beginning of the last one *)
Definition in_windows (now : Z) (offs : list Z) (w : Z) (ds : list Z) (calls : list Z) : Prop :=
  exists Ss, Forall2 (fun d S => owed_on now offs d (d + w - 1) S) ds Ss /\
    begins calls (concat Ss) /\ begins (concat (removelast Ss)) calls.

(** the execution of [ls] from [s]: every callback ends on the local day it was due *)
Fixpoint same_day {C W} (h : handler C W sout) (tz : Z) (s : lstate C W) (ls : list (label C sout)) : Prop :=
  match ls with
  | [] => True
  | l :: ls' =>
      match l, l_mode s with
      | LDone o, Running m => o_date2 o = dt_date (m_time m * 1000 + tz)
      | _, _ => True
      end /\
      match l_step h s l with Some s' => same_day h tz s' ls' | None => True end
  end.

(** how often [x] is called *)
Definition times (x : Z) (calls : list Z) : nat := count_occ Z.eq_dec calls x.
