(** Specification for strategies (C14-C16, C19): the instants of a stepped period, and
    what a process_initialize asks for. *)
From Coq Require Import Sorted.
From Verif Require Import PyBase PyStr MTime MStrategy.
Open Scope Z_scope.

(** [l] lists, in order, a, a+step, a+2*step, ... as far as [b], inclusive *)
Definition steps (step a b : Z) (l : list Z) : Prop :=
  StronglySorted Z.lt l /\
  forall t, In t l <-> exists k, 0 <= k /\ t = a + k * step /\ t <= b.

(** the option-list form of a list of (start, end) times *)
Definition raw_of (ps : list (Z * Z)) : rawmp := map (fun p => [TTime (fst p); TTime (snd p)]) ps.

Definition tod_ok (t : Z) : Prop := 0 <= t < DAY.

(** the run_daily calls of process_initialize that ask for a task: function and time *)
Definition asked (cs : list ucall) : list (str * nat * str) :=
  flat_map (fun c => match c with
                     | URun f t => match f_name f with
                                   | Some n => if f_callable f then [(n, f_id f, t)] else []
                                   | None => []
                                   end
                     | _ => []
                     end) cs.

(** the time expression kept for the time given to run_daily *)
Inductive stored : str -> str -> Prop :=
| stored_open : stored (lit "open") (lit "open+0m")
| stored_close : stored (lit "close") (lit "close+0m")
| stored_before : stored (lit "before_open") (lit "open-30m")
| stored_after : stored (lit "after_close") (lit "close+30m")
| stored_other t : ~ In t [lit "open"; lit "close"; lit "before_open"; lit "after_close"] -> stored t t.

(** a call that must be refused once process_initialize is over *)
Definition guarded (c : ucall) : Prop := match c with UBind _ _ => False | _ => True end.
