(** What C99 means by its words: why a loop ends, and what a process does of its own. *)
From Verif Require Import PyBase MQueue MLoop.
Open Scope Z_scope.

Section End.
  Context {C W O : Type} (h : handler C W O).

  (** the reasons for ending: a signal is delivered, stop() is called from outside, an exit
      checker says so about the next message, nothing is queued, or a callback fails or
      calls stop() *)
  Inductive ends_by (s : lstate C W) : label C O -> Prop :=
  | by_signal : ends_by s LSignal
  | by_stop : ends_by s (LOther AStop)
  | by_exit now : l_mode s = Checking -> queued s <> [] -> (forall m, In m (queued s) -> now < m_time m) -> ends_by s (LTurn now true)
  | by_empty now ex : l_mode s = Checking -> queued s = [] -> ends_by s (LTurn now ex)
  | by_callback m o w' acts e : l_mode s = Running m -> h (m_cb m) o (l_w s) = (w', acts, e) ->
      e <> None \/ In AStop acts -> ends_by s (LDone o).
End End.

(** nobody tells the process to stop *)
Definition untold {C O} (l : label C O) : Prop :=
  match l with LSignal | LOther AStop | LTurn _ true => False | _ => True end.
(** steps the process makes without anybody else *)
Definition by_itself {C O} (l : label C O) : Prop :=
  match l with LSigArrive | LOther _ => False | _ => True end.
(** it has ended *)
Definition ended {C W} (s : lstate C W) : Prop := exists r, l_mode s = Returned r.
