(** What C34 means by its words. *)
From Verif Require Import PyBase PyStr MGate MWriter SGate.
Open Scope list_scope.

(** no writer is between opening and closing the file *)
Definition quiet (s : wst) : Prop := forall k, In (w_ph s k) [WIdle; WFinished; WTimedOut; WKilled].
(** everything that can happen from a state on *)
Inductive w_reach (atomic : bool) (header eol : str) (line : nat -> str) (s0 : wst) : wst -> Prop :=
| wr_init : w_reach atomic header eol line s0 s0
| wr_step s k a s' : w_reach atomic header eol line s0 s -> w_step atomic header eol line k a s = Some s' -> w_reach atomic header eol line s0 s'.
(** submission k has completed since then *)
Definition completed (s0 s : wst) (k : nat) : Prop := w_ph s k = WFinished /\ w_ph s0 k <> WFinished.
(** a file of complete lines *)
Definition whole_file (f : str) : Prop := exists ls, Forall whole ls /\ f = concat ls.
(** the lines of a file other than the header *)
Definition not_header (header l : str) : bool := negb (str_eqb l (header ++ [NL])).
Definition body (header f : str) : list str := filter (not_header header) (lines_of f).
Definition headers (header f : str) : nat := length (filter (fun l => negb (not_header header l)) (lines_of f)).
(** writer k is between taking and releasing the lock *)
Definition inside (s : wst) (k : nat) : Prop := (exists n, w_ph s k = WLocked n) \/ (exists t, w_ph s k = WBuffered t).
