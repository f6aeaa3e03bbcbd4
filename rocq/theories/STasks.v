(** What C47, C48 and C49 mean by their words. *)
From Verif Require Import PyStr MTasks.
Open Scope list_scope.

(** the option names of start_task as documented *)
Definition flags : list str :=
  [lit "-n"; lit "--name"; lit "-c"; lit "--code"; lit "-o"; lit "--out"; lit "-e"; lit "--env"; lit "--config"; lit "--debug"].

(** a process whose command line speaks of jqtrade and start_task *)
Definition speaks (cmd : list str) : Prop :=
  exists a b c d, join_with 32%N cmd = a ++ lit "jqtrade" ++ b /\ join_with 32%N cmd = c ++ lit "start_task" ++ d.
(** ... and that is not the parent of another such process *)
Definition active_in (table : list proc) (p : proc) : Prop :=
  In p table /\ speaks (p_cmd p) /\ ~ exists q, In q table /\ speaks (p_cmd q) /\ p_ppid q = p_pid p.
(** the name the task was started with can be read off the command line *)
Definition named (n : str) (cmd : list str) : Prop := exists i, parse_task_info cmd = Ok i /\ ti_name i = Some n.

(** A machine on which no task is the parent of a process that speaks of start_task, and
    tasks are started with the documented spellings (see C47). *)
Definition sane (m : mach) : Prop :=
  (forall j k p q, m_live m j = Some p -> m_live m k = Some q -> speaks (p_cmd p) -> speaks (p_cmd q) -> p_ppid q <> j) /\
  (forall k p n, m_live m k = Some p -> p_task p = Some n -> speaks (p_cmd p) /\ p_denied p = false /\ named n (p_cmd p)).
(** all that can happen from a machine on which no task is being started or running *)
Inductive reach : mach -> Prop :=
| r_init m : (forall k p, m_live m k = Some p -> p_pid p = k /\ In k (m_used m) /\ In (p_ppid p) (m_used m)) ->
    (forall k, m_phase m k = PNew) -> sane m -> reach m
| r_step m l m' : reach m -> m_step l m = Some m' -> sane m' -> reach m'.
