(** What C41, C42 and C45 mean by their words. *)
From Verif Require Import PyBase PyStr MOrder MAccount MGate MPersist.
Open Scope list_scope.
Open Scope Z_scope.

Inductive p_reach (posix : bool) : pst -> Prop :=
| pr_init d : p_reach posix (p_init d)
| pr_step s l s' : p_reach posix s -> p_step posix l s = Some s' -> p_reach posix s'.
(** a complete save file, or none *)
Definition intact (f : option fcont) : Prop := f <> Some FTorn.
(** order() returned this id; the process was set up on that day, the date was that one *)
Definition acked (s : pst) (day date : Z) (id : str) : Prop := In (day, date, id) (ps_acked s).
Definition known (s : pst) (id : str) : Prop := In id (dkeys (ps_mem s)).
Definition has_line (s : pst) (id : str) : Prop := In id (map snd (ps_lines s)).
