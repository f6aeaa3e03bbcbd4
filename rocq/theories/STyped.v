(** What C140 means by its words: a task started with the documented words, and a machine
    on which all tasks are. *)
From Verif Require Import PyBase PyStr MTasks MGetTasks MMain STasks SStart SMain.
Open Scope list_scope.

(** an option written as documented: one of its names, and its value, not beginning with a
    dash, as the next word *)
Inductive word : aopt * option str * list str -> Prop :=
| w_value k w v : start_valued k = true -> In w (start_names k) -> (forall r, v <> 45%N :: r) -> word (k, Some v, [w; v])
| w_debug : word (ODebug, None, [lit "--debug"]).
(** such options, with a name and a strategy file among them *)
Definition spelled (items : list (aopt * option str * list str)) : Prop := Forall word items /\ given OName items /\ given OCode items.

(** the command line of a task started with them; what stands before [start_task] mentions
    jqtrade, and no word of it is an option of start_task *)
Definition launched (items : list (aopt * option str * list str)) (cmd : list str) : Prop :=
  exists pre, (forall w, In w pre -> ~ In w flags) /\ (exists a b, In (a ++ lit "jqtrade" ++ b) pre) /\ cmd = pre ++ lit "start_task" :: tokens items.

(** a machine on which whatever speaks of start_task is a task started in this way, and no
    task is the parent of another *)
Definition tidy (table : list proc) : Prop :=
  readable table /\ NoDup (map p_pid table) /\
  forall p, In p (seen table) -> speaks (p_cmd p) ->
    (exists items, spelled items /\ launched items (p_cmd p)) /\ forall q, In q (seen table) -> speaks (p_cmd q) -> p_ppid q <> p_pid p.

(** the options of a task, and the block that get_tasks prints, say what was typed: of
    several values the last one *)
Definition as_typed (items : list (aopt * option str * list str)) (o : sopts) : Prop :=
  asked OName items (Some (so_name o)) /\ asked OCode items (Some (so_code o)) /\ asked OOut items (so_out o) /\
  asked OEnv items (so_env o) /\ asked OConfig items (so_config o) /\ (so_debug o = true <-> given ODebug items).
Definition says (items : list (aopt * option str * list str)) (e : tentry) : Prop :=
  asked OName items (Some (te_name e)) /\ asked OCode items (Some (te_code e)) /\ asked OOut items (te_out e) /\
  asked OEnv items (te_env e) /\ (te_debug e = true <-> given ODebug items).
(** a process runs the task of that name *)
Definition task_named (n : str) (p : proc) : Prop := exists items, spelled items /\ launched items (p_cmd p) /\ asked OName items (Some n).
