(** jqtrade/__main__.py:54-77 [get_tasks], on a process table that does not change meanwhile. *)
From Verif Require Import PyBase PyStr MTasks.
Open Scope list_scope.

(** the fields of one printed block *)
Record tentry := TEntry { te_name : str; te_pid : Z; te_code : str; te_out : option str; te_env : option str; te_debug : bool; te_cmd : list str }.

(** what is printed: the line that there are no tasks, or the title and some blocks *)
Inductive listing := LNoTasks | LBlocks (l : list tentry).

(** lines 64-77; the format string needs "name" first, then "code" (KeyError for either);
    the blocks printed so far are kept when an exception ends the loop *)
Fixpoint print_tasks (l : list proc) (shown : list tentry) : res unit * list tentry :=
  match l with
  | [] => (Ok tt, shown)
  | p :: l' =>
      match parse_task_info (p_cmd p) with
      | Err x => (Err x, shown)
      | Ok i =>
          match ti_name i, ti_code i with
          | Some n, Some c => print_tasks l' (shown ++ [TEntry n (p_pid p) c (ti_out i) (ti_env i) (ti_debug i) (p_cmd p)])
          | _, _ => (Err KeyError, shown)
          end
      end
  end.
Definition get_tasks (table : list proc) : res unit * option listing :=
  match get_active table with
  | Err x => (Err x, None)
  | Ok [] => (Ok tt, Some LNoTasks)
  | Ok active => let '(r, l) := print_tasks active [] in (r, Some (LBlocks l))
  end.
