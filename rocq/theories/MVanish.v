(** The commands about tasks while processes come and go: scheduler/utils.py:20-50
    [get_activate_task_process], __main__.py:55-123 [get_tasks] and [stop_task],
    scheduler/runner.py:21-31 [_exist_repeated_task].  In MTasks.v, MGetTasks.v and MStart.v
    the process table stands still and signals can be sent; here every question put to a
    process has its own answer, which may be an error. *)
From Verif Require Import PyBase PyStr MTasks MGetTasks.
Open Scope list_scope.

(** One psutil.Process and its answers: the command line (utils.py:29), the parent's pid
    (utils.py:32), whether the name holds "python" (utils.py:34), the command line when it is
    read again (__main__.py:68, 116, runner.py:29), and what becomes of the signal
    (__main__.py:98, 102).  NoSuchProcess stands for its subclass ZombieProcess too. *)
Record view := View { v_pid : Z; v_cmd : res (list str); v_ppid : res Z; v_python : res bool; v_again : res (list str); v_kill : res unit }.

(** What the commands do that can be seen: the lines printed (utils.py:49, __main__.py:63, 66,
    72-78, 99, 103, 121, 123) and the signals. *)
Inductive act :=
| SayDenied | SayNoTasks | SayTitle | SayBlock (e : tentry)
| Signal (pid : Z) (s : signal) | SayForced (pid : Z) | SayTried (pid : Z) | SayNothing | SayHint.

(** utils.py:34-39: after AccessDenied; [listed]: the process is in task_process already *)
Definition denied (p : view) (listed : bool) : res (bool * option Z) :=
  match v_python p with Ok true => Err AccessDenied | Ok false => Ok (listed, None) | Err x => Err x end.
(** utils.py:28-41: whether the process is put in task_process, and what in parent_pid *)
Definition look (p : view) : res (bool * option Z) :=
  match v_cmd p with
  | Ok cmd =>
      if mentions cmd then
        match v_ppid p with
        | Ok q => Ok (true, Some q)
        | Err AccessDenied => denied p true
        | Err NoSuchProcess => Ok (true, None)
        | Err x => Err x
        end
      else Ok (false, None)
  | Err AccessDenied => denied p false
  | Err NoSuchProcess => Ok (false, None)
  | Err x => Err x
  end.
(** utils.py:27-41 *)
Fixpoint scan_views (l : list view) (tasks : list view) (parents : list Z) : res (list view * list Z) :=
  match l with
  | [] => Ok (tasks, parents)
  | p :: l' =>
      match look p with
      | Err x => Err x
      | Ok (b, q) => scan_views l' (if b then tasks ++ [p] else tasks) (match q with Some z => parents ++ [z] | None => parents end)
      end
  end.
(** utils.py:20-50 *)
Definition active_views (l : list view) : res (list view) * list act :=
  match scan_views l [] [] with
  | Ok (tasks, parents) => (Ok (filter (fun p => negb (memb (v_pid p) parents)) tasks), [])
  | Err AccessDenied => (Err AccessDenied, [SayDenied])
  | Err x => (Err x, [])
  end.

(** __main__.py:96-104 [_kill] *)
Definition kill_view (force : bool) (p : view) : res (list act) :=
  match v_kill p with
  | Ok _ => Ok (if force then [Signal (v_pid p) SIGKILL; SayForced (v_pid p)] else [Signal (v_pid p) SIGTERM; SayTried (v_pid p)])
  | Err x => Err x
  end.
(** __main__.py:106-108; [done_]: what was done so far *)
Fixpoint kill_all (force : bool) (l : list view) (done_ : list act) : res unit * list act :=
  match l with
  | [] => (Ok tt, done_)
  | p :: l' => match kill_view force p with Ok a => kill_all force l' (done_ ++ a) | Err x => (Err x, done_) end
  end.
(** __main__.py:109-113 *)
Fixpoint kill_pid (force : bool) (pid : option Z) (l : list view) : res unit * list act :=
  match l with
  | [] => (Ok tt, [])
  | p :: l' =>
      if eqb (Some (v_pid p)) pid then match kill_view force p with Ok a => (Ok tt, a) | Err x => (Err x, []) end
      else kill_pid force pid l'
  end.
(** __main__.py:114-118 *)
Fixpoint kill_named (force : bool) (n : option str) (l : list view) (done_ : list act) : res unit * list act :=
  match l with
  | [] => (Ok tt, done_)
  | p :: l' =>
      match rbind (v_again p) parse_task_info with
      | Err x => (Err x, done_)
      | Ok i =>
          match ti_name i with
          | None => (Err KeyError, done_)
          | Some m =>
              if eqb n (Some m) then match kill_view force p with Ok a => kill_named force n l' (done_ ++ a) | Err x => (Err x, done_) end
              else kill_named force n l' done_
          end
      end
  end.
(** __main__.py:81-123 [stop_task] *)
Definition stop_views (o : stopts) (l : list view) : res unit * list act :=
  match active_views l with
  | (Err x, said) => (Err x, said)
  | (Ok active, said) =>
      if negb (truthy_str (st_name o)) && negb (truthy_pid (st_pid o)) && negb (st_all o) then (Err ValueError, said)
      else
        let '(r, a) :=
          if st_all o then kill_all (st_force o) active []
          else if truthy_pid (st_pid o) then kill_pid (st_force o) (st_pid o) active
          else kill_named (st_force o) (st_name o) active [] in
        match r with
        | Err x => (Err x, a)
        | Ok _ => (Ok tt, a ++ match a with [] => [SayNothing] | _ => if st_force o then [] else [SayHint] end)
        end
  end.

(** __main__.py:67-78 *)
Fixpoint print_views (l : list view) (done_ : list act) : res unit * list act :=
  match l with
  | [] => (Ok tt, done_)
  | p :: l' =>
      match v_again p with
      | Err x => (Err x, done_)
      | Ok cmd =>
          match parse_task_info cmd with
          | Err x => (Err x, done_)
          | Ok i =>
              match ti_name i, ti_code i with
              | Some n, Some c => print_views l' (done_ ++ [SayBlock (TEntry n (v_pid p) c (ti_out i) (ti_env i) (ti_debug i) cmd)])
              | _, _ => (Err KeyError, done_)
              end
          end
      end
  end.
(** __main__.py:55-78 [get_tasks] *)
Definition list_views (l : list view) : res unit * list act :=
  match active_views l with
  | (Err x, said) => (Err x, said)
  | (Ok [], said) => (Ok tt, said ++ [SayNoTasks])
  | (Ok active, said) => print_views active [SayTitle]
  end.

(** runner.py:26-31 *)
Fixpoint same_view (pid ppid : Z) (name : str) (l : list view) : res bool :=
  match l with
  | [] => Ok false
  | p :: l' =>
      if memb (v_pid p) [pid; ppid] then same_view pid ppid name l'
      else do i <- rbind (v_again p) parse_task_info;
           match ti_name i with
           | None => Err KeyError
           | Some n => if eqb name n then Ok true else same_view pid ppid name l'
           end
  end.
(** runner.py:21-31 [_exist_repeated_task] *)
Definition repeated_views (pid ppid : Z) (name : str) (l : list view) : res bool :=
  do active <- fst (active_views l); same_view pid ppid name active.
