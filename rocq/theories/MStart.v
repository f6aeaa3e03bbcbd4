(** The start of a task: jqtrade/__main__.py:45-51 [start_task], scheduler/runner.py:21-94
    [TaskRunner], up to the loading of the strategy module.

    Simplifications: the process table does not change during the check (MTasks treats
    concurrent starts); relative paths mean the same throughout, so [abspath] does not
    change the file meant; the root logger writes nowhere before it is set up. *)
From Verif Require Import PyBase PyStr MUtils MTasks MLog.
Open Scope list_scope.

(** The machine as the new process finds it: which paths exist, which log files can be
    opened for appending, the processes, its own pid and its parent's, the home directory
    of the user's account, and the namespace left by executing a configuration file. *)
Record machine (V : Type) := Machine {
  ma_exists : str -> bool; ma_append : str -> bool; ma_procs : list proc; ma_pid : Z; ma_ppid : Z;
  ma_home : str; ma_config : str -> res (dict str V)
}.
Arguments Machine {V}. Arguments ma_exists {V}. Arguments ma_append {V}. Arguments ma_procs {V}. Arguments ma_pid {V}.
Arguments ma_ppid {V}. Arguments ma_home {V}. Arguments ma_config {V}.

(** What the start changes: environment and sys.path, logging, the files opened (created if
    missing, never truncated: mode "a"), the settings in [SchedulerConfig.__dict__]. *)
Record bootst (V : Type) := Boot { bt_env : penv; bt_log : logst; bt_opened : list str; bt_cfg : dict str V }.
Arguments Boot {V}. Arguments bt_env {V}. Arguments bt_log {V}. Arguments bt_opened {V}. Arguments bt_cfg {V}.

(** runner.py:26-31; [KeyError]: a process without a name *)
Fixpoint same_name (pid ppid : Z) (name : str) (l : list proc) : res bool :=
  match l with
  | [] => Ok false
  | p :: l' =>
      if memb (p_pid p) [pid; ppid] then same_name pid ppid name l'
      else do i <- parse_task_info (p_cmd p);
           match ti_name i with
           | None => Err KeyError
           | Some n => if eqb name n then Ok true else same_name pid ppid name l'
           end
  end.
(** runner.py:21-31 [_exist_repeated_task] *)
Definition exist_repeated (pid ppid : Z) (name : str) (table : list proc) : res bool :=
  do active <- get_active table; same_name pid ppid name active.

(** [os.path.expanduser] (posixpath): HOME if it is set, else the account's home.
    Simplification: [~name] is left as it is, as for a user that does not exist. *)
Definition user_path (vars : dict str str) (home p : str) : str :=
  match p with
  | c :: r =>
      if (c =? 126)%N && match r with [] => true | s :: _ => (s =? SLASH)%N end then
        match rstrip_slash (match dget (lit "HOME") vars with Some h => h | None => home end) ++ r with
        | [] => [SLASH]
        | q => q
        end
      else p
  | [] => p
  end.

Section Start.
  Context {V : Type}.

  (** runner.py:53-59 with logging.FileHandler, which opens the file at once *)
  Definition init_log (m : machine V) (o : sopts) (b : bootst V) : res unit * bootst V :=
    match so_out o with
    | Some (c :: f) =>
        if ma_append m (c :: f)
        then (Ok tt, Boot (bt_env b) (runner_log (so_out o) (so_debug o) (bt_log b)) (bt_opened b ++ [c :: f]) (bt_cfg b))
        else (Err OSError, b)
    | _ => (Ok tt, Boot (bt_env b) (runner_log (so_out o) (so_debug o) (bt_log b)) (bt_opened b) (bt_cfg b))
    end.

  (** runner.py:61-65 *)
  Definition init_env (o : sopts) (b : bootst V) : res unit * bootst V :=
    let '(r, e) := runner_env (so_env o) (bt_env b) in (r, Boot e (bt_log b) (bt_opened b) (bt_cfg b)).

  (** runner.py:67-70 and config.py:56 *)
  Definition config_path (m : machine V) (c : str) (b : bootst V) : str := user_path (pe_vars (bt_env b)) (ma_home m) c.
  Definition init_config (m : machine V) (o : sopts) (b : bootst V) : res unit * bootst V :=
    match so_config o with
    | Some (c :: p) => ((if ma_exists m (config_path m (c :: p) b) then Ok tt else Err FileNotFoundError), b)
    | _ => (Ok tt, b)
    end.

  (** runner.py:42-71 [TaskRunner.__init__] *)
  Definition runner_init (m : machine V) (o : sopts) (b : bootst V) : res unit * bootst V :=
    if negb (ma_exists m (so_code o)) then (Err FileNotFoundError, b)
    else match exist_repeated (ma_pid m) (ma_ppid m) (so_name o) (ma_procs m) with
    | Err x => (Err x, b)
    | Ok true => (Err TaskError, b)
    | Ok false =>
        match init_log m o b with
        | (Err x, b1) => (Err x, b1)
        | (Ok _, b1) =>
            match init_env o b1 with
            | (Err x, b2) => (Err x, b2)
            | (Ok _, b2) => init_config m o b2
            end
        end
    end.

  (** runner.py:77-79 and config.py:54-59.  The log line of runner.py:74-75 is left out. *)
  Definition run_config (m : machine V) (o : sopts) (b : bootst V) : res unit * bootst V :=
    match so_config o with
    | Some (c :: p) =>
        match ma_config m (config_path m (c :: p) b) with
        | Err x => (Err x, b)
        | Ok ns => (Ok tt, Boot (bt_env b) (bt_log b) (bt_opened b) (setup_config SCHED ns (bt_cfg b)))
        end
    | _ => (Ok tt, b)
    end.

  (** __main__.py:49-51, runner.py:73-91 and strategy.py:52; [mods], [builtin], [ext] as in
      [imp].  None: ModuleNotFoundError. *)
  Definition start_task (m : machine V) (mods builtin ext : list str) (o : sopts) (b : bootst V) : res (option origin) * bootst V :=
    match runner_init m o b with
    | (Err x, b1) => (Err x, b1)
    | (Ok _, b1) =>
        match run_config m o b1 with
        | (Err x, b2) => (Err x, b2)
        | (Ok _, b2) =>
            let '(r, i) := loader_load (so_code o) (Imp mods builtin ext (ma_exists m) (pe_path (bt_env b2))) in
            (r, Boot (PEnv (pe_vars (bt_env b2)) (im_path i)) (bt_log b2) (bt_opened b2) (bt_cfg b2))
        end
    end.
End Start.
