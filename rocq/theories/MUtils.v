(** Small helpers: common/utils.py [simple_retry], scheduler/utils.py [parse_env] and its
    use in scheduler/runner.py, the custom configuration of scheduler/config.py and
    account/config.py, scheduler/loader.py, and scheduler/api.py [strategy_print]. *)
From Verif Require Import PyStr.
Open Scope list_scope.

(** ** common/utils.py *)

Section Retry.
  Context {W A : Type}.

  (** common/utils.py:23 [if on_exception and not on_exception(e): raise], negated.
      Simplification: [on_exception] itself does not raise. *)
  Definition accepts (on : option (exn -> bool)) (e : exn) : bool :=
    match on with None => true | Some p => p e end.

  (** common/utils.py:18-31, the loop of [_retry].  [left] is [max_attempts - attempts]
      (0 if negative), so [attempts >= max_attempts] is [left = 0].  [f] is the wrapped
      function with its arguments, acting on the world [W]; [sleep] is time.sleep.
      Simplification: only Exception subclasses are raised. *)
  Fixpoint retry_loop (on : option (exn -> bool)) (sleep : W -> W) (f : W -> res A * W) (left : nat) (w : W) : res A * W :=
    match f w with
    | (Ok v, w1) => (Ok v, w1)
    | (Err e, w1) =>
        if accepts on e then
          match left with
          | O => (Err e, w1)
          | S k => retry_loop on sleep f k (sleep w1)
          end
        else (Err e, w1)
    end.

  (** common/utils.py:13-33 [simple_retry]; [max] is [max_attempts] *)
  Definition simple_retry (on : option (exn -> bool)) (max : Z) (sleep : W -> W) (f : W -> res A * W) : W -> res A * W :=
    retry_loop on sleep f (Z.to_nat max).

  (** account/trade_gate.py:549-550: each [setup] replaces the class attribute [_read_csv]
      by a retrying version of the present one.  [maxs]: the [max_attempts] of the set-ups
      so far, latest first. *)
  Fixpoint after_setups (maxs : list Z) (sleep : W -> W) (f : W -> res A * W) : W -> res A * W :=
    match maxs with
    | [] => f
    | m :: maxs' => simple_retry None m sleep (after_setups maxs' sleep f)
    end.
End Retry.

(** ** scheduler/utils.py and scheduler/runner.py *)

Definition SEMI : N := 59.  Definition EQS : N := 61.  Definition COLON : N := 58.
Definition SLASH : N := 47. Definition DOT : N := 46.

(** scheduler/utils.py:53-62 [parse_env]; unpacking anything but two parts raises ValueError *)
Fixpoint parse_envs (envs : list str) (ret : dict str str) : res (dict str str) :=
  match envs with
  | [] => Ok ret
  | e :: envs' =>
      match split_on EQS (strip e) with
      | [k; v] => parse_envs envs' (dset (strip k) (strip v) ret)
      | _ => Err ValueError
      end
  end.
Definition parse_env (env : str) : res (dict str str) := parse_envs (split_on SEMI env) [].

(** the process environment variables and sys.path *)
Record penv := PEnv { pe_vars : dict str str; pe_path : list str }.

(** [os.environ.update]; an empty name is refused by the system (OSError) *)
Fixpoint environ_update (l : dict str str) (vars : dict str str) : res unit * dict str str :=
  match l with
  | [] => (Ok tt, vars)
  | (k, v) :: l' => match k with [] => (Err OSError, vars) | _ => environ_update l' (dset k v vars) end
  end.

(** scheduler/runner.py:64-68 *)
Definition runner_env (env : option str) (p : penv) : res unit * penv :=
  match (match env with None | Some [] => Ok [] | Some e => parse_env e end) with
  | Err x => (Err x, p)
  | Ok l =>
      let '(r, vars) := environ_update l (pe_vars p) in
      match r with
      | Err x => (Err x, PEnv vars (pe_path p))
      | Ok _ =>
          (Ok tt, PEnv vars
            (match dget (lit "PYTHONPATH") l with
             | None => pe_path p
             | Some v => fold_left (fun path d => d :: path) (rev (split_on COLON v)) (pe_path p)
             end))
      end
  end.

(** ** scheduler/config.py and account/config.py *)

Section Config.
  Context {V : Type}.

  (** scheduler/config.py:38-46, account/config.py:34-42 [_load_config]; [configs] is the
      namespace left by executing the file, [prefix] "SCHEDULER_" or "ACCOUNT_" *)
  Definition load_config (prefix : str) (configs : dict str V) : dict str V :=
    fold_left (fun d '(n, v) => if startswith prefix n then dset (lstrip_chars prefix n) v d else d) configs [].

  (** scheduler/config.py:54-59, account/config.py:49-53; [cfg] is [config.__dict__] *)
  Definition setup_config (prefix : str) (configs : dict str V) (cfg : dict str V) : dict str V :=
    fold_left (fun d '(n, v) => dset n v d) (load_config prefix configs) cfg.
End Config.

Definition SCHED : str := lit "SCHEDULER_".
Definition ACCT : str := lit "ACCOUNT_".
(** the settings of scheduler/config.py:14-31 and account/config.py:8-25 *)
Definition scheduler_settings : list str :=
  [lit "EVENT_DAYS_COUNT"; lit "ENABLE_HISTORY_START"; lit "MARKET_PERIOD"; lit "SETUP_ACCOUNT"; lit "RUNTIME_DIR"].
Definition account_settings : list str :=
  [lit "SYNC_BALANCE"; lit "SYNC_ORDER"; lit "SYNC_INTERNAL"; lit "SYNC_PERIOD"; lit "TRADE_GATE"].

(** ** scheduler/loader.py *)

Fixpoint take_while (f : N -> bool) (s : str) : str :=
  match s with
  | [] => []
  | a :: s' => if f a then a :: take_while f s' else []
  end.
Definition rstrip_slash (s : str) : str := rev (drop_while (N.eqb SLASH) (rev s)).

(** [os.path.split] on POSIX: the head loses trailing slashes unless it consists of them *)
Definition path_split (p : str) : str * str :=
  let not_slash := fun c => negb (SLASH =? c)%N in
  let head := rev (drop_while not_slash (rev p)) in
  let tail := rev (take_while not_slash (rev p)) in
  (match rstrip_slash head with [] => head | h => h end, tail).

(** What [importlib] depends on: sys.modules, built-in and frozen modules, suffixes of
    extension modules, existing files, sys.path. *)
Record imp := Imp { im_modules : list str; im_builtin : list str; im_ext : list str;
                    im_file : str -> bool; im_path : list str }.
Inductive origin := OLoaded (n : str) | OBuiltin (n : str) | OFile (p : str).

(** the file finders: path entry joined with the name; a package wins over a module, an
    extension module over source, source over byte code *)
Definition path_join (d n : str) : str := rstrip_slash d ++ SLASH :: n.
Definition candidates (ext : list str) (d n : str) : list str :=
  map (fun s => path_join d n ++ lit "/__init__" ++ s) (ext ++ [lit ".py"; lit ".pyc"]) ++
  map (fun s => path_join d n ++ s) (ext ++ [lit ".py"; lit ".pyc"]).
(** [importlib.import_module(n)] for a name without dots; None = ModuleNotFoundError.
    Simplification: namespace packages (directories without __init__) are not found. *)
Definition import_module (n : str) (i : imp) : res (option origin) :=
  match n with
  | [] => Err ValueError
  | _ =>
      if memb n (im_modules i) then Ok (Some (OLoaded n))
      else if memb n (im_builtin i) then Ok (Some (OBuiltin n))
      else Ok (option_map OFile (find (im_file i) (flat_map (fun d => candidates (im_ext i) d n) (im_path i))))
  end.

(** scheduler/loader.py:16-20 [Loader.__init__] *)
Definition loader_init (path : str) : str * str :=
  let '(d, f) := path_split path in (match d with [] => lit "." | _ => d end, f).
(** scheduler/loader.py:22-28 [Loader.load] *)
Definition loader_load (path : str) (i : imp) : res (option origin) * imp :=
  let '(d, f) := loader_init path in
  let i' := Imp (im_modules i) (im_builtin i) (im_ext i) (im_file i) (d :: im_path i) in
  (import_module (hd [] (split_on DOT f)) i', i').

(** ** scheduler/api.py *)

(** where print can write to: sys.stdout, a path opened by the function, an object given by the user *)
Inductive sink := Stdout | Path (p : str) | Obj (n : nat).
(** what happens to the files, in order *)
Inductive ioev := EOpen (p : str) | EWrite (s : sink) (t : str) | EFlush (s : sink) | EClose (p : str).

(** keyword arguments; absent = None.  [k_file]: [Some None] is file=None *)
Record pkw := PKw { k_file : option (option sink); k_flush : option bool; k_sep : option str; k_end : option str }.

(** Python's [print] (arguments already converted by [str]) *)
Fixpoint join_str (sep : str) (l : list str) : str :=
  match l with [] => [] | [w] => w | w :: ws => w ++ sep ++ join_str sep ws end.
Definition py_print (args : list str) (k : pkw) : list ioev :=
  let s := match k_file k with Some (Some s) => s | _ => Stdout end in
  let t := join_str (match k_sep k with Some x => x | None => [32%N] end) args
           ++ match k_end k with Some x => x | None => [10%N] end in
  EWrite s t :: (if match k_flush k with Some b => b | None => false end then [EFlush s] else []).

(** scheduler/api.py:30-40 [strategy_print]; [openable]: the log file can be opened *)
Definition strategy_print (out : option str) (openable : str -> bool) (args : list str) (k : pkw) : res unit * list ioev :=
  let k1 := PKw (k_file k) (match k_flush k with Some b => Some b | None => Some true end) (k_sep k) (k_end k) in
  match out, k_file k with
  | Some (c :: p), None =>
      let path := c :: p in
      if openable path then
        (Ok tt, EOpen path :: py_print args (PKw (Some (Some (Path path))) (k_flush k1) (k_sep k1) (k_end k1)) ++ [EClose path])
      else (Err OSError, [])
  | _, _ => (Ok tt, py_print args k1)
  end.
