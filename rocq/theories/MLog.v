(** The log of a task process (jqtrade/common/log.py; scheduler/runner.py:53-59;
    scheduler/strategy.py:82), over Python's logging.

    The loggers are "user" and "system" with the descendants of "system"; all pass their
    records on to the root logger.  Simplifications: the process starts with logging's
    defaults (root level WARNING, no handlers); handlers do not fail; levels are numbers.
    [set_log_context], which only tests call, is in MLogCtx. *)
From Verif Require Import PyBase PyStr.
Open Scope list_scope.
Open Scope Z_scope.

Definition DEBUG : Z := 10. Definition INFO : Z := 20. Definition WARNING : Z := 30.

Inductive dest := Stdout | Stderr | LogFile (path : str).
Record handler := Handler { h_dest : dest; h_level : Z }.
Inductive lname := LUser | LSystem.
(** one line: who, level, text *)
Record lrec := LRec { r_name : lname; r_level : Z; r_text : str }.

(** [lg_user], [lg_system]: the level set on the logger itself, 0 if none was set;
    [lg_written]: not in the code, all that was written so far *)
Record logst := LogSt { lg_root : Z; lg_user : Z; lg_system : Z; lg_handlers : list handler; lg_written : list (dest * lrec) }.
Definition log_init : logst := LogSt WARNING 0 0 [] [].

(** log.py:26-38 [setup_logger]: a new handler has level 0 *)
Definition setup_logger (level : Z) (s : logst) : logst :=
  LogSt level (lg_user s) (lg_system s) (lg_handlers s ++ [Handler Stdout 0]) (lg_written s).
(** log.py:41-49 [setup_file_logger] *)
Definition setup_file_logger (file : str) (level : Z) (s : logst) : logst :=
  LogSt level (lg_user s) (lg_system s) (lg_handlers s ++ [Handler (LogFile file) level]) (lg_written s).
(** runner.py:53-59; [out] is truthy or not *)
Definition runner_log (out : option str) (debug : bool) (s : logst) : logst :=
  let level := if debug then DEBUG else INFO in
  match out with
  | Some (c :: f) => setup_file_logger (c :: f) level s
  | _ => setup_logger level s
  end.

(** logging.Logger.getEffectiveLevel *)
Definition effective (n : lname) (s : logst) : Z :=
  let own := match n with LUser => lg_user s | LSystem => lg_system s end in
  if own =? 0 then lg_root s else own.
(** logging.Logger.log, handle, callHandlers: with no handler at all, lastResort writes
    warnings to stderr *)
Definition log_call (r : lrec) (s : logst) : logst :=
  if effective (r_name r) s <=? r_level r then
    let out := match lg_handlers s with
               | [] => if WARNING <=? r_level r then [(Stderr, r)] else []
               | hs => map (fun h => (h_dest h, r)) (filter (fun h => h_level h <=? r_level r) hs)
               end in
    LogSt (lg_root s) (lg_user s) (lg_system s) (lg_handlers s) (lg_written s ++ out)
  else s.
(** log.setLevel, on one of the loggers *)
Definition set_level (n : lname) (l : Z) (s : logst) : logst :=
  match n with
  | LUser => LogSt (lg_root s) l (lg_system s) (lg_handlers s) (lg_written s)
  | LSystem => LogSt (lg_root s) (lg_user s) l (lg_handlers s) (lg_written s)
  end.

Inductive levent := LeLog (r : lrec) | LeLevel (n : lname) (l : Z).
Definition log_event (s : logst) (e : levent) : logst :=
  match e with LeLog r => log_call r s | LeLevel n l => set_level n l s end.
(** a task process: start-up, then any log calls *)
Definition task_log (out : option str) (debug : bool) (es : list levent) : list (dest * lrec) :=
  lg_written (fold_left log_event es (runner_log out debug log_init)).
