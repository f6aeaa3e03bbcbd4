(** The log files of all task processes of a machine (jqtrade/common/log.py:25-49;
    scheduler/runner.py:53-59), over MLog (who writes where) and MLine (what).

    A step is the start of a process up to its log set-up, or one log call of a process.
    Simplifications: the loggers' own levels are not set (C74); each record reaches the file by
    one write in append mode; two paths name the same file only if they are equal; nothing
    else changes the files. *)
From Verif Require Import PyBase PyStr MLog MLine.
Open Scope list_scope.
Open Scope Z_scope.

Inductive lwev := LwStart (pid : Z) (out : option str) (debug : bool) | LwLog (e : entry).
(** the log set-up of each process, and the texts of the files *)
Record lworld := LWorld { lw_procs : dict Z logst; lw_files : dict str str }.

(** the record of an entry; loggers below "user" count as it *)
Definition rec_of (e : entry) : lrec :=
  LRec (if str_eqb (n_logger e) (lit "user") || startswith (lit "user.") (n_logger e) then LUser else LSystem) (n_level e) (line_of e).
Definition text_in (f : str) (fs : dict str str) : str := match dget f fs with Some t => t | None => [] end.
(** logging.StreamHandler.emit on a logging.FileHandler, mode 'a' *)
Definition write_out (fs : dict str str) (o : dest * lrec) : dict str str :=
  match fst o with
  | LogFile f => dset f (text_in f fs ++ r_text (snd o) ++ [10%N]) fs
  | _ => fs
  end.
Definition lw_step (w : lworld) (v : lwev) : lworld :=
  match v with
  | LwStart pid out debug =>
      (* opening the file for appending makes it *)
      LWorld (dset pid (runner_log out debug log_init) (lw_procs w))
             (match out with Some (c :: f) => dset (c :: f) (text_in (c :: f) (lw_files w)) (lw_files w) | _ => lw_files w end)
  | LwLog e =>
      let s := match dget (n_pid e) (lw_procs w) with Some s => s | None => log_init end in
      let s' := log_call (rec_of e) s in
      LWorld (dset (n_pid e) s' (lw_procs w))
             (fold_left write_out (skipn (length (lg_written s)) (lg_written s')) (lw_files w))
  end.
