(** The text of the log (jqtrade/common/log.py:8-31, over Python's logging).

    Simplifications: the clock reading is given in whole microseconds of local time
    (converter and strftime, log.py:9-14); stack_info is not used; the handler's stream takes
    every character. *)
From Verif Require Import PyBase PyStr MTime MDate.
Open Scope Z_scope.

(** logging.getLevelName *)
Definition level_name (l : Z) : str :=
  if l =? 50 then lit "CRITICAL" else if l =? 40 then lit "ERROR" else if l =? 30 then lit "WARNING"
  else if l =? 20 then lit "INFO" else if l =? 10 then lit "DEBUG" else if l =? 0 then lit "NOTSET"
  else lit "Level " ++ str_of_Z l.

(** a log record: time, level, process, logger, message, and the text of the traceback if the
    call was logger.exception *)
Record entry := Entry { n_time : Z; n_level : Z; n_pid : Z; n_logger : str; n_msg : str; n_exc : option str }.

(** log.py:11-18 with the datefmt of log.py:29 and 45; log.py:22 [fmt] *)
Definition line_head (e : entry) : str :=
  lit "[" ++ fmt_dt (n_time e) ++ lit "] [" ++ level_name (n_level e) ++ lit "] [" ++ str_of_Z (n_pid e) ++ lit "] [" ++ n_logger e ++ lit "] ".
(** logging.Formatter.format: the traceback goes on a line of its own *)
Definition line_of (e : entry) : str :=
  let s := line_head e ++ n_msg e in
  match n_exc e with
  | Some (c :: t) => (if N.eqb (List.last s 0%N) 10%N then s else s ++ [10%N]) ++ c :: t
  | _ => s
  end.
(** logging.StreamHandler.emit: the line and the terminator *)
Definition log_text (es : list entry) : str := concat (map (fun e => line_of e ++ [10%N]) es).
