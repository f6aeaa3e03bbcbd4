(** Logging with the strategy's time (jqtrade/common/log.py:52-67 [set_log_context]), over
    Python's logging.

    Simplifications: the records are those that passed the logger's own level (MLog); all
    handlers are those of [setup_logger] and [setup_file_logger], hence StreamHandlers; the
    handler's stream takes every character; years have four digits; a context is a number,
    and what its strategy_dt gives when a record is logged is given with the record. *)
From Verif Require Import PyBase PyStr MTime MDate MLog MLine.
Open Scope list_scope.
Open Scope Z_scope.

(** strftime("%Y-%m-%d %H:%M:%S") *)
Definition second_text (t : Z) : str :=
  let '(y, m, d) := civil_of_days (dt_date t) in
  let s := dt_time t in
  digits 4 y ++ 45%N :: digits 2 m ++ 45%N :: digits 2 d ++ 32%N ::
  digits 2 (s / US / 3600) ++ 58%N :: digits 2 (s / US / 60 mod 60) ++ 58%N :: digits 2 (s / US mod 60).
(** str() of a datetime: microseconds only if there are any; str(None) *)
Definition str_dt (x : option Z) : str :=
  match x with
  | Some t => second_text t ++ (if dt_time t mod US =? 0 then [] else 46%N :: digits 6 (dt_time t mod US))
  | None => lit "None"
  end.

(** log.py:59-60: [strategy_fmt], with a comma before the microseconds *)
Definition ctx_head (e : entry) (x : option Z) : str :=
  lit "[" ++ second_text (n_time e) ++ 44%N :: digits 6 (dt_time (n_time e) mod US) ++ lit "] [" ++ level_name (n_level e) ++ lit "] [" ++
  str_of_Z (n_pid e) ++ lit "] [" ++ n_logger e ++ lit "] [STRATEGY_DT=" ++ str_dt x ++ lit "] ".
(** logging.Formatter.format, as MLine.line_of *)
Definition ctx_line (e : entry) (x : option Z) : str :=
  let s := ctx_head e x ++ n_msg e in
  match n_exc e with
  | Some (c :: t) => (if N.eqb (List.last s 0%N) 10%N then s else s ++ [10%N]) ++ c :: t
  | _ => s
  end.

(** a handler of the root logger: where it writes, its level, whether its formatter is that of
    log.py:60, and the contexts of its filters *)
Record chandler := CHandler { ch_dest : dest; ch_level : Z; ch_fmt : bool; ch_filters : list nat }.

(** log.py:61-64: every handler gets the formatter and one more filter *)
Definition set_log_context (c : nat) (hs : list chandler) : list chandler :=
  map (fun h => CHandler (ch_dest h) (ch_level h) true (ch_filters h ++ [c])) hs.
(** log.py:25-38 and 40-49: a handler is added to the root logger *)
Definition add_handler (d : dest) (l : Z) (hs : list chandler) : list chandler := hs ++ [CHandler d l false []].

(** logging.Filterer.filter with the ContextFilters (log.py:54-57): each sets the record's
    strategy_dt and lets it pass.  [at_] is the attribute, None while the record has none; an
    exception is not caught *)
Fixpoint run_filters (clock : nat -> res (option Z)) (fs : list nat) (at_ : option (option Z)) : res (option (option Z)) :=
  match fs with
  | [] => Ok at_
  | c :: fs' => match clock c with Ok x => run_filters clock fs' (Some x) | Err e => Err e end
  end.
(** logging.Logger.callHandlers, Handler.handle and StreamHandler.emit: a record without the
    attribute cannot be formatted with log.py:59; that error is only reported on stderr.
    The result: what was written, and the exception that left the log call *)
Fixpoint call_handlers (clock : nat -> res (option Z)) (e : entry) (at_ : option (option Z)) (hs : list chandler) : list (dest * str) * option exn :=
  match hs with
  | [] => ([], None)
  | h :: hs' =>
      if ch_level h <=? n_level e then
        match run_filters clock (ch_filters h) at_ with
        | Err x => ([], Some x)
        | Ok at' =>
            let out := if ch_fmt h then match at' with Some x => [(ch_dest h, ctx_line e x ++ [10%N])] | None => [] end
                       else [(ch_dest h, line_of e ++ [10%N])] in
            let '(w, r) := call_handlers clock e at' hs' in (out ++ w, r)
        end
      else call_handlers clock e at_ hs'
  end.

(** what sets up the log of a process *)
Inductive cevent := CAdd (d : dest) (l : Z) | CContext (c : nat).
Definition c_step (hs : list chandler) (v : cevent) : list chandler :=
  match v with CAdd d l => add_handler d l hs | CContext c => set_log_context c hs end.
(** one log call in a process that was set up by [vs] *)
Definition ctx_log (vs : list cevent) (clock : nat -> res (option Z)) (e : entry) : list (dest * str) * option exn :=
  call_handlers clock e None (fold_left c_step vs []).
