(** Model of the saved order book (jqtrade/account/trade_gate.py: order 238-278,
    _save_orders 493-497, _load_orders 499-512, setup 519-555) in single disk steps, with
    the process killed at any point.

    MGate.v has the same functions in one step each (see [C42_steps]).  Simplifications:
    the order file is kept as the list of complete lines, given by date and order id;
    dumping and loading JSON is the identity; the directory is writable or the step fails. *)
From Verif Require Import PyBase PyStr MTime MOrder MAccount MGate.
Open Scope Z_scope.

(** what a save file holds: a complete dump, or part of one *)
Inductive fcont := FSnap (o : dict str oinfo) | FTorn.

(** how far the strategy process is; [why] is the order being submitted, None for a sync *)
Inductive pc :=
| PDown
| PIdle
| PSubmit (id : str) (i : oinfo)     (* order(): nothing on disk yet *)
| PWritten (id : str) (i : oinfo)    (* 272: the line is in the order file *)
| PSave (why : option str)           (* 277-278, 477: _orders is up to date *)
| PTmp (why : option str)            (* 495-496: temporary file opened, partly written *)
| PDumped (why : option str)         (* 496: temporary file complete *)
| PCopy (why : option str)           (* 497: shutil.move copying, Windows only *)
| PCopied (why : option str)         (* 497: copied, temporary file not yet removed *)
| PMoved (why : option str).         (* end of _save_orders *)

(** [ps_day]: the date in _data_file; [ps_date]: the date of ctx.current_dt.  The last three
    are not in the code: the lines of the order file, the orders acknowledged (day and date
    at that time, id), the ids of submissions that ended by an exception or a kill. *)
Record pst := PSt {
  ps_pc : pc;
  ps_mem : dict str oinfo;           (* _orders *)
  ps_day : Z; ps_date : Z;
  ps_data : dict Z fcont;            (* <task>_<date>.json *)
  ps_tmp : dict Z fcont;             (* <task>_<date>.json.tmp *)
  ps_lines : list (Z * str);
  ps_acked : list (Z * Z * str);
  ps_broken : list str
}.

Inductive plab :=
| LOrder (id : str) (i : oinfo)      (* order() is called *)
| LSync (o : dict str oinfo)         (* sync_orders() has read the files *)
| LStep                              (* the next disk step *)
| LFail                              (* it raises an exception instead *)
| LKill
| LStart                             (* a new process calls setup() *)
| LSetup                             (* setup() is called again *)
| LDay (d : Z).                      (* the date changes *)

Definition of_why (why : option str) : list str := match why with Some id => [id] | None => [] end.
Definition in_hand (p : pc) : list str :=
  match p with
  | PSubmit id _ | PWritten id _ => [id]
  | PSave w | PTmp w | PDumped w | PCopy w | PCopied w | PMoved w => of_why w
  | _ => []
  end.

Section Persist.
  (** [posix]: os.rename replaces an existing file atomically.  On Windows it raises
      FileExistsError, upon which shutil.move copies the contents and removes the source. *)
  Context (posix : bool).

  Definition p_set (p : pc) (s : pst) : pst :=
    PSt p (ps_mem s) (ps_day s) (ps_date s) (ps_data s) (ps_tmp s) (ps_lines s) (ps_acked s) (ps_broken s).
  Definition p_mem (m : dict str oinfo) (s : pst) : pst :=
    PSt (ps_pc s) m (ps_day s) (ps_date s) (ps_data s) (ps_tmp s) (ps_lines s) (ps_acked s) (ps_broken s).
  Definition p_files (d t : dict Z fcont) (s : pst) : pst :=
    PSt (ps_pc s) (ps_mem s) (ps_day s) (ps_date s) d t (ps_lines s) (ps_acked s) (ps_broken s).
  Definition p_line (id : str) (s : pst) : pst :=
    PSt (ps_pc s) (ps_mem s) (ps_day s) (ps_date s) (ps_data s) (ps_tmp s) (ps_lines s ++ [(ps_date s, id)]) (ps_acked s) (ps_broken s).
  Definition p_ack (why : option str) (s : pst) : pst :=
    PSt (ps_pc s) (ps_mem s) (ps_day s) (ps_date s) (ps_data s) (ps_tmp s) (ps_lines s)
      (match why with Some id => ps_acked s ++ [(ps_day s, ps_date s, id)] | None => ps_acked s end) (ps_broken s).
  Definition p_break (s : pst) : pst :=
    PSt (ps_pc s) (ps_mem s) (ps_day s) (ps_date s) (ps_data s) (ps_tmp s) (ps_lines s) (ps_acked s) (ps_broken s ++ in_hand (ps_pc s)).

  (** lines 499-512 [_load_orders]: what _orders is afterwards *)
  Definition load_orders (d : Z) (data : dict Z fcont) (old : dict str oinfo) : dict str oinfo :=
    match dget d data with Some (FSnap o) => o | _ => old end.

  Definition p_step (l : plab) (s : pst) : option pst :=
    match l, ps_pc s with
    | LOrder id i, PIdle => Some (p_set (PSubmit id i) s)
    | LSync o, PIdle => if eqb (dkeys o) (dkeys (ps_mem s)) then Some (p_set (PSave None) (p_mem o s)) else None
    | LStep, PSubmit id i => Some (p_set (PWritten id i) (p_line id s))
    | LStep, PWritten id i => Some (p_set (PSave (Some id)) (p_mem (dset id i (ps_mem s)) s))
    | LStep, PSave w => Some (p_set (PTmp w) (p_files (ps_data s) (dset (ps_day s) FTorn (ps_tmp s)) s))
    | LStep, PTmp w => Some (p_set (PDumped w) (p_files (ps_data s) (dset (ps_day s) (FSnap (ps_mem s)) (ps_tmp s)) s))
    | LStep, PDumped w =>
        match dget (ps_day s) (ps_tmp s) with
        | Some c =>
            if posix || negb (dmem (ps_day s) (ps_data s))
            then Some (p_set (PMoved w) (p_files (dset (ps_day s) c (ps_data s)) (dpop (ps_day s) (ps_tmp s)) s))
            else Some (p_set (PCopy w) (p_files (dset (ps_day s) FTorn (ps_data s)) (ps_tmp s) s))
        | None => None
        end
    | LStep, PCopy w =>
        match dget (ps_day s) (ps_tmp s) with
        | Some c => Some (p_set (PCopied w) (p_files (dset (ps_day s) c (ps_data s)) (ps_tmp s) s))
        | None => None
        end
    | LStep, PCopied w => Some (p_set (PMoved w) (p_files (ps_data s) (dpop (ps_day s) (ps_tmp s)) s))
    | LStep, PMoved w => Some (p_set PIdle (p_ack w s))
    | LFail, PDown | LFail, PIdle | LFail, PMoved _ => None
    | LFail, _ => Some (p_set PIdle (p_break s))
    | LKill, PDown => None
    | LKill, _ => Some (p_set PDown (p_mem [] (p_break s)))
    | LStart, PDown =>
        Some (PSt PIdle (load_orders (ps_date s) (ps_data s) []) (ps_date s) (ps_date s) (ps_data s) (ps_tmp s) (ps_lines s) (ps_acked s) (ps_broken s))
    | LSetup, PIdle =>
        Some (PSt PIdle (load_orders (ps_date s) (ps_data s) (ps_mem s)) (ps_date s) (ps_date s) (ps_data s) (ps_tmp s) (ps_lines s) (ps_acked s) (ps_broken s))
    | LDay d, _ =>
        if ps_date s <? d
        then Some (PSt (ps_pc s) (ps_mem s) (ps_day s) d (ps_data s) (ps_tmp s) (ps_lines s) (ps_acked s) (ps_broken s))
        else None
    | _, _ => None
    end.
  Fixpoint p_run (ls : list plab) (s : pst) : option pst :=
    match ls with
    | [] => Some s
    | l :: ls' => match p_step l s with Some s' => p_run ls' s' | None => None end
    end.
End Persist.

(** a machine on which the task never ran *)
Definition p_init (d : Z) : pst := PSt PDown [] d d [] [] [] [] [].
