(** Tasks as operating system processes: the command line (jqtrade/__main__.py),
    scheduler/utils.py, the start-up check of scheduler/runner.py, and stop_task. *)
From Verif Require Import PyStr.
Open Scope list_scope.

(** ** The command line of start_task *)

(** what [parser.parse_args] returns for start_task *)
Record sopts := SOpts { so_name : str; so_code : str; so_out : option str; so_env : option str; so_config : option str; so_debug : bool }.

Inductive aopt := OHelp | OName | OCode | OOut | OEnv | OConfig | ODebug.
(** __main__.py:13-23, with argparse's own -h *)
Definition registered : list (str * aopt) :=
  [(lit "-h", OHelp); (lit "--help", OHelp); (lit "-n", OName); (lit "--name", OName); (lit "-c", OCode); (lit "--code", OCode);
   (lit "-o", OOut); (lit "--out", OOut); (lit "-e", OEnv); (lit "--env", OEnv); (lit "--config", OConfig); (lit "--debug", ODebug)].

Definition DASH : N := 45.
(** argparse's classification of one token *)
Inductive aclass := AArg | AOpt (o : option aopt) (arg : option str) | AAmbiguous.

(** [s.split('=', 1)] *)
Fixpoint split_eq (s : str) : option (str * str) :=
  match s with
  | [] => None
  | c :: s' => if (c =? 61)%N then Some ([], s') else option_map (fun '(a, b) => (c :: a, b)) (split_eq s')
  end.

(** [ArgumentParser._get_option_tuples] *)
Definition option_tuples (t : str) : list (aopt * option str) :=
  match t with
  | a :: b :: r =>
      if (b =? DASH)%N then
        let '(p, e) := match split_eq t with Some (p, e) => (p, Some e) | None => (t, None) end in
        flat_map (fun '(s, o) => if startswith p s then [(o, e)] else []) registered
      else
        flat_map (fun '(s, o) => if eqb s [a; b] then [(o, Some r)] else if startswith t s then [(o, None)] else []) registered
  | _ => []
  end.

(** '^-\d+$|^-\d*\.\d+$'; simplification: ASCII digits, no trailing newline *)
Definition negative_number (t : str) : bool :=
  match t with
  | c :: t' =>
      (c =? DASH)%N &&
      match split_on 46%N t' with
      | [d] => match d with [] => false | _ => forallb is_digit d end
      | [d; f] => forallb is_digit d && match f with [] => false | _ => forallb is_digit f end
      | _ => false
      end
  | [] => false
  end.

(** [ArgumentParser._parse_optional] (Python 3.11) *)
Definition classify (t : str) : aclass :=
  match t with
  | [] => AArg
  | c :: t' =>
      if negb (c =? DASH)%N then AArg
      else match dget t registered with
      | Some o => AOpt (Some o) None
      | None =>
          match t' with
          | [] => AArg
          | _ =>
              match match split_eq t with
                    | Some (p, e) => match dget p registered with Some o => Some (AOpt (Some o) (Some e)) | None => None end
                    | None => None end with
              | Some k => k
              | None =>
                  match option_tuples t with
                  | _ :: _ :: _ => AAmbiguous
                  | [(o, e)] => AOpt (Some o) e
                  | [] => if negative_number t then AArg else if has_char 32%N t then AArg else AOpt None None
                  end
              end
          end
      end
  end.

(** the values collected so far *)
Record apst := ApSt { ap_name : option str; ap_code : option str; ap_out : option str; ap_env : option str; ap_config : option str; ap_debug : bool }.
Definition ap_set (o : aopt) (v : str) (s : apst) : apst :=
  match o with
  | OName => ApSt (Some v) (ap_code s) (ap_out s) (ap_env s) (ap_config s) (ap_debug s)
  | OCode => ApSt (ap_name s) (Some v) (ap_out s) (ap_env s) (ap_config s) (ap_debug s)
  | OOut => ApSt (ap_name s) (ap_code s) (Some v) (ap_env s) (ap_config s) (ap_debug s)
  | OEnv => ApSt (ap_name s) (ap_code s) (ap_out s) (Some v) (ap_config s) (ap_debug s)
  | OConfig => ApSt (ap_name s) (ap_code s) (ap_out s) (ap_env s) (Some v) (ap_debug s)
  | OHelp | ODebug => s
  end.
Definition ap_flag (s : apst) : apst := ApSt (ap_name s) (ap_code s) (ap_out s) (ap_env s) (ap_config s) true.

(** [ArgumentParser.parse_args] on the tokens after "start_task"; None = the program exits
    with a usage message.  Without positional arguments every token is an option, the
    value of the option before it, or refused; "--" is always refused. *)
Fixpoint ap_loop (toks : list str) (s : apst) : option apst :=
  match toks with
  | [] => Some s
  | t :: rest =>
      if eqb t (lit "--") then None
      else match classify t with
      | AOpt (Some OHelp) _ => None
      | AOpt (Some ODebug) None => ap_loop rest (ap_flag s)
      | AOpt (Some ODebug) (Some _) => None
      | AOpt (Some o) (Some v) => ap_loop rest (ap_set o v s)
      | AOpt (Some o) None =>
          match rest with
          | v :: rest' =>
              if eqb v (lit "--") then None
              else match classify v with AArg => ap_loop rest' (ap_set o v s) | _ => None end
          | [] => None
          end
      | _ => None
      end
  end.
Definition parse_args (toks : list str) : option sopts :=
  match ap_loop toks (ApSt None None None None None false) with
  | Some (ApSt (Some n) (Some c) o e g d) => Some (SOpts n c o e g d)
  | _ => None
  end.

(** ** scheduler/utils.py *)

(** the dict built by [parse_task_info]; "code" and "name" may be missing *)
Record tinfo := TInfo { ti_debug : bool; ti_env : option str; ti_out : option str; ti_code : option str; ti_name : option str }.

(** scheduler/utils.py:4-17 [parse_task_info] *)
Fixpoint parse_items (l : list str) (i : tinfo) : res tinfo :=
  match l with
  | [] => Ok i
  | t :: rest =>
      let value := match rest with v :: _ => Ok v | [] => Err IndexError end in
      if memb t [lit "-c"; lit "--code"] then do v <- value; parse_items rest (TInfo (ti_debug i) (ti_env i) (ti_out i) (Some v) (ti_name i))
      else if memb t [lit "-o"; lit "--out"] then do v <- value; parse_items rest (TInfo (ti_debug i) (ti_env i) (Some v) (ti_code i) (ti_name i))
      else if memb t [lit "-n"; lit "--name"] then do v <- value; parse_items rest (TInfo (ti_debug i) (ti_env i) (ti_out i) (ti_code i) (Some v))
      else if memb t [lit "-e"; lit "--env"] then do v <- value; parse_items rest (TInfo (ti_debug i) (Some v) (ti_out i) (ti_code i) (ti_name i))
      else if eqb t (lit "--debug") then parse_items rest (TInfo true (ti_env i) (ti_out i) (ti_code i) (ti_name i))
      else parse_items rest i
  end.
Definition parse_task_info (cmd : list str) : res tinfo := parse_items cmd (TInfo false None None None None).

(** A process as psutil shows it.  [p_denied]: reading it raises AccessDenied;
    [p_python]: its name contains "python".  [p_task]: the task name if it is a process
    executing [TaskRunner] (not visible to the code). *)
Record proc := Proc { p_pid : Z; p_ppid : Z; p_cmd : list str; p_denied : bool; p_python : bool; p_task : option str }.

(** scheduler/utils.py:29-30 *)
Definition mentions (cmd : list str) : bool :=
  let c := join_with 32%N cmd in contains (lit "jqtrade") c && contains (lit "start_task") c.

(** scheduler/utils.py:23-41: matching processes and their parents' pids *)
Fixpoint scan (l : list proc) (tasks : list proc) (parents : list Z) : res (list proc * list Z) :=
  match l with
  | [] => Ok (tasks, parents)
  | p :: l' =>
      if p_denied p then if p_python p then Err AccessDenied else scan l' tasks parents
      else if mentions (p_cmd p) then scan l' (tasks ++ [p]) (parents ++ [p_ppid p])
      else scan l' tasks parents
  end.
(** scheduler/utils.py:20-50 [get_activate_task_process] on a process table that does not
    change meanwhile *)
Definition get_active (table : list proc) : res (list proc) :=
  do (tasks, parents) <- scan table [] [];
  Ok (filter (fun p => negb (memb (p_pid p) parents)) tasks).

(** ** __main__.py [stop_task] *)

(** the parsed options; [st_pid]: argparse's int *)
Record stopts := StOpts { st_name : option str; st_pid : option Z; st_all : bool; st_force : bool }.
Definition truthy_str (o : option str) : bool := match o with None | Some [] => false | _ => true end.
Definition truthy_pid (o : option Z) : bool := match o with None => false | Some z => negb (z =? 0)%Z end.

(** __main__.py:113-118; the signals sent so far are kept when an exception ends the loop *)
Fixpoint stop_named (n : option str) (l : list proc) (sent : list Z) : res unit * list Z :=
  match l with
  | [] => (Ok tt, sent)
  | p :: l' =>
      match parse_task_info (p_cmd p) with
      | Err x => (Err x, sent)
      | Ok i => match ti_name i with
                | None => (Err KeyError, sent)
                | Some m => stop_named n l' (if eqb n (Some m) then sent ++ [p_pid p] else sent)
                end
      end
  end.
(** __main__.py:80-123 [stop_task]: the pids signalled, in order; the signal is SIGKILL if
    [st_force], otherwise SIGTERM.  Simplification: sending the signal succeeds. *)
Definition stop_task (o : stopts) (table : list proc) : res unit * list Z :=
  match get_active table with
  | Err x => (Err x, [])
  | Ok active =>
      if negb (truthy_str (st_name o)) && negb (truthy_pid (st_pid o)) && negb (st_all o) then (Err ValueError, [])
      else if st_all o then (Ok tt, map p_pid active)
      else if truthy_pid (st_pid o) then
        (Ok tt, match find (fun p => eqb (Some (p_pid p)) (st_pid o)) active with Some p => [p_pid p] | None => [] end)
      else stop_named (st_name o) active []
  end.
Inductive signal := SIGTERM | SIGKILL.
(** __main__.py:94-102 [_kill] *)
Definition sent_signals (o : stopts) (table : list proc) : list (Z * signal) :=
  map (fun pid => (pid, if st_force o then SIGKILL else SIGTERM)) (snd (stop_task o table)).

(** ** Start-up of concurrent tasks *)

(** How far a strategy process is in scheduler/runner.py:21-31 [_exist_repeated_task].
    [Scan]: pids still to read, matching pids and parents found, own ppid;
    [Compare]: active pids still to compare, own ppid. *)
Inductive phase :=
| PNew
| PScan (todo : list Z) (tasks : list Z) (parents : list Z) (own_ppid : Z)
| PCompare (todo : list Z) (own_ppid : Z)
| PRunning
| PFailed.

(** The machine: live processes, their phases, and all pids used so far.
    Simplification: pids are not used twice. *)
Record mach := Mach { m_live : Z -> option proc; m_phase : Z -> phase; m_used : list Z }.
Definition set_live (k : Z) (p : option proc) (m : mach) : mach :=
  Mach (fun z => if (z =? k)%Z then p else m_live m z) (m_phase m) (m_used m).
Definition set_phase (k : Z) (f : phase) (m : mach) : mach :=
  Mach (m_live m) (fun z => if (z =? k)%Z then f else m_phase m z) (m_used m).

(** What can happen, one at a time, in any order: a process starts (of any kind), exits,
    gets another parent; a strategy process takes the list of pids (psutil.process_iter),
    reads the next process, starts comparing, compares the next one. *)
Inductive mlabel := MSpawn (p : proc) | MExit (k : Z) | MReparent (k parent : Z) | MSnap (k : Z) | MRead (k : Z) | MCompare (k : Z).

Definition m_step (l : mlabel) (m : mach) : option mach :=
  match l with
  | MSpawn p =>
      if memb (p_pid p) (m_used m) then None
      else Some (Mach (fun z => if (z =? p_pid p)%Z then Some p else m_live m z)
                      (fun z => if (z =? p_pid p)%Z then PNew else m_phase m z)
                      (p_pid p :: p_ppid p :: m_used m))
  | MExit k => match m_live m k with Some _ => Some (set_live k None m) | None => None end
  | MReparent k q =>
      match m_live m k, memb q (m_used m) with
      | Some p, true => Some (set_live k (Some (Proc (p_pid p) q (p_cmd p) (p_denied p) (p_python p) (p_task p))) m)
      | _, _ => None
      end
  | MSnap k =>  (* runner.py:22-25, utils.py:27 *)
      match m_live m k, m_phase m k with
      | Some p, PNew =>
          match p_task p with
          | Some _ => Some (set_phase k (PScan (nodup Z.eq_dec (filter (fun z => match m_live m z with Some _ => true | None => false end) (m_used m))) [] [] (p_ppid p)) m)
          | None => None
          end
      | _, _ => None
      end
  | MRead k =>  (* utils.py:27-46; a vanished process is skipped (NoSuchProcess) *)
      match m_live m k, m_phase m k with
      | Some _, PScan (q :: todo) tasks parents pp =>
          Some (match m_live m q with
                | None => set_phase k (PScan todo tasks parents pp) m
                | Some p =>
                    if p_denied p then if p_python p then set_phase k PFailed m else set_phase k (PScan todo tasks parents pp) m
                    else if mentions (p_cmd p) then set_phase k (PScan todo (tasks ++ [q]) (parents ++ [p_ppid p]) pp) m
                    else set_phase k (PScan todo tasks parents pp) m
                end)
      | Some _, PScan [] tasks parents pp =>
          Some (set_phase k (PCompare (filter (fun z => negb (memb z parents)) tasks) pp) m)
      | _, _ => None
      end
  | MCompare k =>  (* runner.py:26-31, 46-48; a vanished process raises NoSuchProcess *)
      match m_live m k, m_phase m k with
      | Some me, PCompare (q :: todo) pp =>
          Some (if (q =? k)%Z || (q =? pp)%Z then set_phase k (PCompare todo pp) m
                else match m_live m q with
                | None => set_phase k PFailed m
                | Some p =>
                    match parse_task_info (p_cmd p) with
                    | Err _ => set_phase k PFailed m
                    | Ok i => match ti_name i with
                              | None => set_phase k PFailed m
                              | Some n => if eqb (Some n) (p_task me) then set_phase k PFailed m else set_phase k (PCompare todo pp) m
                              end
                    end
                end)
      | Some _, PCompare [] pp => Some (set_phase k PRunning m)
      | _, _ => None
      end
  end.
Fixpoint m_run (ls : list mlabel) (m : mach) : option mach :=
  match ls with
  | [] => Some m
  | l :: ls' => match m_step l m with Some m' => m_run ls' m' | None => None end
  end.
