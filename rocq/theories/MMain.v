(** jqtrade/__main__.py:5-43 [main], the command line of all commands.  Lines below are of
    that file. *)
From Verif Require Import PyBase PyStr MTasks PyArgs.
Open Scope list_scope.

(** lines 13-21 (start_task); argparse adds -h *)
Definition start_reg : list (str * (aopt * bool)) :=
  [(lit "-h", (OHelp, false)); (lit "--help", (OHelp, false)); (lit "-n", (OName, true)); (lit "--name", (OName, true));
   (lit "-c", (OCode, true)); (lit "--code", (OCode, true)); (lit "-o", (OOut, true)); (lit "--out", (OOut, true));
   (lit "-e", (OEnv, true)); (lit "--env", (OEnv, true)); (lit "--config", (OConfig, true)); (lit "--debug", (ODebug, false))].
(** line 25 (get_tasks) *)
Definition tasks_reg : list (str * (unit * bool)) := [(lit "-h", (tt, false)); (lit "--help", (tt, false))].
(** lines 29-34 (stop_task) *)
Inductive kopt := KHelp | KName | KPid | KAll | KForce.
Definition stop_reg : list (str * (kopt * bool)) :=
  [(lit "-h", (KHelp, false)); (lit "--help", (KHelp, false)); (lit "-n", (KName, true)); (lit "--name", (KName, true));
   (lit "-p", (KPid, true)); (lit "--pid", (KPid, true)); (lit "--all", (KAll, false)); (lit "-f", (KForce, false)); (lit "--force", (KForce, false))].
(** line 8 *)
Inductive topt := THelp | TVersion.
Definition top_reg : list (str * (topt * bool)) :=
  [(lit "-h", (THelp, false)); (lit "--help", (THelp, false)); (lit "-V", (TVersion, false)); (lit "--version", (TVersion, false))].

(** the actions of start_task, in order; help exits *)
Fixpoint start_actions (l : list (aopt * option str)) (s : apst) : option apst :=
  match l with
  | [] => Some s
  | (OHelp, _) :: _ => None
  | (ODebug, _) :: l' => start_actions l' (ap_flag s)
  | (k, Some v) :: l' => start_actions l' (ap_set k v s)
  | (_, None) :: _ => None
  end.
(** lines 14-15, required=True of name and code *)
Definition parse_start (toks : list str) : option sopts :=
  match args start_reg toks with
  | None => None
  | Some l =>
      match start_actions l (ApSt None None None None None false) with
      | Some (ApSt (Some n) (Some c) o e g d) => Some (SOpts n c o e g d)
      | _ => None
      end
  end.

(** the actions of stop_task; line 31, type=int of the pid *)
Fixpoint stop_actions (l : list (kopt * option str)) (o : stopts) : option stopts :=
  match l with
  | [] => Some o
  | (KHelp, _) :: _ => None
  | (KName, Some v) :: l' => stop_actions l' (StOpts (Some v) (st_pid o) (st_all o) (st_force o))
  | (KPid, Some v) :: l' =>
      match py_int v with
      | Some z => stop_actions l' (StOpts (st_name o) (Some z) (st_all o) (st_force o))
      | None => None
      end
  | (KAll, _) :: l' => stop_actions l' (StOpts (st_name o) (st_pid o) true (st_force o))
  | (KForce, _) :: l' => stop_actions l' (StOpts (st_name o) (st_pid o) (st_all o) true)
  | (_, None) :: _ => None
  end.
Definition parse_stop (toks : list str) : option stopts :=
  match args stop_reg toks with
  | None => None
  | Some l => stop_actions l (StOpts None None false false)
  end.
Definition parse_tasks (toks : list str) : option unit :=
  match args tasks_reg toks with
  | Some [] => Some tt
  | _ => None
  end.

(** what main does: leave with a usage or help message, print the version, fail with
    AttributeError (line 43: no command, so no [func]), or run a command *)
Inductive command := CStart (o : sopts) | CTasks | CStop (o : stopts).
Inductive outcome := OExit | OVersion | ONoCommand | ORun (c : command).

(** the subparsers (lines 10, 13, 25, 29); their names are not abbreviated *)
Definition sub_command (name : str) (toks : list str) : option command :=
  if eqb name (lit "start_task") then option_map CStart (parse_start toks)
  else if eqb name (lit "get_tasks") then option_map (fun _ => CTasks) (parse_tasks toks)
  else if eqb name (lit "stop_task") then option_map CStop (parse_stop toks)
  else None.

(** lines 5-43 [main] on the arguments of the program.  The first argument that is not an
    option names the command and takes all tokens after it; a token "--" before it is
    refused. *)
Fixpoint main_loop (toks : list str) (version : bool) : outcome :=
  match toks with
  | [] => if version then OVersion else ONoCommand
  | t :: rest =>
      if eqb t (lit "--") then OExit
      else match class_of top_reg t with
      | CArg =>
          match sub_command t rest with
          | None => OExit
          | Some c => if version then OVersion else ORun c
          end
      | COpt (Some (s, (k, val))) e =>
          match match e with Some arg => joined top_reg s k val arg | None => Some ([(k, None)], None) end with
          | Some (l, None) => if forallb (fun a => match fst a with TVersion => true | THelp => false end) l then main_loop rest true else OExit
          | _ => OExit
          end
      | _ => OExit
      end
  end.
Definition main (toks : list str) : outcome := main_loop toks false.
