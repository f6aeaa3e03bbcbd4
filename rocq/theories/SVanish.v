(** What C141 means by its words. *)
From Verif Require Import PyBase PyStr MTasks MGetTasks MVanish STasks.
Open Scope list_scope.
Open Scope Z_scope.

(** the process was there when its command line was read, and it spoke of jqtrade and start_task *)
Definition spoke (p : view) : Prop := exists c, v_cmd p = Ok c /\ speaks c.
(** a task: such a process that no other such process named as its parent *)
Definition task_among (l : list view) (p : view) : Prop :=
  In p l /\ spoke p /\ ~ exists q, In q l /\ spoke q /\ v_ppid q = Ok (v_pid p).
(** one of the questions about [p] was refused *)
Definition refused (p : view) : Prop := v_cmd p = Err AccessDenied \/ spoke p /\ v_ppid p = Err AccessDenied.
(** looking at [p] ends the command with [x]: it was refused and is called python, or its name
    could not be read either, or there was an error of another kind *)
Inductive blocks (p : view) : exn -> Prop :=
| b_python : refused p -> v_python p = Ok true -> blocks p AccessDenied
| b_name x : refused p -> v_python p = Err x -> blocks p x
| b_cmd x : v_cmd p = Err x -> x <> AccessDenied -> x <> NoSuchProcess -> blocks p x
| b_ppid x : spoke p -> v_ppid p = Err x -> x <> AccessDenied -> x <> NoSuchProcess -> blocks p x.
(** the process was gone before its command line was read *)
Definition gone (p : view) : Prop := v_cmd p = Err NoSuchProcess.

(** the name on the command line when it is read for the second time *)
Inductive name_again (p : view) : res str -> Prop :=
| n_ok c n : v_again p = Ok c -> named n c -> name_again p (Ok n)
| n_gone x : v_again p = Err x -> name_again p (Err x)
| n_odd c x : v_again p = Ok c -> parse_task_info c = Err x -> name_again p (Err x)
| n_none c i : v_again p = Ok c -> parse_task_info c = Ok i -> ti_name i = None -> name_again p (Err KeyError).
(** whether stop_task means [p]: --all, else the pid, else the name *)
Inductive meant (o : stopts) (p : view) : res bool -> Prop :=
| m_all : st_all o = true -> meant o p (Ok true)
| m_pid z b : st_all o = false -> st_pid o = Some z -> z <> 0 -> (b = true <-> v_pid p = z) -> meant o p (Ok b)
| m_name n m b : st_all o = false -> (st_pid o = None \/ st_pid o = Some 0) -> st_name o = Some n -> name_again p (Ok m) -> (b = true <-> n = m) -> meant o p (Ok b)
| m_err x : st_all o = false -> (st_pid o = None \/ st_pid o = Some 0) -> name_again p (Err x) -> meant o p (Err x).
(** the turn of [p]: signalled or passed over, or the error that ends the command *)
Inductive turn (o : stopts) (p : view) : res bool -> Prop :=
| t_pass : meant o p (Ok false) -> turn o p (Ok false)
| t_sent : meant o p (Ok true) -> v_kill p = Ok tt -> turn o p (Ok true)
| t_lost x : meant o p (Ok true) -> v_kill p = Err x -> turn o p (Err x)
| t_err x : meant o p (Err x) -> turn o p (Err x).
(** the turns one after the other, up to the first error: the processes signalled, and the error *)
Inductive turns (o : stopts) : list view -> list view -> option exn -> Prop :=
| ts_end : turns o [] [] None
| ts_pass p l sent e : turn o p (Ok false) -> turns o l sent e -> turns o (p :: l) sent e
| ts_sent p l sent e : turn o p (Ok true) -> turns o l sent e -> turns o (p :: l) (p :: sent) e
| ts_stop p l x : turn o p (Err x) -> turns o (p :: l) [] (Some x).
(** what is done for a signalled process: the signal, then the line that says so *)
Definition signalled (force : bool) (p : view) : list act :=
  if force then [Signal (v_pid p) SIGKILL; SayForced (v_pid p)] else [Signal (v_pid p) SIGTERM; SayTried (v_pid p)].
(** the last line of the command *)
Definition closing (force : bool) (sent : list view) : list act :=
  match sent with [] => [SayNothing] | _ => if force then [] else [SayHint] end.

(** the block get_tasks prints for [p], or the error *)
Inductive block (p : view) : res tentry -> Prop :=
| k_ok c i n f : v_again p = Ok c -> parse_task_info c = Ok i -> ti_name i = Some n -> ti_code i = Some f ->
    block p (Ok (TEntry n (v_pid p) f (ti_out i) (ti_env i) (ti_debug i) c))
| k_gone x : v_again p = Err x -> block p (Err x)
| k_odd c x : v_again p = Ok c -> parse_task_info c = Err x -> block p (Err x)
| k_none c i : v_again p = Ok c -> parse_task_info c = Ok i -> (ti_name i = None \/ ti_code i = None) -> block p (Err KeyError).
Inductive blocks_of : list view -> list tentry -> option exn -> Prop :=
| bs_end : blocks_of [] [] None
| bs_ok p l e es x : block p (Ok e) -> blocks_of l es x -> blocks_of (p :: l) (e :: es) x
| bs_stop p l x : block p (Err x) -> blocks_of (p :: l) [] (Some x).

(** a process that stands still, as MTasks.v sees it *)
Definition steady (p : proc) : view :=
  View (p_pid p) (if p_denied p then Err AccessDenied else Ok (p_cmd p)) (Ok (p_ppid p)) (Ok (p_python p)) (Ok (p_cmd p)) (Ok tt).
Definition signals (a : list act) : list (Z * signal) :=
  flat_map (fun x => match x with Signal z s => [(z, s)] | _ => [] end) a.
Definition res_of (e : option exn) : res unit := match e with None => Ok tt | Some x => Err x end.
