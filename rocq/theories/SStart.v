(** What C91 means by its words. *)
From Verif Require Import PyBase PyStr MTasks SUtils STasks MStart.
Open Scope list_scope.

(** the processes whose command line can be read; a python process that cannot be read
    stops the check *)
Definition seen (table : list proc) : list proc := filter (fun p => negb (p_denied p)) table.
Definition readable (table : list proc) : Prop := forall p, In p table -> p_denied p = true -> p_python p = false.
(** every other task on the machine shows a name, and it is another one *)
Definition free_name (pid ppid : Z) (name : str) (table : list proc) : Prop :=
  forall p, active_in (seen table) p -> p_pid p <> pid -> p_pid p <> ppid -> exists n, named n (p_cmd p) /\ n <> name.

(** the text given with -e, if any, lists these entries *)
Definition wrote (env : option str) (kvs : list (str * str)) : Prop :=
  ((env = None \/ env = Some []) /\ kvs = []) \/
  (kvs <> [] /\ env = Some (join_with 59%N (map entry_of kvs)) /\ Forall clean_entry kvs /\ forall kv, In kv kvs -> strip (fst kv) <> []).

(** the value of a variable for the task *)
Definition var_after (kvs : list (str * str)) (vars : dict str str) (k : str) : option str :=
  match last_value kvs k with Some v => Some v | None => dget k vars end.

(** the path [x] meant by [c] for a user whose home is [h]: [~] and [~/...] are in the home *)
Inductive names (h : str) : str -> str -> Prop :=
| n_home r q k : (r = [] \/ exists r', r = 47%N :: r') -> h = q ++ repeat 47%N k -> (forall q', q <> q' ++ [47%N]) -> q ++ r <> [] ->
    names h (126%N :: r) (q ++ r)
| n_root k : h = repeat 47%N k -> names h [126%N] [47%N]
| n_plain c : c <> [126%N] -> (forall r, c <> 126%N :: 47%N :: r) -> names h c c.

Section May.
  Context {V : Type} (m : machine V) (o : sopts) (vars : dict str str).
  Definition log_ok : Prop := forall f, so_out o = Some f -> f <> [] -> ma_append m f = true.
  Definition config_ok (kvs : list (str * str)) : Prop :=
    forall c, so_config o = Some c -> c <> [] ->
      exists h x, h = match var_after kvs vars (lit "HOME") with Some h => h | None => ma_home m end /\ names h c x /\ ma_exists m x = true.
  (** the task may be started *)
  Definition may_start : Prop :=
    ma_exists m (so_code o) = true /\ readable (ma_procs m) /\ free_name (ma_pid m) (ma_ppid m) (so_name o) (ma_procs m) /\
    log_ok /\ exists kvs, wrote (so_env o) kvs /\ config_ok kvs.
End May.
