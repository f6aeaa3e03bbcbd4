(** The commands about tasks when process numbers are used again: where the answers of a
    psutil.Process (MVanish.view) come from.  scheduler/utils.py:20-50, __main__.py:55-123.

    A psutil.Process is a pid and the time the process was started.  [cmdline] asks for whatever
    process has the pid at that moment; [send_signal] and [kill] first compare the starting times and
    raise NoSuchProcess if another process has the pid now (psutil's guard; the
    instant between comparison and signal is left out). *)
From Verif Require Import PyBase PyStr MTasks MGetTasks MVanish.
Open Scope Z_scope.

(** a process: its starting time, what reading its command line gives, and what becomes of a signal *)
Record life := Life { lf_birth : Z; lf_cmd : res (list str); lf_obeys : res unit }.
(** a psutil.Process, and when (as a number of a moment) it was made (utils.py:27), its command line read (29) and
    read again (__main__.py:68, 116), and the signal sent (98, 102); the answers about parent and name *)
Record handle := Handle { h_pid : Z; h_birth : Z; h_made : nat; h_read : nat; h_again : nat; h_sent : nat; h_ppid : res Z; h_python : res bool }.

Section Reuse.
  (** the process table of every moment *)
  Context (tab : nat -> Z -> option life).
  Definition cmd_at (t : nat) (pid : Z) : res (list str) := match tab t pid with Some p => lf_cmd p | None => Err NoSuchProcess end.
  Definition signal_at (t : nat) (pid birth : Z) : res unit :=
    match tab t pid with Some p => if lf_birth p =? birth then lf_obeys p else Err NoSuchProcess | None => Err NoSuchProcess end.
  Definition view_at (h : handle) : view :=
    View (h_pid h) (cmd_at (h_read h) (h_pid h)) (h_ppid h) (h_python h) (cmd_at (h_again h) (h_pid h)) (signal_at (h_sent h) (h_pid h) (h_birth h)).
End Reuse.
