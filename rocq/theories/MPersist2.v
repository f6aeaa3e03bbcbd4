(** Failing to read the save file (jqtrade/account/trade_gate.py:505-512): [_load_orders]
    catches every exception, logs it and goes on with the orders it has.

    MPersist.v lets reading fail only for torn files; here it may fail for any file (no
    permission, too many open files, a file damaged by something else). *)
From Verif Require Import PyBase PyStr MOrder MAccount MGate MPersist.
Open Scope Z_scope.

Inductive qlab :=
| QStep (l : plab)                   (* as in MPersist.v *)
| QStartErr                          (* a new process calls setup(), reading fails *)
| QSetupErr.                         (* setup() is called again, reading fails *)

Definition q_step (posix : bool) (l : qlab) (s : pst) : option pst :=
  match l, ps_pc s with
  | QStep l', _ => p_step posix l' s
  | QStartErr, PDown =>
      Some (PSt PIdle [] (ps_date s) (ps_date s) (ps_data s) (ps_tmp s) (ps_lines s) (ps_acked s) (ps_broken s))
  | QSetupErr, PIdle =>
      Some (PSt PIdle (ps_mem s) (ps_date s) (ps_date s) (ps_data s) (ps_tmp s) (ps_lines s) (ps_acked s) (ps_broken s))
  | _, _ => None
  end.
Fixpoint q_run (posix : bool) (ls : list qlab) (s : pst) : option pst :=
  match ls with
  | [] => Some s
  | l :: ls' => match q_step posix l s with Some s' => q_run posix ls' s' | None => None end
  end.
