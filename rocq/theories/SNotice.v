(** C81: which rejected cancels have to be told. *)
From Verif Require Import PyBase PyStr MOrder MAccount MGate MNotice SGate.

(** a result line that rejects the cancel of an order, with the broker's message *)
Definition rejects_cancel (l id msg : str) : Prop :=
  ~ header_line l /\ commas l = 5%nat /\ col 1 l = lit "2" /\ col 3 l = lit "1" /\ col 2 l = id /\ col 5 l = msg.
(** the notices owed for these lines *)
Inductive owed : list str -> list (str * str) -> Prop :=
| ow_nil : owed [] []
| ow_one l ls id msg m : rejects_cancel l id msg -> owed ls m -> owed (l :: ls) ((id, msg) :: m)
| ow_none l ls m : (forall id msg, ~ rejects_cancel l id msg) -> owed ls m -> owed (l :: ls) m.

Section Process.
  Context (ptime f3 f4 : str -> option Z) (go : gopts).

  (** Histories of a gate on day [d].  [k]: length of the result file when the process
      started; [b]: the lines of the result file that the process's first sync found. *)
  Inductive nhist (d : Z) : nst -> nat -> option (list str) -> Prop :=
  | n_start g : ge_date (gs_env g) = d -> gs_roff g = 0%nat -> nhist d (NSt g false []) (length (text_of d (gs_rfile g))) None
  | n_order x k b o : nhist d x k b -> nhist d (set_g (snd (gate_order go o (n_gate x))) x) k b
  | n_cancel x k b id : nhist d x k b -> nhist d (set_g (snd (gate_cancel go id (n_gate x))) x) k b
  | n_env x k b e : nhist d x k b -> ge_date e = d -> nhist d (set_g (set_env e (n_gate x)) x) k b
  | n_grow x k b r u dr : nhist d x k b -> text_of d r = text_of d (gs_rfile (n_gate x)) ++ dr ->
      nhist d (set_g (set_bfiles r u (n_gate x)) x) k b
  | n_sync x k b rt rs : nhist d x k b ->
      dget d (gs_ufile (n_gate x)) <> None -> dget d (gs_rfile (n_gate x)) = Some rt -> calm 5 rt rs ->
      nhist d (snd (sync_n ptime f3 f4 go x)) k (Some match b with Some r0 => r0 | None => rs end)
  | n_miss x k b : nhist d x k b -> dget d (gs_ufile (n_gate x)) = None \/ dget d (gs_rfile (n_gate x)) = None ->
      nhist d (snd (sync_n ptime f3 f4 go x)) k b
  | n_restart x k b ok : nhist d x k b ->
      nhist d (restart_n ok x) (length (text_of d (gs_rfile (n_gate x)))) None.
End Process.
