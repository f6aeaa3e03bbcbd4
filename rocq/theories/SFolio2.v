(** What C97 says of files with figures of 0 and several records of one share. *)
From Verif Require Import PyBase PyStr MOrder MAccount MBalance.
Open Scope Z_scope.

(** the figure shown: a stated 0 leaves the one shown before *)
Definition figure (stated before now : Z) : Prop := (stated <> 0 /\ now = stated) \/ (stated = 0 /\ now = before).
(** the distinct texts of a list, each where it comes first *)
Inductive firsts : list str -> list str -> Prop :=
| fs_nil : firsts [] []
| fs_again l k ks : firsts l ks -> In k ks -> firsts (l ++ [k]) ks
| fs_new l k ks : firsts l ks -> ~ In k ks -> firsts (l ++ [k]) (ks ++ [k]).
(** the last record about a share *)
Definition last_record (code : str) (ps : list bpos) (p : bpos) : Prop :=
  exists l1 l2, ps = l1 ++ p :: l2 /\ bp_code p = code /\ Forall (fun q => bp_code q <> code) l2.
