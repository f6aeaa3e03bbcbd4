(** What C97 means by its words: the portfolio that a pair of balance files describes. *)
From Verif Require Import PyBase PyStr MTime MOrder MAccount MGate MBalance MCsv MFolio SBalance.
Open Scope Z_scope.

(** figures without NaN *)
Definition known_pos (p : bpos) : Prop := bp_avg p <> None /\ bp_last p <> None /\ bp_value p <> None.

(** the position that a record describes *)
Definition shown_as (p : bpos) (q : position) : Prop :=
  ps_code q = bp_code p /\ ps_amount q = bp_amount p /\ ps_avail q = bp_avail p /\ ps_side q = Long /\
  bp_avg p = Some (ps_avg q) /\ ps_last q = bp_last p /\ ps_value q = bp_value p.
(** the map holds exactly the described positions, in this order *)
Definition shows (ps : list bpos) (d : dict str position) : Prop :=
  Forall2 (fun p kv => fst kv = bp_code p /\ shown_as p (snd kv)) ps d.
