(** Specification of relative time expressions (C13): a grammar with a meaning. *)
From Verif Require Import PyBase PyStr MTime.
Open Scope Z_scope.

(** one offset group: one or two decimal digits and a unit letter *)
Record group := Group { g_digits : str; g_unit : N }.

Definition decimal (ds : str) : Z := fold_left (fun acc c => acc * 10 + digit_val c) ds 0.

Definition unit_sec (u : N) : option Z :=
  if (u =? 104)%N then Some 3600          (* h *)
  else if (u =? 109)%N then Some 60       (* m *)
  else if (u =? 115)%N then Some 1        (* s *)
  else None.

Definition group_wf (g : group) : Prop :=
  (length (g_digits g) = 1 \/ length (g_digits g) = 2)%nat /\
  Forall (fun c => is_digit c = true) (g_digits g) /\ unit_sec (g_unit g) <> None.

Definition group_text (g : group) : str := g_digits g ++ [g_unit g].
Definition group_sec (g : group) : Z :=
  match unit_sec (g_unit g) with Some u => decimal (g_digits g) * u | None => 0 end.

Definition offset_wf (gs : list group) : Prop :=
  (1 <= length gs <= 3)%nat /\ Forall group_wf gs.
Definition offset_text (gs : list group) : str := concat (map group_text gs).
Definition offset_sec (gs : list group) : Z := fold_right (fun g a => group_sec g + a) 0 gs.

(** [denotes opn cls s v]: the expression [s] means the instant [v] (microseconds after
    midnight) when the market opens at [opn] and closes at [cls] *)
Inductive denotes (opn cls : Z) : str -> Z -> Prop :=
| den_base b v : base_is opn cls b v -> denotes opn cls b v
| den_plus b v gs : base_is opn cls b v -> offset_wf gs ->
    denotes opn cls (b ++ lit "+" ++ offset_text gs) (v + offset_sec gs * US)
| den_minus b v gs : base_is opn cls b v -> offset_wf gs ->
    denotes opn cls (b ++ lit "-" ++ offset_text gs) (v - offset_sec gs * US)
with base_is (opn cls : Z) : str -> Z -> Prop :=
| base_open : base_is opn cls (lit "open") opn
| base_close : base_is opn cls (lit "close") cls.

(** the same, with pairwise different units in the offset *)
Inductive denotes_distinct (opn cls : Z) : str -> Z -> Prop :=
| dd_base b v : base_is opn cls b v -> denotes_distinct opn cls b v
| dd_off b v gs (plus : bool) : base_is opn cls b v -> offset_wf gs -> NoDup (map g_unit gs) ->
    denotes_distinct opn cls (b ++ lit (if plus then "+" else "-") ++ offset_text gs)
      (if plus then v + offset_sec gs * US else v - offset_sec gs * US).

Definition opening (mp : list (Z * Z)) : Z := match mp with p :: _ => fst p | [] => 0 end.
Definition closing (mp : list (Z * Z)) : Z := match mp with p :: _ => snd (last mp p) | [] => 0 end.
