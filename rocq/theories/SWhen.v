(** Specification of the time texts of schedules (C126): a grammar, with the instant each
    text means. *)
From Verif Require Import PyBase PyStr MTime SExpr.
Open Scope Z_scope.

(** a digit string in which single underscores may separate digits *)
Inductive digits_us : str -> str -> Prop :=
| du_last ds : ds <> [] -> Forall (fun c => is_digit c = true) ds -> digits_us ds ds
| du_more ds s r : ds <> [] -> Forall (fun c => is_digit c = true) ds -> digits_us s r -> digits_us (ds ++ lit "_" ++ s) (ds ++ r).

(** the blanks around a whole number: tab to carriage return, space, and the blanks beyond ASCII *)
Definition blank (c : N) : Prop :=
  (9 <= c <= 13 \/ c = 32 \/ c = 133 \/ c = 160 \/ c = 5760 \/ 8192 <= c <= 8202 \/ c = 8232 \/ c = 8233 \/
   c = 8239 \/ c = 8287 \/ c = 12288)%N.

(** a whole number as text: blanks, a sign, digits, blanks *)
Inductive int_text : str -> Z -> Prop :=
| int_plus a s d b sg : Forall blank a -> Forall blank b -> digits_us s d -> sg = [] \/ sg = lit "+" ->
    int_text (a ++ sg ++ s ++ b) (decimal d)
| int_minus a s d b : Forall blank a -> Forall blank b -> digits_us s d ->
    int_text (a ++ lit "-" ++ s ++ b) (- decimal d).

Definition no_colon (s : str) : Prop := ~ In 58%N s.

(** seconds of an offset: of several groups with the same unit the last one counts *)
Fixpoint last_of (u : N) (gs : list group) (v : Z) : Z :=
  match gs with
  | [] => v
  | g :: gs' => last_of u gs' (if (g_unit g =? u)%N then decimal (g_digits g) else v)
  end.
Definition last_sec (gs : list group) : Z :=
  last_of 104%N gs 0 * 3600 + last_of 109%N gs 0 * 60 + last_of 115%N gs 0.

(** [means opn cls t v]: the text [t] means the instant [v] (microseconds after midnight)
    when the market opens at [opn] and closes at [cls] *)
Inductive means (opn cls : Z) : str -> Z -> Prop :=
| mean_base b v : base_is opn cls b v -> means opn cls b v
| mean_off b v gs (plus : bool) nl : base_is opn cls b v -> offset_wf gs -> nl = [] \/ nl = [10%N] ->
    means opn cls (b ++ lit (if plus then "+" else "-") ++ offset_text gs ++ nl)
      (if plus then v + last_sec gs * US else v - last_sec gs * US)
| mean_hm h m a b : no_colon h -> no_colon m -> int_text h a -> int_text m b ->
    0 <= a < 24 -> 0 <= b < 60 -> means opn cls (h ++ lit ":" ++ m) ((a * 3600 + b * 60) * US)
| mean_hms h m s r a b c : no_colon h -> no_colon m -> no_colon s -> int_text h a -> int_text m b -> int_text s c ->
    0 <= a < 24 -> 0 <= b < 60 -> 0 <= c < 60 -> r = [] \/ (exists r', r = lit ":" ++ r') ->
    means opn cls (h ++ lit ":" ++ m ++ lit ":" ++ s ++ r) ((a * 3600 + b * 60 + c) * US).

(** the four words of run_daily stand for such texts *)
Definition word_text (t : str) : str :=
  if str_eqb t (lit "before_open") then lit "open-30m" else if str_eqb t (lit "after_close") then lit "close+30m" else t.
