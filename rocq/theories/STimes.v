(** Specification of the times run_daily is meant to take (C75). *)
From Verif Require Import PyBase PyStr MTime SExpr SProcess.
Open Scope Z_scope.

(** a time of the documented forms *)
Inductive proper (ps : list (Z * Z)) : str -> Prop :=
| proper_word t : In t [lit "every_minute"; lit "open"; lit "close"; lit "before_open"; lit "after_close"] -> proper ps t
| proper_rel t v : denotes_distinct (opening ps) (closing ps) t v -> proper ps t
| proper_clock t v : clock_text t v -> proper ps t.

(** what is let through besides: fields that int() reads, and anything after a third ':' *)
Inductive clock_loose : str -> Prop :=
| loose_hm h m a b : has_char 58%N h = false -> has_char 58%N m = false -> py_int h = Some a -> py_int m = Some b ->
    0 <= a < 24 -> 0 <= b < 60 -> clock_loose (h ++ lit ":" ++ m)
| loose_hms h m s r a b c : has_char 58%N h = false -> has_char 58%N m = false -> has_char 58%N s = false ->
    py_int h = Some a -> py_int m = Some b -> py_int s = Some c -> 0 <= a < 24 -> 0 <= b < 60 -> 0 <= c < 60 ->
    (r = [] \/ exists r', r = lit ":" ++ r') ->
    clock_loose (h ++ lit ":" ++ m ++ lit ":" ++ s ++ r).

(** a keyword, a market-relative time (units may repeat, a line end may follow), or a clock time *)
Inductive passable (ps : list (Z * Z)) : str -> Prop :=
| pass_word t : In t [lit "every_minute"; lit "open"; lit "close"; lit "before_open"; lit "after_close"] -> passable ps t
| pass_rel s v t : denotes (opening ps) (closing ps) s v -> t = s \/ t = s ++ [10%N] -> passable ps t
| pass_clock t : clock_loose t -> passable ps t.
