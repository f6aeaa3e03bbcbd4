(** C136: the order and the cancel file of a day, as a reader of text files sees them. *)
From Verif Require Import PyBase PyStr MOrder MGate SGate SOfile SNewline.
Open Scope Z_scope.

(** the rows of a text: its lines without their breaks (Python's str.splitlines for '\n', '\r\n' and '\r') *)
Inductive rows : str -> list str -> Prop :=
| ro_nil : rows [] []
| ro_last b : b <> [] -> breakless b -> rows b [b]
| ro_line b k s rs : breakless b -> k = [10%N] \/ k = [13%N; 10%N] \/ (k = [13%N] /\ forall s', s <> 10%N :: s') ->
    rows s rs -> rows (b ++ k ++ s) (b :: rs).

(** texts without line breaks *)
Definition whole_opts (go : gopts) : Prop := breakless (go_acct go) /\ breakless (go_counter go) /\ breakless (go_algo go).
Definition whole_req (q : oreq) : Prop :=
  breakless (oq_id q) /\ breakless (oq_code q) /\ forall p, oq_style q = Limit p -> breakless (pval_str p).

(** the row of an order, of a cancel *)
Definition row_for (go : gopts) (q : oreq) (r : str) : Prop :=
  exists sym cols, symbol_of (oq_code q) sym /\
    order_columns (oq_id q) (go_acct go) (go_counter go) (go_algo go) sym (oq_n q) (oq_style q) cols /\ r = join_with COMMA cols.
Definition crow_for (q : creq) (r : str) : Prop := exists stamp, r = stamp ++ COMMA :: cq_id q /\ numeral stamp.

(** a table: nothing, or the names of the columns and the rows *)
Definition table (header : str) (rs : list str) : list str := match rs with [] => [] | _ => header :: rs end.
(** the same with an empty row behind each row *)
Definition spaced (header : str) (rs : list str) : list str := flat_map (fun r => [r; []]) (table header rs).
Definition nonblank (r : str) : bool := match r with [] => false | _ => true end.
