(** What C44 means by its words. *)
From Verif Require Import PyBase PyStr MOrder MAccount MGate MBalance.
Open Scope list_scope.
Open Scope Z_scope.

(** the texts that pandas takes for a missing value *)
Definition blank_texts : list str :=
  [lit "None"; lit "nan"; lit "NaN"; lit "-nan"; lit "-NaN"; lit "null"; lit "NULL"; lit "NA"; lit "<NA>"; lit "n/a"; lit "N/A"; lit "#NA"; lit "#N/A"; lit "#N/A N/A";
           lit "1.#IND"; lit "-1.#IND"; lit "1.#QNAN"; lit "-1.#QNAN"; lit ""].
(** a record all of whose fields are empty (or written as not available) *)
Definition empty_record (l : str) : Prop := Forall (fun w => In w blank_texts) (split_on COMMA l).
(** a field that is not empty and no beginning of which looks like "not available" *)
Definition solid (w : str) : Prop := w <> [] /\ forall p q, w = p ++ q -> p <> [] -> ~ In p blank_texts.
Definition first_field (l : str) : str := hd [] (split_on COMMA l).

Definition own (df : frame) (acct : str) (r : list (option str)) : bool :=
  match index_of (lit "acct") (fr_cols df) with Some i => eqb (nth i r None) (Some acct) | None => false end.
Definition has_text (df : frame) (name : str) (r : list (option str)) : bool :=
  match index_of name (fr_cols df) with Some i => negb (is_none (nth i r None)) | None => false end.
(** the rows before the first one with the property *)
Fixpoint rows_before {A} (f : A -> bool) (l : list A) : list A :=
  match l with [] => [] | x :: l' => if f x then [] else x :: rows_before f l' end.

(** ** what a record says, read off the texts of its fields *)

(** the field of the (first) column of that name *)
Definition field_of (df : frame) (r : list (option str)) (name : str) (v : option str) : Prop :=
  exists i, nth_error (fr_cols df) i = Some name /\ (forall j, (j < i)%nat -> nth_error (fr_cols df) j <> Some name) /\ nth i r None = v.
Section Values.
  Context {F : Type} (pnum pyfloat : str -> option F) (trunc : F -> option Z) (round4 round3 : F -> Z) (minus : F -> F -> F).
  (** all texts of the column are numbers *)
  Definition number_column (df : frame) (name : str) : Prop :=
    forall r s, In r (fr_rows df) -> field_of df r name (Some s) -> exists f, pnum s = Some f.
  Definition int_value (df : frame) (r : list (option str)) (name : str) (z : Z) : Prop :=
    exists s, field_of df r name (Some s) /\
      ((number_column df name /\ exists f, pnum s = Some f /\ trunc f = Some z) \/ (~ number_column df name /\ py_int s = Some z)).
  (** None: not a number *)
  Definition float_value (df : frame) (r : list (option str)) (name : str) (o : option F) : Prop :=
    match o with
    | None => field_of df r name None
    | Some f => exists s, field_of df r name (Some s) /\
        ((number_column df name /\ pnum s = Some f) \/ (~ number_column df name /\ pyfloat s = Some f))
    end.
  Definition rounded (rd : F -> Z) (df : frame) (r : list (option str)) (name : str) (o : option Z) : Prop :=
    exists f, float_value df r name f /\ o = match f with Some x => Some (rd x) | None => None end.

  (** the position a record stands for *)
  Definition records_position (df : frame) (r : list (option str)) (p : bpos) : Prop :=
    (exists sym, field_of df r (lit "symbol") (Some sym) /\ decode sym = Ok (bp_code p)) /\
    int_value df r (lit "currentQty") (bp_amount p) /\
    int_value df r (lit "enabledQty") (bp_avail p) /\
    rounded round3 df r (lit "costPrice") (bp_avg p) /\
    rounded round3 df r (lit "lastPrice") (bp_last p) /\
    rounded round4 df r (lit "mktValue") (bp_value p).
  (** the cash a record stands for *)
  Definition records_cash (df : frame) (r : list (option str)) (c : bcash) : Prop :=
    rounded round4 df r (lit "totalAsset") (bc_total c) /\
    rounded round4 df r (lit "enabledBalance") (bc_avail c) /\
    exists cur en, float_value df r (lit "currentBalance") cur /\ float_value df r (lit "enabledBalance") en /\
      bc_locked c = match cur, en with Some x, Some y => Some (round4 (minus x y)) | _, _ => None end.
  (** a record of the account; one with a quantity other than zero *)
  Definition of_account (df : frame) (acct : str) (r : list (option str)) : Prop := field_of df r (lit "acct") (Some acct).
  Definition held (df : frame) (r : list (option str)) : Prop := exists q, int_value df r (lit "currentQty") q /\ q <> 0.
End Values.
