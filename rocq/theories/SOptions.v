(** Specification of set_options (C77, C78). *)
From Verif Require Import PyBase PyStr MTime MStrategy.
Open Scope Z_scope.

Definition digit_is (c : N) (d : Z) : Prop := (48 <= c <= 57)%N /\ d = Z.of_N c - 48.
(** a number of one or two digits *)
Definition number (w : str) (n : Z) : Prop :=
  (exists a, w = [a] /\ digit_is a n) \/
  (exists a b d e, w = [a; b] /\ digit_is a d /\ digit_is b e /\ n = 10 * d + e).

(** a time of day given as such, or as the text HH:MM:SS *)
Definition reads (v : tval) (t : Z) : Prop :=
  match v with
  | TTime t' => t = t'
  | TStr s => exists h m c hn mn cn, s = h ++ [58%N] ++ m ++ [58%N] ++ c /\
      number h hn /\ number m mn /\ number c cn /\ hn < 24 /\ mn < 60 /\ cn < 60 /\
      t = (hn * 3600 + mn * 60 + cn) * US
  | TOther => False
  end.

Definition reads_periods (raw p : option rawmp) : Prop :=
  match raw, p with
  | None, None => True
  | Some r, Some l =>
      Forall2 (fun a b => exists v w t u, a = [v; w] /\ b = [TTime t; TTime u] /\ reads v t /\ reads w u) r l
  | _, _ => False
  end.

(** [o] are the options given by the keyword arguments [k] *)
Record given (k o : sopts) : Prop := {
  gv_mp : reads_periods (so_mp k) (so_mp o);
  gv_period : reads_periods (so_period k) (so_period o);
  gv_interval : so_interval o = so_interval k;
  gv_number : forall x, so_interval k <> Some (Err x);
  gv_use : so_use o = so_use k;
  gv_acct : so_acct o = so_acct k;
  gv_bal : so_bal o = so_bal k;
  gv_ord : so_ord o = so_ord k
}.

(** the options after these calls: those of the last set_options call whose arguments
    make sense, whatever became of that call afterwards *)
Inductive opts_after : sopts -> list ucall -> sopts -> Prop :=
| oa_nil o : opts_after o [] o
| oa_run o f t cs o' : opts_after o cs o' -> opts_after o (URun f t :: cs) o'
| oa_bind o n b cs o' : opts_after o cs o' -> opts_after o (UBind n b :: cs) o'
| oa_set o k e o1 cs o' : given k o1 -> opts_after o1 cs o' -> opts_after o (UOpt k e :: cs) o'
| oa_bad o k e cs o' : (forall o1, ~ given k o1) -> opts_after o cs o' -> opts_after o (UOpt k e :: cs) o'.
