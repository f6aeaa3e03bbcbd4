(** C75 with the account enabled: set_options calls whose sync timer has an instant. *)
From Verif Require Import PyBase PyStr MTime MStrategy SStrategy.
Open Scope Z_scope.

(** the interval and the sync periods a call asks for *)
Definition step_asked (sc : scfg) (k : sopts) : res Z := match so_interval k with Some r => r | None => Ok (sc_interval sc) end.
Definition period_asked (sc : scfg) (k : sopts) : rawmp := match so_period k with Some p => p | None => sc_period sc end.
(** sync periods, read *)
Definition read_as (mp : rawmp) (l : list (Z * Z)) : Prop :=
  Forall2 (fun raw ab => exists x y, raw = [x; y] /\ parse_time x = Ok (fst ab) /\ parse_time y = Ok (snd ab) /\ tod_ok (fst ab) /\ tod_ok (snd ab)) mp l.
(** the call does not enable the account, asks for no syncs, or leaves room for one: there is
    a step to come today, or a period that is not empty *)
Definition roomy (fuel : nat) (sc : scfg) (c : ucall) : Prop :=
  match c with
  | UOpt k e =>
      so_use k = Some false \/ (so_bal k = Some false /\ so_ord k = Some false) \/
      exists step, step_asked sc k = Ok step /\ 0 < step /\ DAY / step + 1 < Z.of_nat fuel /\
        ((period_asked sc k = [] /\ e_now e mod DAY + step <= 86399 * US) \/
         (exists l a b, read_as (period_asked sc k) l /\ In (a, b) l /\ a <= b))
  | _ => True
  end.
