(** The cash of the account when a balance file leaves a figure blank: pandas reads the cell as
    nan, float and round keep it, and nan counts as true (jqtrade/account/trade_gate.py:324-328,
    account.py:200-203, 91-93).  MFolio.v takes nan for 0. *)
From Verif Require Import PyBase PyStr MOrder MAccount MGate MBalance MCsv MFolio.
Open Scope Z_scope.

(** a float that may be nan; the figures of the account are rounded to 4 digits *)
Inductive fig := Num (z : Z) | NaN.
(** account.py:91-93 *)
Record money := Money { m_total : fig; m_avail : fig; m_locked : fig }.
Definition money0 : money := Money (Num 0) (Num 0) (Num 0).

(** bool(x) *)
Definition truthy (x : fig) : bool := match x with Num z => negb (z =? 0) | NaN => true end.
(** [x or old] *)
Definition fig_or (x old : fig) : fig := if truthy x then x else old.
(** trade_gate.py:325-327 *)
Definition fig_of (x : option Z) : fig := match x with Some z => Num z | None => NaN end.

Section Nan.
  Context {F : Type} (pnum pyfloat : str -> option F) (trunc : F -> option Z) (round4 round3 : F -> Z) (minus : F -> F -> F) (acct : str).
  (** account.py:189-203 with the gate of trade_gate.py:304-357; [files] are assetInfo and
      positionInfo of the day.  The positions are in MFolio.v. *)
  Definition nan_sync (m : money) (files : option str * option str) : money :=
    match sync_balance_q pnum pyfloat trunc round4 round3 minus acct (fst files) (snd files) with
    | Ok (Some c, _) =>
        Money (fig_or (fig_of (bc_total c)) (m_total m)) (fig_or (fig_of (bc_avail c)) (m_avail m)) (fig_or (fig_of (bc_locked c)) (m_locked m))
    | _ => m
    end.
  (** all balance syncs of a process *)
  Definition nan_syncs (fs : list (option str * option str)) : money := fold_left nan_sync fs money0.
End Nan.
