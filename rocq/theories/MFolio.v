(** Model of the whole AnXin gate (jqtrade/account/trade_gate.py:149-587): the order part of
    MGate.v and the balance part of MCsv.v as one gate of an account.

    Simplification: NaN among the figures of the balance files is taken for 0; what is proved
    about figures is about files without NaN in them. *)
From Verif Require Import PyBase PyStr MTime MOrder MAccount MGate MBalance MCsv.
Open Scope Z_scope.

(** the gate and, per day, the files assetInfo and positionInfo (lines 581-587) *)
Record fgst := FG { fg_gate : gst; fg_assets : dict Z str; fg_positions : dict Z str }.
Definition with_gate (f : fgst) (x : gst) : fgst := FG x (fg_assets f) (fg_positions f).
Definition lift {A} (f : fgst) (r : res A * gst) : res A * fgst := (fst r, with_gate f (snd r)).
Definition today (f : fgst) : Z := ge_date (gs_env (fg_gate f)).

(** lines 324-328: the entry "cash" *)
Definition cash_entry (c : bcash) : cash :=
  Cash (Some (dfl (bc_total c) 0)) (Some (dfl (bc_avail c) 0)) (Some (dfl (bc_locked c) 0)).
(** lines 346-355: an entry of "positions" *)
Definition pos_entry (p : bpos) : pinfo :=
  PInfo (Some (lit "long")) (Some (bp_code p)) (Some (bp_amount p)) (Some (bp_avail p))
    (Some (dfl (bp_avg p) 0)) (Some (dfl (bp_last p) 0)) (Some (dfl (bp_value p) 0)).

Section Folio.
  Context (ptime f3 f4 : str -> option Z) (go : gopts).
  Context {F : Type} (pnum pyfloat : str -> option F) (trunc : F -> option Z) (round4 round3 : F -> Z) (minus : F -> F -> F).

  (** lines 304-357 [sync_balance] *)
  Definition full_balance (f : fgst) : res binfo * fgst :=
    ((do x <- sync_balance_q pnum pyfloat trunc round4 round3 minus (go_acct go) (dget (today f) (fg_assets f)) (dget (today f) (fg_positions f));
      Ok (BInfo (option_map cash_entry (fst x)) (Some (map pos_entry (snd x))))), f).
  (** lines 238-480 *)
  Definition full_gate : gate fgst :=
    Gate fgst
      (fun o f => lift f (gate_order go o (fg_gate f)))
      (fun id f => lift f (gate_cancel go id (fg_gate f)))
      (fun f => lift f (gate_sync_orders ptime f3 f4 go (fg_gate f)))
      full_balance.
End Folio.
