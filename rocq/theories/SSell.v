(** What C98 means by its words: histories of an account that sells, together with the number
    of shares the broker can still sell for it. *)
From Verif Require Import PyBase PyStr MTime MOrder MAccount MGate MBalance MCsv MFolio SAccount.
Open Scope Z_scope.

(** closeable_amount as a strategy sees it; 0 without a position *)
Definition closeable (a : acct) (code : str) : Z :=
  match dget code (long_view a) with Some p => ps_avail p | None => 0 end.
(** something was added to today's order file *)
Definition wrote (f f' : fgst) : Prop := text_of (today f) (gs_ofile (fg_gate f')) <> text_of (today f) (gs_ofile (fg_gate f)).

Section Selling.
  Context (ptime f3 f4 : str -> option Z) (go : gopts).
  Context {F : Type} (pnum pyfloat : str -> option F) (trunc : F -> option Z) (round4 round3 : F -> Z) (minus : F -> F -> F).
  Notation gt := (full_gate ptime f3 f4 go pnum pyfloat trunc round4 round3 minus).

  (** today's position file says of each share that at most [left] of it can be sold *)
  Definition tells (left : str -> Z) (f : fgst) : Prop :=
    forall cash ps p,
      sync_balance_q pnum pyfloat trunc round4 round3 minus (go_acct go) (dget (today f) (fg_assets f)) (dget (today f) (fg_positions f)) = Ok (cash, ps) ->
      In p ps -> bp_avail p <= left (bp_code p).

  (** [left code]: the shares that can still be sold after all that is in the order file;
      [past]: its earlier values.  [report] restricts the position files that are read,
      [ack] the orders that return None. *)
  Context (report : (str -> Z) -> list (str -> Z) -> fgst -> Prop) (ack : fgst -> fgst -> Prop).
  Inductive selling : acct -> fgst -> (str -> Z) -> list (str -> Z) -> Prop :=
  | s_start f left : (forall c, 0 <= left c) -> selling acct_new f left []
  | s_order a f left past id now code n st sd r a' f' left' : selling a f left past ->
      (* it sells at most what it sees *)
      (n < 0 -> - n <= closeable a code) ->
      acc_order gt id now code n st sd a f = (r, a', f') -> (r = None -> ack f f') ->
      (wrote f f' -> forall c, left' c = left c - if str_eqb code c && (n <? 0) then - n else 0) ->
      (~ wrote f f' -> forall c, left' c = left c) ->
      selling a' f' left' (left :: past)
  | s_cancel a f left past id : selling a f left past ->
      selling (fst (acc_cancel gt id a f)) (snd (acc_cancel gt id a f)) left past
  | s_orders a f left past : selling a f left past ->
      selling (fst (acc_sync_orders gt a f)) (snd (acc_sync_orders gt a f)) left past
  | s_balance a f left past : selling a f left past -> report left past f ->
      selling (fst (acc_sync_balance gt a f)) (snd (acc_sync_balance gt a f)) left past
  (* the broker writes files, time passes, cancelled sells and bought shares are released *)
  | s_broker a f left past f' left' : selling a f left past -> (forall c, left c <= left' c) ->
      selling a f' left' (left :: past)
  | s_restart a f left past ok : selling a f left past ->
      selling acct_new (with_gate f (gate_setup ok (fg_gate f))) left past.

  (** C98 *)
  Definition never_oversold : Prop := forall a f left past, selling a f left past -> forall c, 0 <= left c.
End Selling.

(** the files read are of now, or of any earlier time *)
Definition of_now {F} go pnum pyfloat trunc (round4 round3 : F -> Z) minus (left : str -> Z) (past : list (str -> Z)) (f : fgst) : Prop :=
  tells go pnum pyfloat trunc round4 round3 minus left f.
Definition of_then {F} go pnum pyfloat trunc (round4 round3 : F -> Z) minus (left : str -> Z) (past : list (str -> Z)) (f : fgst) : Prop :=
  exists x, In x (left :: past) /\ tells go pnum pyfloat trunc round4 round3 minus x f.
(** an order that returns None left nothing in the order file *)
Definition acked (f f' : fgst) : Prop := ~ wrote f f'.
Definition any_ack (f f' : fgst) : Prop := True.
