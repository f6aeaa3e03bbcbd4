(** Specifications for the AnXin gate, independent of the functions in MGate.v. *)
From Verif Require Import PyBase PyStr MOrder MAccount MGate.
Open Scope Z_scope.

(** ** C22, C35 *)

(** the broker's symbol of a code *)
Definition symbol_of (code sym : str) : Prop :=
  exists d sep, (code = d ++ sep :: lit "XSHE" /\ sym = d ++ sep :: lit "SZ") \/
                (code = d ++ sep :: lit "XSHG" /\ sym = d ++ sep :: lit "SH").
(** a text that can stand in a column *)
Definition plain (s : str) : Prop := ~ In COMMA s /\ ~ In NL s.
Definition price_fields (z : Z) (sty : style) : list str :=
  match sty with
  | Market _ => [if 0 <? z then lit "P6" else lit "P7"; lit "0"; lit "0"; lit "0"]
  | Limit p => [lit "AT"; lit "0"; pval_str p; pval_str p]
  end.
(** digits and points *)
Definition numeral (s : str) : Prop := Forall (fun c => (48 <= c <= 57)%N \/ c = 46%N) s.
(** an order line has these columns *)
Definition order_columns (id acct counter algo sym : str) (z : Z) (sty : style) (cols : list str) : Prop :=
  exists stamp qty, cols = [stamp; id; counter; acct; sym; if 0 <? z then lit "1" else lit "2"; qty; algo] ++ price_fields z sty
    /\ py_int qty = Some (Z.abs z) /\ numeral stamp /\ numeral qty.

(** the names of the columns of the two files *)
Definition order_names : list str :=
  [lit "updTime"; lit "custBatchNo"; lit "acctType"; lit "acct"; lit "symbol"; lit "tradeSide"; lit "targetQty"; lit "algoId"; lit "priceType"; lit "ticks";
   lit "highLimitPrice"; lit "lowLimitPrice"].
Definition cancel_names : list str := [lit "updTime"; lit "custBatchNo"].

(** ** C36-C40: lines *)

(** a complete line *)
Definition whole (l : str) : Prop := exists b, l = b ++ [NL] /\ ~ In NL b.
Definition commas (l : str) : nat := count_occ N.eq_dec l COMMA.
Definition header_line (l : str) : Prop := exists r, strip l = lit "updTime" ++ r.
(** column number k, without surrounding white space *)
Definition col (k : nat) (l : str) : str := strip (nth k (split_on COMMA (strip l)) []).

(** [n]: number of commas of a data line (19 in the update, 5 in the result file) *)
Definition readable (n : nat) (l : str) : Prop := whole l /\ (header_line l \/ (n <= commas l)%nat).
(** what may stand after the last complete line when the file is read *)
Definition pending (n : nat) (t : str) : Prop := ~ In NL t /\ ~ header_line t /\ (commas t < n)%nat.
Definition calm (n : nat) (text : str) (ls : list str) : Prop :=
  exists t, text = concat ls ++ t /\ Forall (readable n) ls /\ pending n t.

(** update lines concerning an order; result lines rejecting it *)
Definition update_for (id l : str) : Prop := ~ header_line l /\ commas l = 19%nat /\ col 17 l = id.
Definition reject_for (id l : str) : Prop :=
  ~ header_line l /\ commas l = 5%nat /\ col 1 l = lit "1" /\ col 3 l = lit "1" /\ col 2 l = id.
(** no order is both rejected by a result line and reported by an update line *)
Definition exclusive (rs us : list str) : Prop :=
  forall id r u, In r rs -> In u us -> reject_for id r -> update_for id u -> False.

(** the status a code stands for (broker's documentation) *)
Definition status_code (s : str) (st : status) : Prop :=
  In (s, st) [(lit "0", Sopen); (lit "1", Sfilling); (lit "2", Sfilled); (lit "3", Spartly_canceled);
              (lit "4", Scanceled); (lit "5", Srejected); (lit "7", Snew); (lit "8", Scanceling)].
