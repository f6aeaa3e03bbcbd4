(** Model of AnXinDMATradeGate.sync_balance (jqtrade/account/trade_gate.py:304-372) with
    files that may hold quoted fields.  MBalance.v has the same for files without quotes;
    its other simplifications are kept. *)
From Verif Require Import PyBase PyStr MOrder MAccount MGate MBalance PyCsv.

(** lines 364-372 [_read_csv] *)
Definition read_csv_q (file : option str) : res frame :=
  match file with
  | None => Err FileNotFoundError
  | Some text =>
      do df <- pd_read text;
      match rev (fr_rows df) with
      | [] => Err KeyError
      | r :: _ => if forallb is_none r then Ok df else Err OSError
      end
  end.

Section Balance.
  Context {F : Type} (pnum pyfloat : str -> option F) (trunc : F -> option Z) (round4 round3 : F -> Z) (minus : F -> F -> F).
  (** lines 304-357 [sync_balance] *)
  Definition sync_balance_q (acct : str) (afile pfile : option str) : res (option bcash * list bpos) :=
    match afile with
    | None => Err FileNotFoundError
    | Some _ =>
      match acct with
      | [] => Err InvalidParam
      | _ =>
          do adf <- read_csv_q afile;
          match fr_rows adf with
          | [] => Err AnXinDMAError
          | _ =>
              do cash <- asset_loop pnum pyfloat round4 minus adf acct (fr_rows adf) None;
              match pfile with
              | None => Err FileNotFoundError
              | Some _ =>
                  do pdf <- read_csv_q pfile;
                  do ps <- pos_loop pnum pyfloat trunc round4 round3 pdf acct (fr_rows pdf);
                  Ok (cash, ps)
              end
          end
      end
    end.
End Balance.
