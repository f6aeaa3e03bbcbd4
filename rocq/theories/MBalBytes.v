(** The files of the balance as bytes (trade_gate.py:304-372): pd.read_csv is called without an
    encoding, which means UTF-8; the option file_encoding is not used.  MCsv.v and MFolio.v
    work on texts; their simplifications are kept.

    Simplification: an UnicodeDecodeError is a ValueError. *)
From Verif Require Import PyBase PyStr MOrder MAccount MGate MBalance PyCsv MCsv MCodec MFolio.
Open Scope N_scope.

(** the tokenizer skips a byte order mark at the beginning *)
Definition skip_mark (t : str) : str := match t with c :: t' => if c =? 65279 then t' else t | [] => [] end.
(** lines 364-372 [_read_csv] *)
Definition read_csv_b (file : option (list N)) : res frame :=
  match file with
  | None => Err FileNotFoundError
  | Some b => match utf8_decode b with Some t => read_csv_q (Some (skip_mark t)) | None => Err ValueError end
  end.

Section Balance.
  Context {F : Type} (pnum pyfloat : str -> option F) (trunc : F -> option Z) (round4 round3 : F -> Z) (minus : F -> F -> F).
  (** lines 304-357 [sync_balance] *)
  Definition sync_balance_b (acct : str) (afile pfile : option (list N)) : res (option bcash * list bpos) :=
    match afile with
    | None => Err FileNotFoundError
    | Some _ =>
      match acct with
      | [] => Err InvalidParam
      | _ =>
          do adf <- read_csv_b afile;
          match fr_rows adf with
          | [] => Err AnXinDMAError
          | _ =>
              do cash <- asset_loop pnum pyfloat round4 minus adf acct (fr_rows adf) None;
              match pfile with
              | None => Err FileNotFoundError
              | Some _ =>
                  do pdf <- read_csv_b pfile;
                  do ps <- pos_loop pnum pyfloat trunc round4 round3 pdf acct (fr_rows pdf);
                  Ok (cash, ps)
              end
          end
      end
    end.

  Context (ptime f3 f4 : str -> option Z) (go : gopts).
  (** the gate, with the bytes of the two files in [fg_assets] and [fg_positions] *)
  Definition bytes_balance (f : fgst) : res binfo * fgst :=
    ((do x <- sync_balance_b (go_acct go) (dget (today f) (fg_assets f)) (dget (today f) (fg_positions f));
      Ok (BInfo (option_map cash_entry (fst x)) (Some (map pos_entry (snd x))))), f).
  Definition bytes_gate : gate fgst :=
    Gate fgst
      (fun o f => lift f (gate_order go o (fg_gate f)))
      (fun id f => lift f (gate_cancel go id (fg_gate f)))
      (fun f => lift f (gate_sync_orders ptime f3 f4 go (fg_gate f)))
      bytes_balance.
End Balance.
