(** Model of AnXinDMATradeGate.sync_balance (jqtrade/account/trade_gate.py:304-372) with
    pandas.read_csv.

    Simplifications: fields hold no quotes; a record wider than the header is an error; the
    numbers of a column are floats unless one of its texts is not a number (booleans and
    dates are not recognised, as for pandas without parse_dates); numbers are an abstract
    type [F], so that nothing is assumed about rounding; the retries around _read_csv
    (C46) are not repeated here: the text is the one seen by the last attempt. *)
From Verif Require Import PyBase PyStr MOrder MAccount MGate.
Open Scope Z_scope.

(** ** pandas *)

Definition is_blank (c : N) : bool := ((c =? 32) || (c =? 9))%N.
Definition blank_line (s : str) : bool := forallb is_blank s.
(** the lines of a file as pandas sees them: '\n' and '\r' both end a line, blank lines are
    skipped *)
Fixpoint split_lines (s : str) : list str :=
  match s with
  | [] => [[]]
  | c :: s' =>
      if ((c =? NL) || (c =? CR))%N then [] :: split_lines s'
      else match split_lines s' with [] => [[c]] | l :: ls => (c :: l) :: ls end
  end.
Definition csv_records (text : str) : list str := filter (fun l => negb (blank_line l)) (split_lines text).
(** pandas._libs.parsers.STR_NA_VALUES (pandas 2) *)
Definition na_values : list str :=
  [[]; lit "-1.#IND"; lit "1.#QNAN"; lit "1.#IND"; lit "-1.#QNAN"; lit "#N/A N/A"; lit "#N/A"; lit "N/A"; lit "n/a"; lit "NA";
   lit "<NA>"; lit "#NA"; lit "NULL"; lit "null"; lit "NaN"; lit "-NaN"; lit "nan"; lit "-nan"; lit "None"].
Definition is_na (s : str) : bool := memb s na_values.

(** a data frame: column names, rows of optional texts (None: NaN) as long as the header *)
Record frame := Frame { fr_cols : list str; fr_rows : list (list (option str)) }.
Definition field (s : str) : option str := if is_na s then None else Some s.
(** short records are filled up with NaN *)
Definition csv_row (n : nat) (l : str) : res (list (option str)) :=
  let c := split_on COMMA l in
  if Nat.ltb n (length c) then Err ParserError
  else Ok (map field c ++ repeat None (n - length c)).
Fixpoint csv_rows (n : nat) (ls : list str) : res (list (list (option str))) :=
  match ls with
  | [] => Ok []
  | l :: ls' => do r <- csv_row n l; do rs <- csv_rows n ls'; Ok (r :: rs)
  end.
(** pd.read_csv; an empty file raises EmptyDataError, a ValueError *)
Definition pd_read_csv (text : str) : res frame :=
  match csv_records text with
  | [] => Err ValueError
  | h :: ls => let cols := split_on COMMA h in do rs <- csv_rows (length cols) ls; Ok (Frame cols rs)
  end.
Definition is_none {A} (o : option A) : bool := match o with None => true | Some _ => false end.

(** lines 364-372 [_read_csv]; [df.loc[-1]] of a frame without rows raises KeyError *)
Definition read_csv (file : option str) : res frame :=
  match file with
  | None => Err FileNotFoundError
  | Some text =>
      do df <- pd_read_csv text;
      match rev (fr_rows df) with
      | [] => Err KeyError
      | r :: _ => if forallb is_none r then Ok df else Err OSError
      end
  end.

Section Balance.
  (** floats; the texts pandas and float() accept; int(), round(x, 4), round(x, 3) and the
      difference.  int() of an infinity raises OverflowError (None). *)
  Context {F : Type} (pnum pyfloat : str -> option F) (trunc : F -> option Z) (round4 round3 : F -> Z) (minus : F -> F -> F).

  (** the value of a cell *)
  Inductive cell := CNan | CNum (f : F) | CStr (s : str).
  Fixpoint index_of (name : str) (cols : list str) : option nat :=
    match cols with
    | [] => None
    | c :: cs => if eqb name c then Some O else option_map S (index_of name cs)
    end.
  Definition texts (i : nat) (df : frame) : list (option str) := map (fun r => nth i r None) (fr_rows df).
  Definition numeric (l : list (option str)) : bool :=
    forallb (fun o => match o with Some s => negb (is_none (pnum s)) | None => true end) l.
  (** row.name, for a column read as str or with the inferred type *)
  Definition str_cell (df : frame) (r : list (option str)) (name : str) : res (option str) :=
    match index_of name (fr_cols df) with
    | None => Err AttributeError
    | Some i => Ok (nth i r None)
    end.
  Definition num_cell (df : frame) (r : list (option str)) (name : str) : res cell :=
    match index_of name (fr_cols df) with
    | None => Err AttributeError
    | Some i =>
        match nth i r None with
        | None => Ok CNan
        | Some s =>
            if numeric (texts i df) then match pnum s with Some f => Ok (CNum f) | None => Ok CNan end
            else Ok (CStr s)
        end
    end.
  (** float(x): None is nan *)
  Definition as_float (c : cell) : res (option F) :=
    match c with
    | CNan => Ok None
    | CNum f => Ok (Some f)
    | CStr s => match pyfloat s with Some f => Ok (Some f) | None => Err ValueError end
    end.
  (** int(x) *)
  Definition as_int (c : cell) : res Z :=
    match c with
    | CNan => Err ValueError
    | CNum f => match trunc f with Some z => Ok z | None => Err ValueError end
    | CStr s => match py_int s with Some z => Ok z | None => Err ValueError end
    end.
  Definition float_of (df : frame) (r : list (option str)) (name : str) : res (option F) := do c <- num_cell df r name; as_float c.
  Definition int_of (df : frame) (r : list (option str)) (name : str) : res Z := do c <- num_cell df r name; as_int c.

  (** lines 324-328; None is nan *)
  Record bcash := BCash { bc_total : option Z; bc_avail : option Z; bc_locked : option Z }.
  Definition asset_of (df : frame) (r : list (option str)) : res bcash :=
    do t <- float_of df r (lit "totalAsset");
    do e <- float_of df r (lit "enabledBalance");
    do c <- float_of df r (lit "currentBalance");
    Ok (BCash (option_map round4 t) (option_map round4 e)
              (match c, e with Some x, Some y => Some (round4 (minus x y)) | _, _ => None end)).
  (** lines 317-328 *)
  Fixpoint asset_loop (df : frame) (acct : str) (rs : list (list (option str))) (cash : option bcash) : res (option bcash) :=
    match rs with
    | [] => Ok cash
    | r :: rs' =>
        do a <- str_cell df r (lit "acct");
        if negb (eqb a (Some acct)) then asset_loop df acct rs' cash
        else do e <- str_cell df r (lit "exchange");
        if negb (is_none e) then asset_loop df acct rs' cash
        else do c <- asset_of df r; asset_loop df acct rs' (Some c)
    end.

  (** lines 346-355 *)
  Record bpos := BPos { bp_code : str; bp_amount : Z; bp_avail : Z; bp_avg : option Z; bp_last : option Z; bp_value : option Z }.
  Definition pos_of (df : frame) (r : list (option str)) (sym : str) : res bpos :=
    do c <- decode sym;
    do n <- int_of df r (lit "currentQty");
    do v <- int_of df r (lit "enabledQty");
    do g <- float_of df r (lit "costPrice");
    do l <- float_of df r (lit "lastPrice");
    do w <- float_of df r (lit "mktValue");
    Ok (BPos c n v (option_map round3 g) (option_map round3 l) (option_map round4 w)).
  (** lines 334-355 *)
  Fixpoint pos_loop (df : frame) (acct : str) (rs : list (list (option str))) : res (list bpos) :=
    match rs with
    | [] => Ok []
    | r :: rs' =>
        do a <- str_cell df r (lit "acct");
        if negb (eqb a (Some acct)) then pos_loop df acct rs'
        else do s <- str_cell df r (lit "symbol");
        match s with
        | None => Ok []
        | Some sym =>
            do q <- int_of df r (lit "currentQty");
            if q =? 0 then pos_loop df acct rs'
            else do p <- pos_of df r sym; do ps <- pos_loop df acct rs'; Ok (p :: ps)
        end
    end.

  (** lines 304-357 [sync_balance]: the entries "cash" (absent: None) and "positions".
      [acct] is str(account_no), "" if there is none. *)
  Definition sync_balance (acct : str) (afile pfile : option str) : res (option bcash * list bpos) :=
    match afile with
    | None => Err FileNotFoundError
    | Some _ =>
      match acct with
      | [] => Err InvalidParam
      | _ =>
          do adf <- read_csv afile;
          match fr_rows adf with
          | [] => Err AnXinDMAError
          | _ =>
              do cash <- asset_loop adf acct (fr_rows adf) None;
              match pfile with
              | None => Err FileNotFoundError
              | Some _ =>
                  do pdf <- read_csv pfile;
                  do ps <- pos_loop pdf acct (fr_rows pdf);
                  Ok (cash, ps)
              end
          end
      end
    end.
End Balance.
