(** pandas' C tokenizer (pandas/_libs/src/parser/tokenizer.c, tokenize_bytes and
    parser_handle_eof) with the defaults of pd.read_csv: delimiter ',', the double quote as quote
    character (doubled inside a quoted field), blank lines skipped; and the data frame made of its
    records.  MBalance.v has the same for texts without quotes.
    Simplifications: as there (a record wider than the header is an error); a lone '\r'
    followed by blanks is taken to start a line (pandas goes back to the last '\n'). *)
From Verif Require Import PyBase PyStr MGate MBalance.
Open Scope N_scope.

Definition DQ : N := 34.

(** START_RECORD, WHITESPACE_LINE (with the blanks seen), START_FIELD, IN_FIELD,
    IN_QUOTED_FIELD, QUOTE_IN_QUOTED_FIELD, EAT_CRNL, EAT_CRNL_NOP *)
Inductive tstate := SRec | SBlank (w : str) | SFld | SIn | SQuo | SQQ | SEat | SNop.
(** state, field and record so far *)
Inductive tconf := TC (st : tstate) (f : str) (r : list str).
Definition t0 : tconf := TC SRec [] [].

(** a character within a line; a line that ends is put out *)
Definition in_line (st : tstate) (f : str) (r : list str) (c : N) : tconf * list (list str) :=
  if c =? NL then (t0, [r ++ [f]])
  else if c =? CR then (TC SEat [] (r ++ [f]), [])
  else if c =? COMMA then (TC SFld [] (r ++ [f]), [])
  else match st with
       | SFld => if c =? DQ then (TC SQuo f r, []) else (TC SIn (f ++ [c]) r, [])
       | SQQ => if c =? DQ then (TC SQuo (f ++ [c]) r, []) else (TC SIn (f ++ [c]) r, [])
       | _ => (TC SIn (f ++ [c]) r, [])
       end.
(** a character at the start of a record *)
Definition at_start (c : N) : tconf :=
  if c =? NL then t0
  else if c =? CR then (TC SNop [] [])
  else if is_blank c then (TC (SBlank [c]) [] [])
  else fst (in_line SFld [] [] c).
Definition tstep (k : tconf) (c : N) : tconf * list (list str) :=
  let 'TC st f r := k in
  match st with
  | SRec => (at_start c, [])
  | SBlank w =>
      if c =? NL then (t0, [])
      else if c =? CR then (TC SNop [] [], [])
      else if is_blank c then (TC (SBlank (w ++ [c])) [] [], [])
      else in_line SIn w [] c
  | SFld | SIn | SQQ => in_line st f r c
  | SQuo => if c =? DQ then (TC SQQ f r, []) else (TC SQuo (f ++ [c]) r, [])
  | SEat => if c =? NL then (t0, [r]) else (at_start c, [r])
  | SNop => if c =? NL then (t0, []) else (at_start c, [])
  end.
Fixpoint trun (k : tconf) (s : str) : tconf * list (list str) :=
  match s with
  | [] => (k, [])
  | c :: s' => let '(k1, o1) := tstep k c in let '(k2, o2) := trun k1 s' in (k2, o1 ++ o2)
  end.
(** the end of the file *)
Definition tfinish (k : tconf) : res (list (list str)) :=
  let 'TC st f r := k in
  match st with
  | SRec | SBlank _ | SNop => Ok []
  | SQuo => Err ParserError
  | SEat => Ok [r]
  | SFld | SIn | SQQ => Ok [r ++ [f]]
  end.
Definition tokenize (s : str) : res (list (list str)) :=
  let '(k, o) := trun t0 s in do l <- tfinish k; Ok (o ++ l).

(** the data frame *)
Definition trow (n : nat) (c : list str) : res (list (option str)) :=
  if Nat.ltb n (length c) then Err ParserError else Ok (map field c ++ repeat None (n - length c)).
Fixpoint trows (n : nat) (ls : list (list str)) : res (list (list (option str))) :=
  match ls with
  | [] => Ok []
  | l :: ls' => do r <- trow n l; do rs <- trows n ls'; Ok (r :: rs)
  end.
Definition pd_read (text : str) : res frame :=
  do ls <- tokenize text;
  match ls with
  | [] => Err ValueError
  | h :: ls' => do rs <- trows (length h) ls'; Ok (Frame h rs)
  end.
