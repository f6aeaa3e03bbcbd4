(** The save file as text (trade_gate.py:493-512): json.dump of the orders, json.load.
    MGate.v keeps the orders themselves.

    Simplifications: a number is its text, in the grammar of JSON (NaN and Infinity are not
    represented); json.load is modelled for what the file is made of, an object of objects of
    strings, numbers and null: true, false, arrays and deeper objects are errors. *)
From Verif Require Import PyBase PyStr MOrder.
Open Scope N_scope.

(** ** json.encoder *)

Definition hexd (n : N) : N := if n <? 10 then 48 + n else 87 + n.
(** '\\u{0:04x}' *)
Definition u4 (u : N) : str := [92; 117; hexd (u / 4096); hexd (u / 256 mod 16); hexd (u / 16 mod 16); hexd (u mod 16)].
(** py_encode_basestring_ascii, one character *)
Definition esc (c : N) : str :=
  if c =? 34 then [92; 34]
  else if c =? 92 then [92; 92]
  else if c =? 10 then [92; 110]
  else if c =? 13 then [92; 114]
  else if c =? 9 then [92; 116]
  else if c =? 12 then [92; 102]
  else if c =? 8 then [92; 98]
  else if (32 <=? c) && (c <=? 126) then [c]
  else if c <? 65536 then u4 c
  else u4 (55296 + (c - 65536) / 1024) ++ u4 (56320 + (c - 65536) mod 1024).
Definition jstring (s : str) : str := 34 :: flat_map esc s ++ [34].

(** None, strings, ints and floats *)
Inductive scalar_v := JNull | JStr (s : str) | JNum (s : str).
Definition show_v (v : scalar_v) : str :=
  match v with JNull => lit "null" | JStr s => jstring s | JNum s => s end.

(** an object, with the separators ', ' and ': ' *)
Section Obj.
  Context {V : Type} (show : V -> str).
  Definition member (kv : str * V) : str := jstring (fst kv) ++ [58; 32] ++ show (snd kv).
  Fixpoint members (d : list (str * V)) : str :=
    match d with
    | [] => []
    | [kv] => member kv
    | kv :: d' => member kv ++ [44; 32] ++ members d'
    end.
  Definition show_obj (d : list (str * V)) : str := 123 :: members d ++ [125].
End Obj.
Definition dumps (o : list (str * list (str * scalar_v))) : str := show_obj (show_obj show_v) o.

(** ** json.decoder *)

Definition unhex (c : N) : option N :=
  if (48 <=? c) && (c <=? 57) then Some (c - 48)
  else if (97 <=? c) && (c <=? 102) then Some (c - 87)
  else if (65 <=? c) && (c <=? 70) then Some (c - 55)
  else None.
Definition hex4 (a b c d : N) : option N :=
  match unhex a, unhex b, unhex c, unhex d with
  | Some a, Some b, Some c, Some d => Some (a * 4096 + b * 256 + c * 16 + d)
  | _, _, _, _ => None
  end.
Definition unesc (c : N) : option N :=
  if c =? 34 then Some 34 else if c =? 92 then Some 92 else if c =? 47 then Some 47
  else if c =? 98 then Some 8 else if c =? 102 then Some 12 else if c =? 110 then Some 10
  else if c =? 114 then Some 13 else if c =? 116 then Some 9 else None.
Definition high (u : N) : bool := (55296 <=? u) && (u <=? 56319).
Definition low (u : N) : bool := (56320 <=? u) && (u <=? 57343).

(** what follows the escape of a high surrogate *)
Inductive follows := FNo | FBad | FLow (v : N).
Definition next_low (s : str) : follows :=
  match s with
  | p :: q :: a :: b :: c :: d :: _ =>
      if (p =? 92) && (q =? 117) then
        match hex4 a b c d with None => FBad | Some v => if low v then FLow v else FNo end
      else FNo
  | _ => FNo
  end.
Definition addc (c : N) (x : option (str * str)) : option (str * str) :=
  match x with Some (t, r) => Some (c :: t, r) | None => None end.
(** scanstring, after the opening quote, strict *)
Fixpoint scan (s : str) : option (str * str) :=
  match s with
  | [] => None
  | c :: s1 =>
      if c =? 34 then Some ([], s1)
      else if c =? 92 then
        match s1 with
        | [] => None
        | x :: s2 =>
            if x =? 117 then
              match s2 with
              | a :: b :: c' :: d :: s3 =>
                  match hex4 a b c' d with
                  | None => None
                  | Some u =>
                      if high u then
                        match s3 with
                        | _ :: _ :: _ :: _ :: _ :: _ :: s4 =>
                            match next_low s3 with
                            | FBad => None
                            | FLow v => addc (65536 + (u - 55296) * 1024 + (v - 56320)) (scan s4)
                            | FNo => addc u (scan s3)
                            end
                        | _ => addc u (scan s3)
                        end
                      else addc u (scan s3)
                  end
              | _ => None
              end
            else match unesc x with Some y => addc y (scan s2) | None => None end
        end
      else if c <? 32 then None
      else addc c (scan s1)
  end.

(** white space *)
Fixpoint skip_ws (s : str) : str :=
  match s with
  | c :: s' => if (c =? 32) || (c =? 9) || (c =? 10) || (c =? 13) then skip_ws s' else s
  | [] => []
  end.

(** NUMBER_RE: (-?(?:0|[1-9]\d* ))(\.\d+)?([eE][-+]?\d+)?  Simplification: all characters a
    number can have are taken, and the whole has to match; taking fewer would leave one that
    cannot follow a value. *)
Definition num_char (c : N) : bool := is_digit c || (c =? 45) || (c =? 43) || (c =? 46) || (c =? 101) || (c =? 69).
Fixpoint span (p : N -> bool) (s : str) : str * str :=
  match s with
  | c :: s' => if p c then let '(a, b) := span p s' in (c :: a, b) else ([], s)
  | [] => ([], [])
  end.
Definition some_digits (s : str) : bool := match s with [] => false | _ => true end.
Definition is_exp (s : str) : bool :=
  match s with
  | [] => true
  | e :: s1 =>
      if (e =? 101) || (e =? 69) then
        let s2 := match s1 with c :: s2 => if (c =? 45) || (c =? 43) then s2 else s1 | [] => s1 end in
        let '(a, b) := span is_digit s2 in some_digits a && negb (some_digits b)
      else false
  end.
Definition is_frac (s : str) : bool :=
  match s with
  | c :: s1 => if c =? 46 then let '(a, b) := span is_digit s1 in some_digits a && is_exp b else is_exp s
  | [] => true
  end.
Definition is_num (s : str) : bool :=
  let s1 := match s with c :: s1 => if c =? 45 then s1 else s | [] => s end in
  let '(a, b) := span is_digit s1 in
  match a with
  | [] => false
  | [_] => is_frac b
  | d :: _ => negb (d =? 48) && is_frac b
  end.

(** scan_once *)
Definition value (s : str) : option (scalar_v * str) :=
  match s with
  | c :: s1 =>
      if c =? 34 then match scan s1 with Some (t, r) => Some (JStr t, r) | None => None end
      else if startswith (lit "null") s then Some (JNull, skipn 4 s)
      else let '(a, b) := span num_char s in if is_num a then Some (JNum a, b) else None
  | [] => None
  end.

(** JSONObject *)
Section ObjD.
  Context {V : Type} (read : str -> option (V * str)).
  (** a key (its opening quote has been read) with its value, then more or the end *)
  Fixpoint pairs (fuel : nat) (s : str) : option (list (str * V) * str) :=
    match fuel with
    | O => None
    | S fuel =>
        match scan s with
        | None => None
        | Some (k, s1) =>
            match skip_ws s1 with
            | c :: s2 =>
                if c =? 58 then
                  match read (skip_ws s2) with
                  | None => None
                  | Some (v, s3) =>
                      match skip_ws s3 with
                      | d :: s4 =>
                          if d =? 125 then Some ([(k, v)], s4)
                          else if d =? 44 then
                            match skip_ws s4 with
                            | q :: s5 =>
                                if q =? 34 then
                                  match pairs fuel s5 with Some (l, r) => Some ((k, v) :: l, r) | None => None end
                                else None
                            | [] => None
                            end
                          else None
                      | [] => None
                      end
                  end
                else None
            | [] => None
            end
        end
    end.
  (** dict(pairs): a later value replaces an earlier one of the key *)
  Definition as_dict (l : list (str * V)) : list (str * V) := fold_left (fun d kv => dset (fst kv) (snd kv) d) l [].
  Definition read_obj (s : str) : option (list (str * V) * str) :=
    match s with
    | c :: s1 =>
        if c =? 123 then
          match skip_ws s1 with
          | d :: s2 =>
              if d =? 125 then Some ([], s2)
              else if d =? 34 then
                match pairs (S (length s)) s2 with Some (l, r) => Some (as_dict l, r) | None => None end
              else None
          | [] => None
          end
        else None
    | [] => None
    end.
End ObjD.
(** json.load: a value and white space *)
Definition loads (s : str) : option (list (str * list (str * scalar_v))) :=
  match read_obj (read_obj value) (skip_ws s) with
  | Some (o, r) => match skip_ws r with [] => Some o | _ => None end
  | None => None
  end.

(** ** the orders *)
Section Orders.
  (** the texts of floats: [sh4], [sh3] print the balances and prices kept in units of the
      fourth and third digit (float.__repr__), [rd4], [rd3] read them *)
  Context (sh4 sh3 : Z -> str) (rd4 rd3 : str -> option Z).

  (** order.py:202-221 [json] *)
  Definition nstr (x : option str) : scalar_v := match x with Some s => JStr s | None => JNull end.
  Definition nnum (f : Z -> str) (x : option Z) : scalar_v := match x with Some z => JNum (f z) | None => JNull end.
  Definition price_v (p : pval) : option scalar_v :=
    match p with PNum s => Some (JNum s) | PTxt s => Some (JStr s) | PBad _ => None end.
  Definition to_json (i : oinfo) : option (list (str * scalar_v)) :=
    option_map (fun p =>
      [(lit "code", JStr (i_code i)); (lit "price", p); (lit "amount", JNum (str_of_Z (i_amount i)));
       (lit "action", JStr (i_action i)); (lit "order_id", JStr (i_id i)); (lit "status", JStr (i_status i));
       (lit "style", JStr (i_style i)); (lit "create_time", JStr (i_create i));
       (lit "entrust_time", nstr (i_entrust i)); (lit "side", nstr (i_side i));
       (lit "confirm_id", nstr (i_confirm i)); (lit "filled_amount", nnum str_of_Z (i_filled i));
       (lit "canceled_amount", nnum str_of_Z (i_canceled i)); (lit "deal_balance", nnum sh4 (i_deal i));
       (lit "avg_cost", nnum sh3 (i_avg i)); (lit "commission", nnum sh4 (i_comm i)); (lit "err_msg", nstr (i_err i))])
      (price_v (i_price i)).
  Definition gstr (k : str) (d : list (str * scalar_v)) : option str := match dget k d with Some (JStr s) => Some s | _ => None end.
  Definition gnum (f : str -> option Z) (k : str) (d : list (str * scalar_v)) : option Z :=
    match dget k d with Some (JNum s) => f s | _ => None end.
  (** what the loaded dict says *)
  Definition of_json (d : list (str * scalar_v)) : option oinfo :=
    match gstr (lit "code") d, dget (lit "price") d, gnum py_int (lit "amount") d, gstr (lit "action") d, gstr (lit "order_id") d,
          gstr (lit "status") d, gstr (lit "style") d, gstr (lit "create_time") d with
    | Some code, Some p, Some amount, Some action, Some id, Some st, Some sty, Some cr =>
        let mk p := Some (OInfo code p amount action id st sty cr
          (gstr (lit "entrust_time") d) (gstr (lit "side") d) (gstr (lit "confirm_id") d)
          (gnum py_int (lit "filled_amount") d) (gnum py_int (lit "canceled_amount") d) (gnum rd4 (lit "deal_balance") d)
          (gnum rd3 (lit "avg_cost") d) (gnum rd4 (lit "commission") d) (gstr (lit "err_msg") d)) in
        match p with JNum s => mk (PNum s) | JStr s => mk (PTxt s) | JNull => None end
    | _, _, _, _, _, _, _, _ => None
    end.
  Fixpoint all_some {A B} (f : A -> option B) (l : list (str * A)) : option (list (str * B)) :=
    match l with
    | [] => Some []
    | (k, a) :: l' => match f a, all_some f l' with Some b, Some r => Some ((k, b) :: r) | _, _ => None end
    end.

  (** lines 493-497: None: TypeError *)
  Definition save_text (o : dict str oinfo) : option str := option_map dumps (all_some to_json o).
  (** lines 499-512: None: the error is logged, the orders stay as they are *)
  Definition load_text (s : str) : option (dict str oinfo) :=
    match loads s with Some o => all_some of_json o | None => None end.
End Orders.
