(** Model of TimeExprParser and of the time part of EventSource.add_event
    (jqtrade/scheduler/event_source.py). *)
From Verif Require Import PyBase PyStr MTime.
Open Scope Z_scope.

Definition is_pm (c : N) : bool := (c =? 43)%N || (c =? 45)%N.          (* '+' '-' *)
Definition is_unit (c : N) : bool :=                                     (* 'h' 'm' 's' *)
  (c =? 104)%N || (c =? 109)%N || (c =? 115)%N.

(** [re.split(r'([+-])', expr)]: parts and separators alternate (line 253) *)
Fixpoint re_split_pm (s : str) : list str :=
  match s with
  | [] => [[]]
  | a :: s' =>
      if is_pm a then [] :: [a] :: re_split_pm s'
      else match re_split_pm s' with
           | w :: ws => (a :: w) :: ws
           | [] => [[a]]
           end
  end.

(** one [[0-9]{1,2}[hms]] group at the head: ((number, unit), rest) *)
Definition take_group (s : str) : option ((Z * N) * str) :=
  match s with
  | d1 :: c2 :: s2 =>
      if is_digit d1 then
        if is_unit c2 then Some ((digit_val d1, c2), s2)
        else match s2 with
             | c3 :: s3 =>
                 if is_digit c2 && is_unit c3
                 then Some ((digit_val d1 * 10 + digit_val c2, c3), s3) else None
             | [] => None
             end
      else None
  | _ => None
  end.

(** line 244: [re.match(r'^(([0-9]{1,2}[hms]){1,3})$', offset)]; [$] also matches
    before a final newline.  Line 247: [re.findall] of the same groups. *)
Fixpoint match_groups (n : nat) (s : str) : option (list (Z * N)) :=
  if str_eqb s [] || str_eqb s [10%N] then Some []
  else match n with
       | O => None
       | S n' => match take_group s with
                 | Some (g, rest) => option_map (cons g) (match_groups n' rest)
                 | None => None
                 end
       end.

(** lines 242-249 [_parse_offset], in microseconds.  [dict((v, int(k)) ...)]: a later
    group with the same unit replaces an earlier one. *)
Definition unit_dict (gs : list (Z * N)) : dict N Z :=
  fold_left (fun d g => dset (snd g) (fst g) d) gs [].
Definition dget0 (k : N) (d : dict N Z) : Z :=
  match dget k d with Some v => v | None => 0 end.
Definition parse_offset (s : str) : res Z :=
  match match_groups 3 s with
  | Some (g :: gs) =>
      let d := unit_dict (g :: gs) in
      Ok ((dget0 104%N d * 3600 + dget0 109%N d * 60 + dget0 115%N d) * US)
  | _ => Err InvalidParam
  end.

(** lines 251-263 [parse]: (base, op, offset) *)
Definition allowed_base (s : str) : bool := str_eqb s (lit "open") || str_eqb s (lit "close").
Definition parse_expr (expr : str) : res (str * str * Z) :=
  match re_split_pm expr with
  | [base] => if allowed_base base then Ok (base, lit "+", 0) else Err InvalidParam
  | [base; op; off] => do o <- parse_offset off; Ok (base, op, o)
  | _ => Err InvalidParam
  end.

(** Market periods: (open, close) times of day.  They are datetime.time objects
    (config.py:22-25) or were parsed by set_options (strategy.py:170-178). *)
Definition periods := list (Z * Z).

(** lines 161-179 [expr_to_time], relative to the midnight of the day.
    [market_period[0][0]] and [market_period[-1][-1]]: IndexError if empty; an unknown
    base is a KeyError (line 174). *)
Definition expr_to_time (mp : periods) (expr : str) : res Z :=
  match mp with
  | [] => Err IndexError
  | p0 :: _ =>
      let open_time := fst p0 in
      let close_time := snd (last mp p0) in
      do (base, op, off) <- parse_expr expr;
      do b <- (if str_eqb base (lit "open") then Ok open_time
               else if str_eqb base (lit "close") then Ok close_time
               else Err KeyError);
      Ok (if str_eqb op (lit "+") then b + off else b - off)
  end.

(** lines 138-149: 'H:M' or 'H:M:S' (further parts are ignored) *)
Definition clock_time (expr : str) : res Z :=
  match split_on 58%N expr with
  | h :: m :: rest =>
      let sec := match rest with s :: _ => py_int s | [] => Some 0 end in
      match py_int h, py_int m, sec with
      | Some h', Some m', Some s' => mk_time h' m' s'
      | _, _, _ => Err ValueError
      end
  | _ => Err ValueError
  end.

(** lines 138-151: offset of the instant from the midnight of its day *)
Definition expr_offset (mp : periods) (expr : str) : res Z :=
  if has_char 58%N expr then clock_time expr else expr_to_time mp expr.
