(** Model of jqtrade/common/utils.py:36-54 ([parse_dt], [parse_time]) on all texts.
    [datetime.strptime] is CPython's [_strptime]: the format is turned into a regular
    expression ([TimeRE]; white space in the format becomes [\s+]), [match] takes the first
    way to match a beginning of the text, text left over is a ValueError, and so is a date
    or time that does not exist.

    [dig] gives the value of a decimal digit of any script ([\d] and [int()] take them
    all); what it is beyond ASCII is left open (SStrptime.digits_ok). *)
From Verif Require Import PyBase PyStr MTime MDate.
Open Scope Z_scope.

Definition cls := N -> bool.
(** [[a-b]], one character, a sequence of character classes *)
Definition rng (a b : N) : cls := fun c => ((a <=? c) && (c <=? b))%N.
Definition chr (a : N) : cls := fun c => (c =? a)%N.
Fixpoint eat (p : list cls) (s : str) : option (str * str) :=
  match p, s with
  | [], _ => Some ([], s)
  | c :: p', x :: s' =>
      if c x then match eat p' s' with Some (g, r) => Some (x :: g, r) | None => None end else None
  | _ :: _, [] => None
  end.
(** [(p1|p2|...)]: what it matches and the rest, in the order of trial *)
Definition alts (l : list (list cls)) (s : str) : list (str * str) :=
  flat_map (fun p => match eat p s with Some gr => [gr] | None => [] end) l.
(** ... followed by the character [d] *)
Definition fld (l : list (list cls)) (d : N) (s : str) : list (str * str) :=
  flat_map (fun gr => match snd gr with
                      | x :: r => if (x =? d)%N then [(fst gr, r)] else []
                      | [] => []
                      end) (alts l s).
(** [\s+]: the rests *)
Fixpoint spaces (s : str) : list str :=
  match s with
  | c :: s' => if is_space c then spaces s' ++ [s'] else []
  | [] => []
  end.
(** [[0-9]{1,n}] *)
Fixpoint reps (n : nat) (s : str) : list (str * str) :=
  match n, s with
  | S n', c :: s' => if is_digit c then map (fun gr => (c :: fst gr, snd gr)) (reps n' s') ++ [([c], s')] else []
  | _, _ => []
  end.

Section Strptime.
  Variable dig : N -> option Z.

  Definition dd : cls := fun c => match dig c with Some _ => true | None => false end.
  (** TimeRE: [%Y], [%m], [%d], [%H], [%M], [%S] *)
  Definition re_Y : list (list cls) := [[dd; dd; dd; dd]].
  Definition re_m : list (list cls) := [[chr 49; rng 48 50]; [chr 48; rng 49 57]; [rng 49 57]].
  Definition re_d : list (list cls) :=
    [[chr 51; rng 48 49]; [rng 49 50; dd]; [chr 48; rng 49 57]; [rng 49 57]; [chr 32; rng 49 57]].
  Definition re_H : list (list cls) := [[chr 50; rng 48 51]; [rng 48 49; dd]; [dd]].
  Definition re_M : list (list cls) := [[rng 48 53; dd]; [dd]].
  Definition re_S : list (list cls) := [[chr 54; rng 48 49]; [rng 48 53; dd]; [dd]].

  (** "%H:%M:%S" and "%H:%M:%S.%f": the groups and the rest *)
  Definition re_time (s : str) : list (str * str * str * str * str) :=
    flat_map (fun a => flat_map (fun b => map (fun c => (fst a, fst b, fst c, [], snd c)) (alts re_S (snd b)))
                                (fld re_M 58 (snd a))) (fld re_H 58 s).
  Definition re_timef (s : str) : list (str * str * str * str * str) :=
    flat_map (fun a => flat_map (fun b => flat_map (fun c =>
                map (fun f => (fst a, fst b, fst c, fst f, snd f)) (reps 6 (snd c)))
              (fld re_S 46 (snd b))) (fld re_M 58 (snd a))) (fld re_H 58 s).
  (** "%Y-%m-%d " and then [k] *)
  Definition re_date {A} (k : str -> list A) (s : str) : list (str * str * str * A) :=
    flat_map (fun y => flat_map (fun m => flat_map (fun d => flat_map (fun r =>
                map (fun x => (fst y, fst m, fst d, x)) (k r))
              (spaces (snd d))) (alts re_d (snd m))) (fld re_m 45 (snd y))) (fld re_Y 45 s).

  (** [int()] of a group *)
  Definition dval (c : N) : Z := match dig c with Some v => v | None => 0 end.
  Definition uval (s : str) : Z := fold_left (fun acc c => acc * 10 + dval c) (drop_while is_space s) 0.
  (** [%f] is padded with zeros on the right *)
  Definition fval (f : str) : Z :=
    match f with [] => 0 | _ => num_value f * 10 ^ (6 - Z.of_nat (length f)) end.

  (** utils.py:39-43 *)
  Definition strptime_dt (s : str) : res Z :=
    match hd_error (re_date (if has_char 46 s then re_timef else re_time) s) with
    | Some (y, m, d, (h, mi, sec, f, [])) =>
        do day <- mk_date (uval y) (uval m) (uval d);
        do t <- mk_time (uval h) (uval mi) (uval sec);
        Ok (combine day (t + fval f))
    | _ => Err ValueError
    end.

  (** utils.py:51-52 *)
  Definition strptime_time (s : str) : res Z :=
    match hd_error (re_time s) with
    | Some (h, mi, sec, _, []) => mk_time (uval h) (uval mi) (uval sec)
    | _ => Err ValueError
    end.
End Strptime.
