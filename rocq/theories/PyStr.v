(** Python strings as lists of Unicode code points, with the methods the code uses.
    Nothing here is jqtrade code. *)
From Coq Require Import String Ascii DecimalString.
From Verif Require Export PyBase.
Export String.StringSyntax.

Definition str := list N.

(** String literals. *)
Definition lit (s : string) : str := map N_of_ascii (list_ascii_of_string s).
Arguments lit s%string.

Definition str_eqb : str -> str -> bool := list_eqb.

Lemma str_eqb_spec (a b : str) : reflect (a = b) (str_eqb a b).
Proof. apply list_eqb_spec. Qed.
Lemma str_eqb_eq (a b : str) : str_eqb a b = true <-> a = b.
Proof. destruct (str_eqb_spec a b); split; congruence. Qed.
Lemma str_eqb_neq (a b : str) : str_eqb a b = false <-> a <> b.
Proof. destruct (str_eqb_spec a b); split; congruence. Qed.
Lemma str_eqb_refl (a : str) : str_eqb a a = true.
Proof. apply str_eqb_eq; reflexivity. Qed.

(** [s.startswith(p)] *)
Fixpoint startswith (p s : str) : bool :=
  match p, s with
  | [], _ => true
  | a :: p', b :: s' => (a =? b)%N && startswith p' s'
  | _ :: _, [] => false
  end.

(** [s.endswith(p)] *)
Definition endswith (p s : str) : bool := startswith (rev p) (rev s).

(** [c in s] for a one-character string [c] *)
Definition has_char (c : N) (s : str) : bool := existsb (N.eqb c) s.

(** [p in s] *)
Fixpoint contains (p s : str) : bool :=
  startswith p s || match s with [] => false | _ :: s' => contains p s' end.

(** [s.split(c)] for a one-character separator; never empty *)
Fixpoint split_on (c : N) (s : str) : list str :=
  match s with
  | [] => [[]]
  | a :: s' =>
      if (a =? c)%N then [] :: split_on c s'
      else match split_on c s' with
           | [] => [[a]]
           | w :: ws => (a :: w) :: ws
           end
  end.

(** [sep.join(l)] for a one-character separator *)
Fixpoint join_with (c : N) (l : list str) : str :=
  match l with
  | [] => []
  | [w] => w
  | w :: ws => w ++ c :: join_with c ws
  end.

(** [str.isspace] for one character: the code points Python's [strip()] removes. *)
Definition is_space (c : N) : bool :=
  ((9 <=? c) && (c <=? 13) || (28 <=? c) && (c <=? 32)
   || (c =? 133) || (c =? 160) || (c =? 5760)
   || (8192 <=? c) && (c <=? 8202) || (c =? 8232) || (c =? 8233)
   || (c =? 8239) || (c =? 8287) || (c =? 12288))%N.

Fixpoint drop_while (f : N -> bool) (s : str) : str :=
  match s with
  | [] => []
  | a :: s' => if f a then drop_while f s' else s
  end.

(** [s.strip()] *)
Definition strip (s : str) : str := rev (drop_while is_space (rev (drop_while is_space s))).

(** [s.lstrip(cs)]: removes leading characters that occur in [cs] *)
Definition lstrip_chars (cs s : str) : str := drop_while (fun a => has_char a cs) s.

(** [s.replace(old, new)], non-empty [old]; left to right, non-overlapping *)
Fixpoint replace_aux (skip : nat) (old new s : str) : str :=
  match s with
  | [] => []
  | a :: s' =>
      match skip with
      | S k => replace_aux k old new s'
      | O => if startswith old s
             then new ++ replace_aux (List.length old - 1) old new s'
             else a :: replace_aux 0 old new s'
      end
  end.
Definition replace (old new s : str) : str := replace_aux 0 old new s.

(** ASCII decimal digits *)
Definition is_digit (c : N) : bool := ((48 <=? c) && (c <=? 57))%N.
Definition digit_val (c : N) : Z := (Z.of_N c - 48)%Z.

(** Body of [int(s)] after sign and white space: digits with single underscores
    between them.  [us] = an underscore is allowed here (previous was a digit).
    Simplification: non-ASCII decimal digits, which Python accepts, are rejected. *)
Fixpoint int_body (acc : Z) (us : bool) (s : str) : option Z :=
  match s with
  | [] => if us then Some acc else None
  | c :: s' =>
      if is_digit c then int_body (acc * 10 + digit_val c) true s'
      else if (c =? 95)%N && us then
             match s' with
             | d :: _ => if is_digit d then int_body acc false s' else None
             | [] => None
             end
      else None
  end.

(** the white space [int(s)] skips: that of [strip()] without the separators 28 to 31
    (CPython maps spaces beyond ASCII to ' ' and then skips what C's isspace accepts) *)
Definition is_int_space (c : N) : bool := is_space c && negb ((28 <=? c) && (c <=? 31))%N.
Definition int_strip (s : str) : str := rev (drop_while is_int_space (rev (drop_while is_int_space s))).

(** [int(s)]; [None] = ValueError *)
Definition py_int (s : str) : option Z :=
  match int_strip s with
  | c :: s' =>
      if (c =? 43)%N then int_body 0 false s'                         (* '+' *)
      else if (c =? 45)%N then option_map Z.opp (int_body 0 false s') (* '-' *)
      else int_body 0 false (c :: s')
  | [] => None
  end.

(** [str(n)] for integers *)
Definition str_of_N (n : N) : str := lit (NilEmpty.string_of_uint (N.to_uint n)).
Definition str_of_Z (z : Z) : str :=
  match z with
  | Z0 => lit "0"
  | Zpos p => str_of_N (Npos p)
  | Zneg p => 45%N :: str_of_N (Npos p)
  end.

(** [str.isdigit] of one character.  [udigit] says which non-ASCII code points
    Unicode classifies as digits (left arbitrary). *)
Definition isdigit_cp (udigit : N -> bool) (c : N) : bool :=
  if (c <? 128)%N then is_digit c else udigit c.
(** [s.isdigit()]: non-empty and all characters are digits *)
Definition isdigit (udigit : N -> bool) (s : str) : bool :=
  match s with [] => false | _ => forallb (isdigit_cp udigit) s end.

(** [s[-n:]] and [s[:-n]] *)
Definition last_n (n : nat) (s : str) : str := skipn (List.length s - n) s.
Definition but_last_n (n : nat) (s : str) : str := firstn (List.length s - n) s.
