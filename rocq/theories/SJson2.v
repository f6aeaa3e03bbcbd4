(** C160: the strings of JSON, as written and as read. *)
From Verif Require Import PyBase PyStr.
Open Scope N_scope.

Definition hexdigit (c v : N) : Prop :=
  nth_error (lit "0123456789abcdef") (N.to_nat v) = Some c \/ nth_error (lit "0123456789ABCDEF") (N.to_nat v) = Some c.
(** a character, or a number behind \u *)
Inductive item := IC (c : N) | IU (u : N).
(** how an item may be written *)
Inductive spelt : item -> str -> Prop :=
| s_plain c : 32 <= c -> c <> 34 -> c <> 92 -> spelt (IC c) [c]
| s_esc x y : In (x, y) [(34, 34); (92, 92); (47, 47); (98, 8); (102, 12); (110, 10); (114, 13); (116, 9)] -> spelt (IC y) [92; x]
| s_u a b c d va vb vc vd : hexdigit a va -> hexdigit b vb -> hexdigit c vc -> hexdigit d vd ->
    spelt (IU (va * 4096 + vb * 256 + vc * 16 + vd)) [92; 117; a; b; c; d].
Inductive spells : list item -> str -> Prop :=
| sp_nil : spells [] []
| sp_cons i s l q : spelt i s -> spells l q -> spells (i :: l) (s ++ q).
(** what the items mean: two surrogates of a pair are one character *)
Definition is_high (u : N) : Prop := 55296 <= u <= 56319.
Definition is_low (u : N) : Prop := 56320 <= u <= 57343.
Inductive means : list item -> str -> Prop :=
| m_nil : means [] []
| m_char c l t : means l t -> means (IC c :: l) (c :: t)
| m_pair h w l t : is_high h -> is_low w -> means l t -> means (IU h :: IU w :: l) (65536 + (h - 55296) * 1024 + (w - 56320) :: t)
| m_unit u l t : (forall w l', l = IU w :: l' -> ~ (is_high u /\ is_low w)) -> means l t -> means (IU u :: l) (u :: t).

(** ** the file, with any white space *)
From Verif Require Import MJson SJson.
Definition blank (c : N) : Prop := c = 32 \/ c = 9 \/ c = 10 \/ c = 13.
Definition space (w : str) : Prop := Forall blank w.
(** a string with its quotes *)
Inductive quoted : str -> str -> Prop :=
| q_intro l q t : spells l q -> means l t -> quoted t (34 :: q ++ [34]).
Inductive vtext : scalar_v -> str -> Prop :=
| v_null : vtext JNull (lit "null")
| v_str t q : quoted t q -> vtext (JStr t) q
| v_num s : number s -> vtext (JNum s) s.
Section Object.
  Context {V : Type} (vt : V -> str -> Prop).
  (** a member: key, colon, value *)
  Inductive mtext : str * V -> str -> Prop :=
  | mt_intro k v q w1 w2 x w3 : quoted k q -> space w1 -> space w2 -> vt v x -> space w3 -> mtext (k, v) (q ++ w1 ++ [58] ++ w2 ++ x ++ w3).
  (** members up to the closing brace *)
  Inductive ptext : list (str * V) -> str -> Prop :=
  | p_last kv x : mtext kv x -> ptext [kv] (x ++ [125])
  | p_more kv x w m y : mtext kv x -> space w -> ptext m y -> ptext (kv :: m) (x ++ [44] ++ w ++ y).
  (** an object; of the values of a key the last one counts *)
  Inductive otext : list (str * V) -> str -> Prop :=
  | o_none w : space w -> otext [] (123 :: w ++ [125])
  | o_some w m x : space w -> ptext m x -> otext (fold_left (fun d kv => dset (fst kv) (snd kv) d) m []) (123 :: w ++ x).
End Object.
Inductive ftext : list (str * list (str * scalar_v)) -> str -> Prop :=
| f_intro w o x w' : space w -> otext (otext vtext) o x -> space w' -> ftext o (w ++ x ++ w').
