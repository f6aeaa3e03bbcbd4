(** What C92 means by its words: how options may be written on a command line, and what is
    asked for by writing them. *)
From Verif Require Import PyBase PyStr MTasks MMain.
Open Scope list_scope.

Definition prefix (p s : str) : Prop := exists r, s = p ++ r.
Definition suffix (v t : str) : Prop := exists x, t = x ++ v.

(** the documented names *)
Definition start_names (k : aopt) : list str :=
  match k with
  | OHelp => [lit "-h"; lit "--help"] | OName => [lit "-n"; lit "--name"] | OCode => [lit "-c"; lit "--code"]
  | OOut => [lit "-o"; lit "--out"] | OEnv => [lit "-e"; lit "--env"] | OConfig => [lit "--config"] | ODebug => [lit "--debug"]
  end.
Definition stop_names (k : kopt) : list str :=
  match k with
  | KHelp => [lit "-h"; lit "--help"] | KName => [lit "-n"; lit "--name"] | KPid => [lit "-p"; lit "--pid"]
  | KAll => [lit "--all"] | KForce => [lit "-f"; lit "--force"]
  end.
Definition start_all : list str := flat_map start_names [OHelp; OName; OCode; OOut; OEnv; OConfig; ODebug].
Definition stop_all : list str := flat_map stop_names [KHelp; KName; KPid; KAll; KForce].

(** [p] can stand for the name [s]: it is [s], or a beginning of it (longer than the two
    dashes) that no other name has *)
Definition calls (all : list str) (p s : str) : Prop :=
  p = s \/
  ((exists c w, p = lit "--" ++ c :: w) /\ ~ In 61%N p /\ prefix p s /\ forall s', In s' all -> prefix p s' -> s' = s).
(** a negative number: a dash and digits, with or without a fraction *)
Inductive negative : str -> Prop :=
| neg_int d : d <> [] -> Forall (fun c => (48 <= c <= 57)%N) d -> negative (45%N :: d)
| neg_frac d f : f <> [] -> Forall (fun c => (48 <= c <= 57)%N) (d ++ f) -> negative (45%N :: d ++ 46%N :: f).
(** a value that can be written as a token of its own *)
Definition plain (v : str) : Prop := v = [] \/ v = lit "-" \/ (exists c w, v = c :: w /\ c <> 45%N) \/ negative v.

(** the tokens that write an option with one of [names], and its value if it has one *)
Inductive spelling (all names : list str) : option str -> list str -> Prop :=
| sp_flag p s : In s names -> calls all p s -> spelling all names None [p]
| sp_separate p s v : In s names -> calls all p s -> plain v -> spelling all names (Some v) [p; v]
| sp_equals p s v : In s names -> calls all p s -> spelling all names (Some v) [p ++ 61%N :: v]
| sp_attached c x v : In [45%N; c] names -> c <> 45%N -> x <> 61%N -> spelling all names (Some (x :: v)) [45%N :: c :: x :: v].

(** whether an option has a value *)
Definition start_valued (k : aopt) : bool := match k with OHelp | ODebug => false | _ => true end.
Definition stop_valued (k : kopt) : bool := match k with KName | KPid => true | _ => false end.
Definition valued_ok (b : bool) (v : option str) : Prop := if b then v <> None else v = None.

(** a list of options as they were written *)
Definition start_typed (items : list (aopt * option str * list str)) : Prop :=
  Forall (fun '(k, v, toks) => k <> OHelp /\ valued_ok (start_valued k) v /\ spelling start_all (start_names k) v toks) items.
Definition stop_typed (items : list (kopt * option str * list str)) : Prop :=
  Forall (fun '(k, v, toks) => k <> KHelp /\ valued_ok (stop_valued k) v /\ spelling stop_all (stop_names k) v toks) items.
Definition tokens {K} (items : list (K * option str * list str)) : list str := flat_map snd items.

(** the value asked for: of several, the one written last *)
Inductive asked {K} (k : K) : list (K * option str * list str) -> option str -> Prop :=
| ak_none items : (forall v toks, ~ In (k, Some v, toks) items) -> asked k items None
| ak_last a v toks b : (forall v' toks', ~ In (k, Some v', toks') b) -> asked k (a ++ (k, Some v, toks) :: b) (Some v).
Definition given {K} (k : K) (items : list (K * option str * list str)) : Prop := exists v toks, In (k, v, toks) items.

(** a token that looks like an option and is none: no name begins with it (or with its part
    before "="), it begins with no one-letter name, it is no negative number and has no blank *)
Definition no_option (all : list str) (t : str) : Prop :=
  (exists c w, t = 45%N :: c :: w) /\ ~ In 32%N t /\ ~ negative t /\
  (forall p s, p = t \/ (exists e, t = p ++ 61%N :: e) -> In s all -> ~ prefix p s) /\
  (forall c, In [45%N; c] all -> ~ prefix [45%N; c] t).
