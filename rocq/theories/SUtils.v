(** What C46, C50, C51, C56 and C57 mean by their words. *)
From Verif Require Import PyStr.
Open Scope list_scope.

(** the retry helper may call again after this exception *)
Definition retried (on : option (exn -> bool)) (e : exn) : Prop := forall p, on = Some p -> p e = true.

(** one K=V entry as written by the user; blanks around K and V do not count *)
Definition entry_of (kv : str * str) : str := fst kv ++ 61%N :: snd kv.
(** K and V contain neither ';' nor '=' *)
Definition clean_entry (kv : str * str) : Prop :=
  ~ In 59%N (fst kv) /\ ~ In 61%N (fst kv) /\ ~ In 59%N (snd kv) /\ ~ In 61%N (snd kv).
(** the value of the last entry for a name *)
Definition last_value (kvs : list (str * str)) (k : str) : option str :=
  option_map (fun kv => strip (snd kv)) (find (fun kv => eqb k (strip (fst kv))) (rev kvs)).

(** the strategy file [p] lies in directory [d] and defines module [n] *)
Definition code_path (d n p : str) : Prop :=
  n <> [] /\ ~ In 46%N n /\ ~ In 47%N n /\
  ((d = lit "." /\ p = n ++ lit ".py") \/
   (d = lit "/" /\ p = lit "/" ++ n ++ lit ".py") \/
   (exists d' c, d = d' ++ [c] /\ c <> 47%N /\ p = d ++ lit "/" ++ n ++ lit ".py")).

(** the words with the separator between them *)
Inductive joined (sep : str) : list str -> str -> Prop :=
| j_none : joined sep [] []
| j_one w : joined sep [w] w
| j_more w v ws t : joined sep (v :: ws) t -> joined sep (w :: v :: ws) (w ++ sep ++ t).
