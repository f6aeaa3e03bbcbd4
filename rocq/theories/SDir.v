(** What C100 and C101 mean by its words. *)
From Verif Require Import PyBase PyStr MAccount MGate MFolio MDir SOfile.
Open Scope Z_scope.

(** what happens if only task [k] runs *)
Definition alone (k : nat) (xs : list dstep) : list dstep :=
  filter (fun x => match x with DTask j _ _ => Nat.eqb j k | DBroker _ _ _ _ => true end) xs.
(** what task [k] was told *)
Definition told {A} (k : nat) (os : list (nat * A)) : list A := map snd (filter (fun o => Nat.eqb (fst o) k) os).
(** the directory without any order or cancel file *)
Definition bare (d : dir) : dir := Dir [] [] (d_results d) (d_updates d) (d_assets d) (d_positions d).
(** nobody is cut off within a write *)
Definition whole_writes (x : dstep) : Prop := match x with DTask _ e _ => ~ torn e | DBroker _ _ _ _ => True end.
(** [text] is a merge of what [texts] holds for each task: the lines of each, in their order *)
Definition merge (header eol : str) (texts : nat -> str) (text : str) : Prop :=
  exists ls : list (nat * str), Forall (fun l => exists row, snd l = row ++ eol) ls /\
    holds header eol (map snd ls) text /\ forall k, holds header eol (told k ls) (texts k).
