(** Which file a path names, for C71 and C72: the directories from the root.  Assumes that
    there are no symbolic links and that file names are case-sensitive. *)
From Verif Require Import PyBase PyStr MFiles.
Open Scope list_scope.

(** one component: "" and "." stay, ".." goes up (the root is its own parent) *)
Definition enter (at_ : list str) (c : str) : list str :=
  if eqb c [] || eqb c (lit ".") then at_ else if eqb c (lit "..") then removelast at_ else at_ ++ [c].
(** [place cwd p]: the file named by [p] in a process with working directory [cwd] *)
Definition place (cwd : list str) (p : str) : list str :=
  fold_left enter (split_on 47 p) (if startswith (lit "/") p then [] else cwd).

(** a file of a task: the saved orders, the temporary copy, a file shared with the broker *)
Inductive gfile :=
| GData (runtime task : str) (day : Z)
| GTmp (runtime task : str) (day : Z)
| GCsv (dir : str) (k : csv) (day : Z).
Definition path_of (f : gfile) : str :=
  match f with
  | GData r t d => data_file r t d
  | GTmp r t d => tmp_file r t d
  | GCsv dir k d => csv_file dir k d
  end.
(** meant to be the same file *)
Definition same_file (cwd : list str) (f g : gfile) : Prop :=
  match f, g with
  | GData r t d, GData r' t' d' | GTmp r t d, GTmp r' t' d' => place cwd r = place cwd r' /\ t = t' /\ d = d'
  | GCsv dir k d, GCsv dir' k' d' => place cwd dir = place cwd dir' /\ k = k' /\ d = d'
  | _, _ => False
  end.

(** the file names agreed with the broker, without day and suffix *)
Definition broker_names : list (csv * str) :=
  [(COrder, lit "algoOrder"); (CCancel, lit "algoOrderStop"); (CResult, lit "execResult"); (CUpdate, lit "orderUpdate"); (CTrade, lit "tradeUpdate");
   (CAsset, lit "assetInfo"); (CPosition, lit "positionInfo")].
