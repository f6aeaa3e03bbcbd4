(** What the package says of itself when it is installed (setup.py:10-20, 29-60;
    jqtrade/__init__.py:4-5).

    Simplifications: the files can be read and decoded; of setup()'s arguments only those
    computed here are kept; executing jqtrade/__init__.py is given by the names it leaves. *)
From Verif Require Import PyBase PyStr MNewline.
Open Scope list_scope.

(** setup.py:29-34 [_parse_requirement_file]; None: no such file *)
Definition parse_requirement_file (file : option str) : list str :=
  match file with
  | None => []
  | Some t => map strip (filter (fun l => negb (str_eqb (strip l) [])) (map nl_text (ulines t)))
  end.

Inductive pval := PNone | PText (s : str) | PTuple (vs : list pval).
Definition pv_true (v : pval) : bool := match v with PNone => false | PText [] => false | PTuple [] => false | _ => true end.
(** setup.py:10-20 [get_package_info], default None; [scope]: the names of the executed file,
    None if there is none *)
Definition get_package_info (scope : option (dict str pval)) (item : str) : pval :=
  let data := match scope with
              | Some d => match dget item d with Some v => v | None => PNone end
              | None => PNone
              end in
  if pv_true data then data else PNone.

Record setup_args := SetupArgs { sa_version : pval; sa_author : pval; sa_email : pval; sa_maintainer : pval; sa_requires : list str }.
(** setup.py:42-60; line 42 ends in a comma *)
Definition setup_call (scope : option (dict str pval)) (requirements : option str) : setup_args :=
  let author := PTuple [get_package_info scope (lit "__author__")] in
  let email := get_package_info scope (lit "__email__") in
  SetupArgs (get_package_info scope (lit "__version__")) author email author (parse_requirement_file requirements).

(** jqtrade/__init__.py:5 [version_info] *)
Definition version_info (version : str) : res (list Z) :=
  let fix go (ps : list str) : res (list Z) :=
    match ps with
    | [] => Ok []
    | p :: ps' => match py_int p with
                  | Some n => match go ps' with Ok ns => Ok (n :: ns) | Err e => Err e end
                  | None => Err ValueError
                  end
    end in
  go (split_on 46%N version).
