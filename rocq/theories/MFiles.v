(** The names of the files of a task (jqtrade/account/trade_gate.py:493-497, 536-587;
    scheduler/strategy.py:204; scheduler/config.py:31), on POSIX. *)
From Verif Require Import PyBase PyStr MDate.
Open Scope Z_scope.

(** [os.path.join(a, b)]: posixpath *)
Definition os_join (a b : str) : str :=
  if startswith (lit "/") b then b
  else if eqb a [] || endswith (lit "/") a then a ++ b
  else a ++ lit "/" ++ b.

(** [strftime('%Y%m%d')], for years 1000..9999 *)
Definition ymd (n : Z) : str := let '(y, m, d) := civil_of_days n in digits 4 y ++ digits 2 m ++ digits 2 d.

(** line 539 *)
Definition data_dir (runtime : str) : str := os_join runtime (lit "data").
(** line 544 *)
Definition data_file (runtime task : str) (day : Z) : str :=
  os_join (data_dir runtime) (task ++ lit "_" ++ ymd day ++ lit ".json").
(** line 494 *)
Definition tmp_file (runtime task : str) (day : Z) : str := data_file runtime task day ++ lit ".tmp".
(** lines 561-587: the csv files in the order directory *)
Inductive csv := COrder | CCancel | CResult | CUpdate | CTrade | CAsset | CPosition.
Definition csv_prefix (k : csv) : str :=
  match k with
  | COrder => lit "algoOrder" | CCancel => lit "algoOrderStop" | CResult => lit "execResult" | CUpdate => lit "orderUpdate"
  | CTrade => lit "tradeUpdate" | CAsset => lit "assetInfo" | CPosition => lit "positionInfo"
  end.
Definition csv_file (dir : str) (k : csv) (day : Z) : str := os_join dir (csv_prefix k ++ lit "_" ++ ymd day ++ lit ".csv").

(** [os.path.expanduser]; simplifications: only the own home, which does not end in a slash
    ([~name] of another user is left out) *)
Definition expanduser (home p : str) : str :=
  match p with
  | c :: r => if (c =? 126)%N && (eqb r [] || startswith (lit "/") r) then home ++ r else p
  | [] => p
  end.
(** trade_gate.py:537: the runtime directory of the trade gate, from the option or the
    default of config.py:31, which is absolute *)
Definition gate_runtime (option_dir : option str) (default : str) : str :=
  match option_dir with Some d => d | None => default end.
(** strategy.py:204, before [abspath]: the directory that is created and logged *)
Definition strategy_runtime (home : str) (option_dir : option str) (default : str) : str :=
  expanduser home (gate_runtime option_dir default).
