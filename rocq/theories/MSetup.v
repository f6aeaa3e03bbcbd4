(** Model of AnXinDMATradeGate.setup (jqtrade/account/trade_gate.py, lines 211-236 and
    519-555): which settings the options of set_options put in force.

    Numbers are in millionths.  [exists_]: os.path.exists, which raises TypeError for what is
    no path; [makedirs]: os.makedirs; [fsenc]: sys.getfilesystemencoding().
    Simplification: the options' keys are those the gate reads; the log lines and
    _load_orders (line 555, which raises nothing) are left out, the latter is
    MGate.gate_setup. *)
From Coq Require Import String.
From Verif Require Import PyBase PyStr MDate MOrder MGate MFiles.
Open Scope list_scope.
Open Scope Z_scope.

(** values of options *)
Inductive oval := ONone | OBool (b : bool) | ONum (millionths : Z) | OStr (s : str)
  | ODict (d : list (str * oval)) | OFun (n : nat).
Definition options := dict str oval.

(** Python's truth value *)
Definition truth (v : oval) : bool :=
  match v with
  | ONone => false | OBool b => b | ONum z => negb (z =? 0)
  | OStr s => match s with [] => false | _ => true end
  | ODict d => match d with [] => false | _ => true end
  | OFun _ => true
  end.

(** [options.get(name, default)] *)
Definition opt_get (name : str) (default : oval) (o : options) : oval :=
  match dget name o with Some v => v | None => default end.

(** trade_gate.py:157-165 and 172-173 *)
Definition DEFAULT_ORDER_DIR (win_dir : str) : oval := OStr win_dir.
Definition DEFAULT_COUNTER_TYPE : oval := OStr (lit "UM0").
Definition DEFAULT_ALGO_TYPE : oval := OStr (lit "DMA").
Definition DEFAULT_SYNC_RETRY_KWARGS : oval :=
  ODict [(lit "max_attempts", ONum 3000000); (lit "attempt_internal", ONum 150000)].
Definition DEFAULT_IGNORE_ERROR_LINE : oval := OBool true.
Definition WAIT_LOCK_INTERNAL : oval := ONum 50000.
Definition WAIT_LOCK_TIME_OUT : oval := ONum 5000000.

(** the parameters of one retrying wrapper *)
Record wrap := Wrap { wr_on : oval; wr_max : oval; wr_wait : oval }.
(** common/utils.py:13-15: calling [simple_retry] with these keyword arguments *)
Definition retry_args (v : oval) : res wrap :=
  match v with
  | ODict d =>
      if forallb (fun kv => memb (fst kv) [lit "on_exception"; lit "max_attempts"; lit "attempt_internal"]) d then
        let on := opt_get (lit "on_exception") ONone d in
        match on with
        | OFun _ => Ok (Wrap on (opt_get (lit "max_attempts") (ONum 3000000) d) (opt_get (lit "attempt_internal") (ONum 100000) d))
        | _ => if truth on then Err ValueError
               else Ok (Wrap on (opt_get (lit "max_attempts") (ONum 3000000) d) (opt_get (lit "attempt_internal") (ONum 100000) d))
        end
      else Err TypeError
  | _ => Err TypeError
  end.

(** the attributes set (None before), and the wrappers around [_read_csv], latest first; the
    latter belong to the class *)
Record gset := GSet {
  gt_options : option options;
  gt_order_dir : option oval; gt_counter : option oval; gt_algo : option oval;
  gt_data_dir : option str; gt_data_file : option str;
  gt_coding : option oval; gt_ignore : option oval;
  gt_wait : option oval; gt_time_out : option oval;
  gt_wraps : list wrap
}.
(** lines 211-236 [__init__] *)
Definition gset_new (wraps : list wrap) : gset := GSet None None None None None None None None None None wraps.

Section Setup.
  Context (exists_ : oval -> res bool) (makedirs : str -> res unit)
          (fsenc win_dir task : str) (day : Z) (runtime : str).

  (** lines 519-553 *)
  Definition gate_configure (o : options) (g : gset) : res unit * gset :=
    let dir := opt_get (lit "order_dir") (DEFAULT_ORDER_DIR win_dir) o in
    let g1 := GSet (Some o) (Some dir) (gt_counter g) (gt_algo g) (gt_data_dir g) (gt_data_file g)
                (gt_coding g) (gt_ignore g) (gt_wait g) (gt_time_out g) (gt_wraps g) in
    match exists_ dir with
    | Err x => (Err x, g1)
    | Ok false => (Err FileNotFoundError, g1)
    | Ok true =>
        let counter := opt_get (lit "counter_type") DEFAULT_COUNTER_TYPE o in
        let algo := opt_get (lit "algo_type") DEFAULT_ALGO_TYPE o in
        let g2 := GSet (Some o) (Some dir) (Some counter) (Some algo) (gt_data_dir g) (gt_data_file g)
                    (gt_coding g) (gt_ignore g) (gt_wait g) (gt_time_out g) (gt_wraps g) in
        match opt_get (lit "runtime_dir") (OStr runtime) o with
        | OStr rt =>
            let dd := data_dir rt in
            let g3 := GSet (Some o) (Some dir) (Some counter) (Some algo) (Some dd) (gt_data_file g)
                        (gt_coding g) (gt_ignore g) (gt_wait g) (gt_time_out g) (gt_wraps g) in
            match (do b <- exists_ (OStr dd); if b then Ok tt else makedirs dd) with
            | Err x => (Err x, g3)
            | Ok _ =>
                let coding := opt_get (lit "file_encoding") (OStr fsenc) o in
                let ignore := opt_get (lit "ignore_error_line") DEFAULT_IGNORE_ERROR_LINE o in
                let g4 := GSet (Some o) (Some dir) (Some counter) (Some algo) (Some dd) (Some (data_file rt task day))
                            (Some coding) (Some ignore) (gt_wait g) (gt_time_out g) (gt_wraps g) in
                match retry_args (opt_get (lit "sync_retry_kwargs") DEFAULT_SYNC_RETRY_KWARGS o) with
                | Err x => (Err x, g4)
                | Ok w =>
                    (Ok tt, GSet (Some o) (Some dir) (Some counter) (Some algo) (Some dd) (Some (data_file rt task day))
                              (Some coding) (Some ignore)
                              (Some (opt_get (lit "wait_lock_internal") WAIT_LOCK_INTERNAL o))
                              (Some (opt_get (lit "wait_lock_time_out") WAIT_LOCK_TIME_OUT o))
                              (w :: gt_wraps g))
                end
            end
        | _ => (Err TypeError, g2)
        end
    end.
End Setup.

Section Effect.
  (** [py_str]: str() *)
  Context (py_str : oval -> str).

  (** what the set-up gate's methods read of it: lines 239-244 (order), 254, 265; [eol] as in
      MGate.  An account number that is false counts as none. *)
  Definition gopts_of (eol : str) (g : gset) : option gopts :=
    match gt_options g, gt_counter g, gt_algo g, gt_ignore g with
    | Some o, Some counter, Some algo, Some ignore =>
        Some (GOpts
          (match dget (lit "account_no") o with Some v => if truth v then py_str v else [] | None => [] end)
          (match dget (lit "account_type") o with Some (OStr s) => str_eqb s (lit "STOCK") | Some _ => false | None => true end)
          (py_str counter) (py_str algo) (truth ignore) eol)
    | _, _, _, _ => None
    end.
End Effect.
