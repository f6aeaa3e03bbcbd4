(** Model of the AnXin DMA trade gate (jqtrade/account/trade_gate.py): the order and cancel
    files it writes, and the result and update files it reads.

    Files are character sequences kept per day (the file names carry the date).
    Simplifications: encodings are not modelled, file positions count characters, a line
    ends at '\n' (a '\r' before it is removed by strip(), lone '\r' do not occur), and
    log messages are dropped.  The save file holds the order dict itself: dumping and
    loading JSON is the identity on serialisable dicts. *)
From Verif Require Import PyBase PyStr MTime MDate MOrder MAccount.
Open Scope Z_scope.

Definition NL : N := 10%N.
Definition CR : N := 13%N.
Definition COMMA : N := 44%N.

(** what the broker's software and the disk do during the next calls *)
Inductive wout :=
| WDone                          (* the whole text is appended *)
| WFail (x : exn)                (* open or lock fails, or times out: nothing appended *)
| WTorn (n : nat) (x : exn).     (* the first n characters are appended, then an error *)
Record genv := GEnv {
  ge_date : Z;                   (* date of ctx.current_dt *)
  ge_now : Z;                    (* datetime.now() *)
  ge_write : wout;
  ge_save : res unit             (* opening, dumping to or moving the save file *)
}.

(** options, lines 519-555.  [go_eol] is what a text file holds after os.linesep was
    written to it: "\n" on POSIX; "\r\r\n" on Windows, where text mode turns the '\n' of
    "\r\n" into "\r\n" again. *)
Record gopts := GOpts {
  go_acct : str;                 (* str(account_no); "" if not given *)
  go_stock : bool;               (* account_type == "STOCK" *)
  go_counter : str;
  go_algo : str;
  go_ignore : bool;              (* ignore_error_line *)
  go_eol : str
}.
Definition eol_posix : str := [NL].
Definition eol_windows : str := [CR; CR; NL].

(** lines 211-236, and the files *)
Record gst := GSt {
  gs_orders : dict str oinfo;    (* _orders *)
  gs_uoff : nat;                 (* _order_update_offset *)
  gs_roff : nat;                 (* _order_result_offset *)
  gs_day : Z;                    (* the date in _data_file *)
  gs_ofile : dict Z str;         (* algoOrder_<date>.csv *)
  gs_cfile : dict Z str;         (* algoOrderStop_<date>.csv *)
  gs_rfile : dict Z str;         (* execResult_<date>.csv *)
  gs_ufile : dict Z str;         (* orderUpdate_<date>.csv *)
  gs_data : dict Z (dict str oinfo);   (* <task>_<date>.json *)
  gs_env : genv
}.
Definition set_gorders x g := GSt x (gs_uoff g) (gs_roff g) (gs_day g) (gs_ofile g) (gs_cfile g) (gs_rfile g) (gs_ufile g) (gs_data g) (gs_env g).
Definition set_uread o n g := GSt o n (gs_roff g) (gs_day g) (gs_ofile g) (gs_cfile g) (gs_rfile g) (gs_ufile g) (gs_data g) (gs_env g).
Definition set_rread o n g := GSt o (gs_uoff g) n (gs_day g) (gs_ofile g) (gs_cfile g) (gs_rfile g) (gs_ufile g) (gs_data g) (gs_env g).
Definition set_ofile x g := GSt (gs_orders g) (gs_uoff g) (gs_roff g) (gs_day g) x (gs_cfile g) (gs_rfile g) (gs_ufile g) (gs_data g) (gs_env g).
Definition set_cfile x g := GSt (gs_orders g) (gs_uoff g) (gs_roff g) (gs_day g) (gs_ofile g) x (gs_rfile g) (gs_ufile g) (gs_data g) (gs_env g).
Definition set_data x g := GSt (gs_orders g) (gs_uoff g) (gs_roff g) (gs_day g) (gs_ofile g) (gs_cfile g) (gs_rfile g) (gs_ufile g) x (gs_env g).
Definition set_bfiles r u g := GSt (gs_orders g) (gs_uoff g) (gs_roff g) (gs_day g) (gs_ofile g) (gs_cfile g) r u (gs_data g) (gs_env g).
Definition set_env e g := GSt (gs_orders g) (gs_uoff g) (gs_roff g) (gs_day g) (gs_ofile g) (gs_cfile g) (gs_rfile g) (gs_ufile g) (gs_data g) e.

(** lines 374-390 *)
Definition encode (code : str) : res str :=
  if endswith (lit "XSHE") code then Ok (replace (lit "XSHE") (lit "SZ") code)
  else if endswith (lit "XSHG") code then Ok (replace (lit "XSHG") (lit "SH") code)
  else Err ValueError.
Definition decode (code : str) : res str :=
  if endswith (lit "SZ") code then Ok (replace (lit "SZ") (lit "XSHE") code)
  else if endswith (lit "SH") code then Ok (replace (lit "SH") (lit "XSHG") code)
  else Err ValueError.

(** [strftime("%H%M%S.%f")] *)
Definition fmt_stamp (dt : Z) : str :=
  let t := dt_time dt in
  digits 2 (t / US / 3600) ++ digits 2 (t / US / 60 mod 60) ++ digits 2 (t / US mod 60) ++ 46%N :: digits 6 (t mod US).

(** contents of a day's file; a missing file counts as empty *)
Definition text_of (d : Z) (f : dict Z str) : str := match dget d f with Some s => s | None => [] end.
Definition data_of (d : Z) (f : dict Z (dict str oinfo)) : dict str oinfo := match dget d f with Some s => s | None => [] end.

(** lines 206-209 *)
Definition order_header : str :=
  lit "updTime,custBatchNo,acctType,acct,symbol,tradeSide,targetQty,algoId,priceType,ticks,highLimitPrice,lowLimitPrice".
Definition cancel_header : str := lit "updTime,custBatchNo".

(** the lines of a text, as readline() returns them *)
Fixpoint lines_of (s : str) : list str :=
  match s with
  | [] => []
  | c :: s' => if (c =? NL)%N then [c] :: lines_of s'
               else match lines_of s' with [] => [[c]] | l :: ls => (c :: l) :: ls end
  end.

Section Gate.
  (** [ptime]: strptime "%Y%m%d%H%M%S"; [f3], [f4]: float() rounded to 3 and 4 digits, in
      units of the last digit (NaN and infinities are not represented); None: ValueError *)
  Context (ptime f3 f4 : str -> option Z) (go : gopts).

  (** lines 287-302 [_write], with the lock uncontended or the wait timed out *)
  Definition write_line (header line old : str) (w : wout) : res unit * str :=
    let text := (match old with [] => header ++ go_eol go | _ => [] end) ++ line in
    match w with
    | WDone => (Ok tt, old ++ text)
    | WFail x => (Err x, old)
    | WTorn n x => (Err x, old ++ firstn n text)
    end.

  (** lines 493-497 [_save_orders]; an unserialisable value raises TypeError in json.dump *)
  Definition save_orders (g : gst) : res unit * gst :=
    if forallb (fun kv => serialisable (snd kv)) (gs_orders g) then
      match ge_save (gs_env g) with
      | Ok _ => (Ok tt, set_data (dset (gs_day g) (gs_orders g) (gs_data g)) g)
      | Err x => (Err x, g)
      end
    else (Err TypeError, g).

  (** lines 251-271: the fields of the line *)
  Definition order_fields (now : Z) (o : order) (sym : str) : list str :=
    [fmt_stamp now; o_id o; go_counter go; go_acct go; sym;
     match o_action o with Open => lit "1" | Close => lit "2" end;
     str_of_Z (Z.abs (o_amount o)); go_algo go]
    ++ match o_style o with
       | Market _ => [match o_action o with Open => lit "P6" | Close => lit "P7" end; lit "0"; lit "0"; lit "0"]
       | Limit p => [lit "AT"; lit "0"; pval_str p; pval_str p]
       end.

  (** lines 238-278 [order] *)
  Definition gate_order (o : order) (g : gst) : res unit * gst :=
    match go_acct go with
    | [] => (Err InvalidParam, g)
    | _ =>
      if negb (go_stock go) then (Err InvalidParam, g)
      else match o_side o with
      | Short => (Err InvalidParam, g)
      | Long =>
        match encode (o_code o) with
        | Err x => (Err x, g)
        | Ok sym =>
          let e := gs_env g in
          let d := ge_date e in
          let line := join_with COMMA (order_fields (ge_now e) o sym) ++ go_eol go in
          let '(r, txt) := write_line order_header line (text_of d (gs_ofile g)) (ge_write e) in
          let g1 := set_ofile (dset d txt (gs_ofile g)) g in
          match r with
          | Err x => (Err x, g1)
          | Ok _ => save_orders (set_gorders (dset (o_id o) (json o) (gs_orders g)) g1)
          end
        end
      end
    end.

  (** lines 280-285 [cancel_order] *)
  Definition gate_cancel (id : str) (g : gst) : res unit * gst :=
    let e := gs_env g in
    let d := ge_date e in
    let line := join_with COMMA [fmt_stamp (ge_now e); id] ++ go_eol go in
    let '(r, txt) := write_line cancel_header line (text_of d (gs_cfile g)) (ge_write e) in
    (r, set_cfile (dset d txt (gs_cfile g)) g).

  (** ** reading *)

  (** lines 411, 452: the columns of a stripped line *)
  Definition columns (x : str) : list str := map strip (split_on COMMA x).

  (** lines 191-200, 514-517 *)
  Definition parse_status (s : str) : res status :=
    match find (fun kv => str_eqb (fst kv) s)
            [(lit "0", Sopen); (lit "1", Sfilling); (lit "2", Sfilled); (lit "3", Spartly_canceled);
             (lit "4", Scanceled); (lit "5", Srejected); (lit "7", Snew); (lit "8", Scanceling)] with
    | Some kv => Ok (snd kv)
    | None => Err ParserError
    end.

  (** lines 175-180: the columns used below *)
  Record uline := ULine {
    ul_date : str; ul_time : str; ul_status : str; ul_filled : str; ul_avg : str; ul_amt : str;
    ul_cancel : str; ul_no : str; ul_id : str; ul_text : str
  }.
  Definition uline_of (c : list str) : option uline :=
    match c with
    | [_; od; ot; _; _; _; _; st; _; _; _; fq; ap; fa; cq; no; _; id; tx; _] =>
        Some (ULine od ot st fq ap fa cq no id tx)
    | _ => None
    end.

  (** lines 482-491 [_update_order]: assignments in order; what was assigned before an
      exception stays *)
  Definition set_st (v : str) (i : oinfo) := OInfo (i_code i) (i_price i) (i_amount i) (i_action i) (i_id i) v (i_style i) (i_create i) (i_entrust i) (i_side i) (i_confirm i) (i_filled i) (i_canceled i) (i_deal i) (i_avg i) (i_comm i) (i_err i).
  Definition set_en (v : str) (i : oinfo) := OInfo (i_code i) (i_price i) (i_amount i) (i_action i) (i_id i) (i_status i) (i_style i) (i_create i) (Some v) (i_side i) (i_confirm i) (i_filled i) (i_canceled i) (i_deal i) (i_avg i) (i_comm i) (i_err i).
  Definition set_cf (v : str) (i : oinfo) := OInfo (i_code i) (i_price i) (i_amount i) (i_action i) (i_id i) (i_status i) (i_style i) (i_create i) (i_entrust i) (i_side i) (Some v) (i_filled i) (i_canceled i) (i_deal i) (i_avg i) (i_comm i) (i_err i).
  Definition set_fi (v : Z) (i : oinfo) := OInfo (i_code i) (i_price i) (i_amount i) (i_action i) (i_id i) (i_status i) (i_style i) (i_create i) (i_entrust i) (i_side i) (i_confirm i) (Some v) (i_canceled i) (i_deal i) (i_avg i) (i_comm i) (i_err i).
  Definition set_ca (v : Z) (i : oinfo) := OInfo (i_code i) (i_price i) (i_amount i) (i_action i) (i_id i) (i_status i) (i_style i) (i_create i) (i_entrust i) (i_side i) (i_confirm i) (i_filled i) (Some v) (i_deal i) (i_avg i) (i_comm i) (i_err i).
  Definition set_de (v : Z) (i : oinfo) := OInfo (i_code i) (i_price i) (i_amount i) (i_action i) (i_id i) (i_status i) (i_style i) (i_create i) (i_entrust i) (i_side i) (i_confirm i) (i_filled i) (i_canceled i) (Some v) (i_avg i) (i_comm i) (i_err i).
  Definition set_av (v : Z) (i : oinfo) := OInfo (i_code i) (i_price i) (i_amount i) (i_action i) (i_id i) (i_status i) (i_style i) (i_create i) (i_entrust i) (i_side i) (i_confirm i) (i_filled i) (i_canceled i) (i_deal i) (Some v) (i_comm i) (i_err i).
  Definition set_er (v : str) (i : oinfo) := OInfo (i_code i) (i_price i) (i_amount i) (i_action i) (i_id i) (i_status i) (i_style i) (i_create i) (i_entrust i) (i_side i) (i_confirm i) (i_filled i) (i_canceled i) (i_deal i) (i_avg i) (i_comm i) (Some v).

  Definition update_order (u : uline) (i : oinfo) : oinfo * option exn :=
    match parse_status (ul_status u) with
    | Err x => (i, Some x)
    | Ok st =>
        let i1 := set_st (status_str st) i in
        match ptime (ul_date u ++ ul_time u) with
        | None => (i1, Some ValueError)
        | Some t =>
            let i2 := set_cf (ul_no u) (set_en (fmt_dt t) i1) in
            match py_int (ul_filled u) with
            | None => (i2, Some ValueError)
            | Some q =>
                let i3 := set_fi q i2 in
                match f4 (ul_amt u) with
                | None => (i3, Some ValueError)
                | Some a =>
                    let i4 := set_de a i3 in
                    match py_int (ul_cancel u) with
                    | None => (i4, Some ValueError)
                    | Some c =>
                        let i5 := set_ca c i4 in
                        match f3 (ul_avg u) with
                        | None => (i5, Some ValueError)
                        | Some p => (set_er (ul_text u) (set_av p i5), None)
                        end
                    end
                end
            end
        end
    end.

  (** what one line does to the loop *)
  Inductive lres :=
  | LStop                                   (* break *)
  | LNext (o : dict str oinfo)              (* continue, offset := tell() *)
  | LSkip                                   (* continue, offset unchanged *)
  | LFail (o : dict str oinfo) (x : exn).   (* exception *)

  (** lines 403-430 *)
  Definition result_line (l : str) (o : dict str oinfo) : lres :=
    let x := strip l in
    match x with
    | [] => LStop
    | _ =>
      if startswith (lit "updTime") x then LNext o
      else match columns x with
      | [_; ty; id; st; _; msg] =>
          if str_eqb ty (lit "1") && str_eqb st (lit "1") then
            match dget id o with
            | Some i => LNext (dset id (set_er msg (set_st (status_str Srejected) i)) o)
            | None => LNext o
            end
          else LNext o
      | c => if (Nat.ltb (length c) 6) then LStop else LFail o TypeError
      end
    end.

  (** lines 444-464 *)
  Definition update_line (l : str) (o : dict str oinfo) : lres :=
    let x := strip l in
    match x with
    | [] => LStop
    | _ =>
      if startswith (lit "updTime") x then LNext o
      else let c := columns x in
      if Nat.ltb (length c) 20 then LStop
      else match uline_of c with
      | None => LFail o TypeError
      | Some u =>
          match dget (ul_id u) o with
          | None => LSkip
          | Some i =>
              match update_order u i with
              | (i', None) => LNext (dset (ul_id u) i' o)
              | (i', Some x) => LFail (dset (ul_id u) i' o) x
              end
          end
      end
    end.

  (** lines 399-438, 440-472: [pos] is tell() before the line, [off] the stored offset *)
  Fixpoint read_loop (step : str -> dict str oinfo -> lres) (ls : list str) (pos off : nat) (o : dict str oinfo)
    : option exn * nat * dict str oinfo :=
    match ls with
    | [] => (None, off, o)
    | l :: ls' =>
        let pos' := (pos + length l)%nat in
        match step l o with
        | LStop => (None, off, o)
        | LNext o' => read_loop step ls' pos' pos' o'
        | LSkip => read_loop step ls' pos' off o
        | LFail o' x => if go_ignore go then read_loop step ls' pos' pos' o' else (Some x, off, o')
        end
    end.
  Definition read_file (step : str -> dict str oinfo -> lres) (text : str) (off : nat) (o : dict str oinfo) :=
    read_loop step (lines_of (skipn off text)) off off o.

  (** lines 392-480 [sync_orders] *)
  Definition gate_sync_orders (g : gst) : res (list oinfo) * gst :=
    let d := ge_date (gs_env g) in
    match dget d (gs_ufile g), dget d (gs_rfile g) with
    | Some ut, Some rt =>
        let '(x1, roff, o1) := read_file result_line rt (gs_roff g) (gs_orders g) in
        let g1 := set_rread o1 roff g in
        match x1 with
        | Some x => (Err x, g1)
        | None =>
            let '(x2, uoff, o2) := read_file update_line ut (gs_uoff g1) o1 in
            let g2 := set_uread o2 uoff g1 in
            match x2 with
            | Some x => (Err x, g2)
            | None =>
                match save_orders g2 with
                | (Err x, g3) => (Err x, g3)
                | (Ok _, g3) => (Ok (dvals (gs_orders g3)), g3)
                end
            end
        end
    | _, _ => (Err FileNotFoundError, g)
    end.

  (** lines 499-512, 519-555: a new process on the same files; [ok]: whether loading works *)
  Definition gate_setup (ok : bool) (g : gst) : gst :=
    let d := ge_date (gs_env g) in
    let saved := if ok then data_of d (gs_data g) else [] in
    GSt saved 0 0 d (gs_ofile g) (gs_cfile g) (gs_rfile g) (gs_ufile g) (gs_data g) (gs_env g).

  (** the gate, with any balance part (MBalance.v) *)
  Definition anxin (bal : gst -> res binfo * gst) : gate gst :=
    Gate gst gate_order gate_cancel gate_sync_orders bal.
End Gate.
