(** The notices about rejected cancels that the AnXin gate logs (trade_gate.py:225, 399-438,
    474): the part of sync_orders that MGate.v leaves out.  A notice is the order id and the
    error message of the log line. *)
From Verif Require Import PyBase PyStr MOrder MAccount MGate.

(** trade_gate.py:418-421: the line says that a cancel was rejected *)
Definition cancel_msg (l : str) : option (str * str) :=
  let x := strip l in
  if startswith (lit "updTime") x then None
  else match columns x with
  | [_; ty; id; st; _; msg] => if str_eqb ty (lit "2") && str_eqb st (lit "1") then Some (id, msg) else None
  | _ => None
  end.

(** the gate, its [_has_synced], and what this process has logged *)
Record nst := NSt { n_gate : gst; n_synced : bool; n_log : list (str * str) }.

Section Notice.
  Context (ptime f3 f4 : str -> option Z) (go : gopts).

  (** trade_gate.py:401-438: MGate.read_loop over the result file, with the log; a line
      that says so is followed by "continue" as any other line without effect *)
  Fixpoint res_loop (hs : bool) (ls : list str) (pos off : nat) (o : dict str oinfo) (log : list (str * str))
    : option exn * nat * dict str oinfo * list (str * str) :=
    match ls with
    | [] => (None, off, o, log)
    | l :: ls' =>
        let pos' := (pos + length l)%nat in
        match result_line l o with
        | LStop => (None, off, o, log)
        | LNext o' =>
            let log' := match cancel_msg l with Some m => if hs then log ++ [m] else log | None => log end in
            res_loop hs ls' pos' pos' o' log'
        | LSkip => res_loop hs ls' pos' off o log
        | LFail o' x => if go_ignore go then res_loop hs ls' pos' pos' o' log else (Some x, off, o', log)
        end
    end.

  (** trade_gate.py:392-480 [sync_orders]; [_has_synced] is set before the orders are saved *)
  Definition sync_n (x : nst) : res (list oinfo) * nst :=
    let g := n_gate x in
    let d := ge_date (gs_env g) in
    match dget d (gs_ufile g), dget d (gs_rfile g) with
    | Some ut, Some rt =>
        let '(x1, roff, o1, log) :=
          res_loop (n_synced x) (lines_of (skipn (gs_roff g) rt)) (gs_roff g) (gs_roff g) (gs_orders g) (n_log x) in
        let g1 := set_rread o1 roff g in
        match x1 with
        | Some e => (Err e, NSt g1 (n_synced x) log)
        | None =>
            let '(x2, uoff, o2) := read_file go (update_line ptime f3 f4) ut (gs_uoff g1) o1 in
            let g2 := set_uread o2 uoff g1 in
            match x2 with
            | Some e => (Err e, NSt g2 (n_synced x) log)
            | None =>
                match save_orders g2 with
                | (Err e, g3) => (Err e, NSt g3 true log)
                | (Ok _, g3) => (Ok (dvals (gs_orders g3)), NSt g3 true log)
                end
            end
        end
    | _, _ => (Err FileNotFoundError, x)
    end.

  Definition set_g (g : gst) (x : nst) : nst := NSt g (n_synced x) (n_log x).
  (** a new process *)
  Definition restart_n (ok : bool) (x : nst) : nst := NSt (gate_setup ok (n_gate x)) false [].
End Notice.
