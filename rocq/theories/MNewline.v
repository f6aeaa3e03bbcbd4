(** Model of the order sync with Python's universal newlines: open(..., "r") without [newline]
    (jqtrade/account/trade_gate.py:399, 440) ends a line at '\n', '\r\n' or '\r' and returns each as
    '\n' (CPython's textio.c, IncrementalNewlineDecoder).  MGate.v splits at '\n' only.
    Simplification: tell() and seek() are positions in the file (CPython's cookies also say when
    they are behind a '\r' whose '\n' may follow; after the end of the file was seen there, a '\n'
    written later is a line of its own). *)
From Verif Require Import PyBase PyStr MOrder MGate.
Open Scope N_scope.

Definition CR : N := 13.
(** the pieces of the file readline() takes *)
Fixpoint ulines (s : str) : list str :=
  match s with
  | [] => []
  | c :: s' =>
      if c =? NL then [c] :: ulines s'
      else if c =? CR then
        match s' with
        | d :: s'' => if d =? NL then [c; d] :: ulines s'' else [c] :: ulines s'
        | [] => [[c]]
        end
      else match ulines s' with [] => [[c]] | l :: ls => (c :: l) :: ls end
  end.
(** what it returns for one *)
Definition nl_text (l : str) : str :=
  match rev l with
  | a :: b :: r => if (a =? NL) && (b =? CR) then rev r ++ [NL] else if a =? CR then rev r ++ [b; NL] else l
  | [a] => if a =? CR then [NL] else l
  | [] => l
  end.

Section Newline.
  Context (ptime f3 f4 : str -> option Z) (go : gopts).

  (** the loops of lines 401-438 and 442-472 *)
  Definition read_file_u (step : str -> dict str oinfo -> lres) (text : str) (off : nat) (o : dict str oinfo) :=
    read_loop go (fun l => step (nl_text l)) (ulines (skipn off text)) off off o.

  (** lines 392-480 [sync_orders] *)
  Definition sync_u (g : gst) : res (list oinfo) * gst :=
    let d := ge_date (gs_env g) in
    match dget d (gs_ufile g), dget d (gs_rfile g) with
    | Some ut, Some rt =>
        let '(x1, roff, o1) := read_file_u result_line rt (gs_roff g) (gs_orders g) in
        let g1 := set_rread o1 roff g in
        match x1 with
        | Some x => (Err x, g1)
        | None =>
            let '(x2, uoff, o2) := read_file_u (update_line ptime f3 f4) ut (gs_uoff g1) o1 in
            let g2 := set_uread o2 uoff g1 in
            match x2 with
            | Some x => (Err x, g2)
            | None =>
                match save_orders g2 with
                | (Err x, g3) => (Err x, g3)
                | (Ok _, g3) => (Ok (dvals (gs_orders g3)), g3)
                end
            end
        end
    | _, _ => (Err FileNotFoundError, g)
    end.
End Newline.
