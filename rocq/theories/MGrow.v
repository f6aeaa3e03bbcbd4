(** An order sync while the broker writes (trade_gate.py:399-472).  MGate.v reads a file as it
    is at one moment.  Here every readline() sees what the file holds at that time; io's
    buffering makes it see an older text at most, never an older one than the readline()
    before it.

    Simplifications: the files only grow; texts, not bytes (MCodec.v). *)
From Verif Require Import PyBase PyStr MOrder MAccount MGate.

Section Grow.
  Context (ptime f3 f4 : str -> option Z) (go : gopts).

  (** the loops of lines 401-438 and 442-472; [see]: what successive calls of readline()
      see of the file.  None: the loop has not ended yet. *)
  Fixpoint live_loop (step : str -> dict str oinfo -> lres) (see : list str) (pos off : nat) (o : dict str oinfo)
    : option (option exn * nat * dict str oinfo) :=
    match see with
    | [] => None
    | t :: see' =>
        match lines_of (skipn pos t) with
        | [] => Some (None, off, o)
        | l :: _ =>
            let pos' := (pos + length l)%nat in
            match step l o with
            | LStop => Some (None, off, o)
            | LNext o' => live_loop step see' pos' pos' o'
            | LSkip => live_loop step see' pos' off o
            | LFail o' x => if go_ignore go then live_loop step see' pos' pos' o' else Some (Some x, off, o')
            end
        end
    end.

  (** lines 392-480 [sync_orders]; [r], [u]: the files when it returns *)
  Definition sync_live (rsee usee : list str) (r u : dict Z str) (g : gst) : option (res (list oinfo) * gst) :=
    let d := ge_date (gs_env g) in
    match dget d (gs_ufile g), dget d (gs_rfile g) with
    | Some _, Some _ =>
        match live_loop result_line rsee (gs_roff g) (gs_roff g) (gs_orders g) with
        | None => None
        | Some (x1, roff, o1) =>
            let g1 := set_rread o1 roff (set_bfiles r u g) in
            match x1 with
            | Some x => Some (Err x, g1)
            | None =>
                match live_loop (update_line ptime f3 f4) usee (gs_uoff g1) (gs_uoff g1) o1 with
                | None => None
                | Some (x2, uoff, o2) =>
                    let g2 := set_uread o2 uoff g1 in
                    match x2 with
                    | Some x => Some (Err x, g2)
                    | None =>
                        match save_orders g2 with
                        | (Err x, g3) => Some (Err x, g3)
                        | (Ok _, g3) => Some (Ok (dvals (gs_orders g3)), g3)
                        end
                    end
                end
            end
        end
    | _, _ => Some (Err FileNotFoundError, set_bfiles r u g)
    end.
End Grow.
