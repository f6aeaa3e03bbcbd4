(** The gate's calls with every reading of the clock and of the directory made apart
    (trade_gate.py:250-285, 392-480, 557-587): each use of a file name computes it from the
    date of that moment.  MGate.v makes all readings at one moment. *)
From Verif Require Import PyBase PyStr MTime MDate MOrder MAccount MGate MBalance.
Open Scope Z_scope.

(** what one reading sees: the date of ctx.current_dt, and the broker's files *)
Record mom := Mom { m_day : Z; m_r : dict Z str; m_u : dict Z str; m_a : dict Z str; m_p : dict Z str }.

Section Midnight.
  Context (ptime f3 f4 : str -> option Z) (go : gopts).

  (** lines 392-480 [sync_orders]: the update file is looked for at [m1], the result file at
      [m2]; the result file is opened at [m3], the update file at [m4] *)
  Definition sync_m (m1 m2 m3 m4 : mom) (g : gst) : res (list oinfo) * gst :=
    match dget (m_day m1) (m_u m1), dget (m_day m2) (m_r m2) with
    | Some _, Some _ =>
        match dget (m_day m3) (m_r m3) with
        | None => (Err FileNotFoundError, g)
        | Some rt =>
            let '(x1, roff, o1) := read_file go result_line rt (gs_roff g) (gs_orders g) in
            let g1 := set_rread o1 roff g in
            match x1 with
            | Some x => (Err x, g1)
            | None =>
                match dget (m_day m4) (m_u m4) with
                | None => (Err FileNotFoundError, g1)
                | Some ut =>
                    let '(x2, uoff, o2) := read_file go (update_line ptime f3 f4) ut (gs_uoff g) o1 in
                    let g2 := set_uread o2 uoff g1 in
                    match x2 with
                    | Some x => (Err x, g2)
                    | None =>
                        match save_orders g2 with
                        | (Err x, g3) => (Err x, g3)
                        | (Ok _, g3) => (Ok (dvals (gs_orders g3)), g3)
                        end
                    end
                end
            end
        end
    | _, _ => (Err FileNotFoundError, g)
    end.
End Midnight.

Section BalanceM.
  Context {F : Type} (pnum pyfloat : str -> option F) (trunc : F -> option Z) (round4 round3 : F -> Z) (minus : F -> F -> F).
  (** lines 304-357 [sync_balance]: the asset file is looked for at [m1] and read at [m2],
      the position file is looked for at [m3] and read at [m4]; a retry uses the file name
      of the first attempt (the name is an argument of _read_csv) *)
  Definition balance_m (acct : str) (m1 m2 m3 m4 : mom) : res (option (bcash) * list (bpos)) :=
    match dget (m_day m1) (m_a m1) with
    | None => Err FileNotFoundError
    | Some _ =>
      match acct with
      | [] => Err InvalidParam
      | _ =>
          do adf <- read_csv (dget (m_day m2) (m_a m2));
          match fr_rows adf with
          | [] => Err AnXinDMAError
          | _ =>
              do cash <- asset_loop pnum pyfloat round4 minus adf acct (fr_rows adf) None;
              match dget (m_day m3) (m_p m3) with
              | None => Err FileNotFoundError
              | Some _ =>
                  do pdf <- read_csv (dget (m_day m4) (m_p m4));
                  do ps <- pos_loop pnum pyfloat trunc round4 round3 pdf acct (fr_rows pdf);
                  Ok (cash, ps)
              end
          end
      end
    end.
End BalanceM.
