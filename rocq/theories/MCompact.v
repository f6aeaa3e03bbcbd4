(** Model of the time of a line of the broker's update file, account/trade_gate.py:484-485:
    [strptime(orderDate + orderTime, "%Y%m%d%H%M%S")].  Without separators the regular
    expression of _strptime decides where each field ends: every field takes two characters
    if these can begin it and the rest can still be matched. *)
From Verif Require Import PyBase PyStr MTime MDate MStrptime.
Open Scope Z_scope.

Section Compact.
  Variable dig : N -> option Z.

  Definition re_compact (s : str) : list (str * str * str * str * str * str * str) :=
    flat_map (fun y => flat_map (fun m => flat_map (fun d => flat_map (fun h => flat_map (fun mi =>
        map (fun c => (fst y, fst m, fst d, fst h, fst mi, fst c, snd c)) (alts (re_S dig) (snd mi)))
      (alts (re_M dig) (snd h))) (alts (re_H dig) (snd d))) (alts (re_d dig) (snd m)))
      (alts re_m (snd y))) (alts (re_Y dig) s).

  Definition strptime_compact (s : str) : res Z :=
    match hd_error (re_compact s) with
    | Some (y, m, d, h, mi, sec, []) =>
        do day <- mk_date (uval dig y) (uval dig m) (uval dig d);
        do t <- mk_time (uval dig h) (uval dig mi) (uval dig sec);
        Ok (combine day t)
    | _ => Err ValueError
    end.

  (** the parameter [ptime] of MGate.v; a ValueError either way *)
  Definition compact_time (s : str) : option Z :=
    match strptime_compact s with Ok t => Some t | Err _ => None end.
End Compact.
