(** Model of several strategy processes writing to the same order file
    (jqtrade/account/trade_gate.py:287-302 [_write]).

    One process number per submission; a strategy process submitting several orders in
    turn is a special case.  Simplifications: the text is small enough to stay in the
    buffer until the file is closed and to be written by one system call; locks are the
    advisory locks of portalocker (flock on POSIX); encodings are not modelled. *)
From Verif Require Import PyBase PyStr MGate.
Open Scope Z_scope.

(** how far a submission is *)
Inductive wph :=
| WIdle
| WOpened (size : nat)          (* open(file, "a"): tell() is the size at that moment *)
| WLocked (size : nat)
| WBuffered (t : str)           (* fp.write(t): nothing on disk yet *)
| WUnlocked (t : str)           (* portalocker.unlock in finally: still nothing on disk *)
| WSeeked (t : str) (pos : nat) (* only where appending is not atomic: end of file found *)
| WFinished
| WTimedOut
| WKilled.
Record wst := WSt { w_file : str; w_lock : option nat; w_ph : nat -> wph }.
Definition w_init (f : str) : wst := WSt f None (fun _ => WIdle).

Inductive wact := AOpen | ALock | ABusy (late : bool) | AWrite | AUnlock | AFlush | AKill.

Section Writers.
  (** [atomic]: appending finds the end and writes in one step (POSIX O_APPEND); the C
      library of Windows seeks to the end and then writes. *)
  Context (atomic : bool) (header eol : str) (line : nat -> str).

  Definition w_set (k : nat) (p : wph) (s : wst) : wst :=
    WSt (w_file s) (w_lock s) (fun j => if Nat.eqb j k then p else w_ph s j).
  Definition w_put (f : str) (s : wst) : wst := WSt f (w_lock s) (w_ph s).
  Definition w_hold (l : option nat) (s : wst) : wst := WSt (w_file s) l (w_ph s).
  Definition overwrite (pos : nat) (t f : str) : str := firstn pos f ++ t ++ skipn (pos + length t) f.
  Definition w_free (k : nat) (s : wst) : wst :=
    match w_lock s with Some j => if Nat.eqb j k then w_hold None s else s | None => s end.

  (** lines 289-302 *)
  Definition w_step (k : nat) (a : wact) (s : wst) : option wst :=
    match a, w_ph s k with
    | AOpen, WIdle => Some (w_set k (WOpened (length (w_file s))) s)                       (* 290 *)
    | ALock, WOpened n =>                                                                   (* 292 *)
        match w_lock s with None => Some (w_set k (WLocked n) (w_hold (Some k) s)) | Some _ => None end
    | ABusy late, WOpened _ =>                                                              (* 297-300 *)
        match w_lock s with
        | Some _ => Some (w_set k (if late then WTimedOut else WIdle) s)
        | None => None
        end
    | AWrite, WLocked n =>                                                                  (* 293-295 *)
        Some (w_set k (WBuffered ((match n with O => header ++ eol | _ => [] end) ++ line k ++ eol)) s)
    | AUnlock, WBuffered t => Some (w_set k (WUnlocked t) (w_free k s))                     (* 301-302 *)
    | AFlush, WUnlocked t =>                                                                (* end of with *)
        if atomic then Some (w_set k WFinished (w_put (w_file s ++ t) s))
        else Some (w_set k (WSeeked t (length (w_file s))) s)
    | AFlush, WSeeked t pos => Some (w_set k WFinished (w_put (overwrite pos t (w_file s)) s))
    | AKill, WFinished | AKill, WTimedOut => None
    | AKill, _ => Some (w_set k WKilled (w_free k s))
    | _, _ => None
    end.
  Fixpoint w_run (ls : list (nat * wact)) (s : wst) : option wst :=
    match ls with
    | [] => Some s
    | (k, a) :: ls' => match w_step k a s with Some s' => w_run ls' s' | None => None end
    end.
End Writers.
