(** Model of simple_retry (jqtrade/common/utils.py:13-33) with everything that can be raised:
    errors that are no Exceptions (KeyboardInterrupt, SystemExit), an on_exception that raises or has
    effects, a time.sleep that raises (a negative attempt_internal: ValueError), and a
    max_attempts that is never reached (float inf).  MUtils.retry_loop has the common case. *)
From Verif Require Import PyBase PyStr.
Open Scope Z_scope.

(** what is raised: an Exception, or another BaseException by its number *)
Inductive raised := RExc (e : exn) | RBase (n : nat).
Inductive outcome (A : Type) := Ret (v : A) | Raise (r : raised).
Arguments Ret {A}. Arguments Raise {A}.

Section Retry.
  Context {A W : Type}.
  (** [on]: on_exception, its answer taken for its truth; [sleep]: time.sleep(attempt_internal) *)
  Context (on : option (exn -> W -> outcome bool * W)) (sleep : W -> outcome unit * W) (f : W -> outcome A * W).
  (** lines 18-31; [max]: max_attempts, None if it is never reached.  None: out of fuel. *)
  Fixpoint retry (fuel : nat) (max : option Z) (attempts : Z) (w : W) : option (outcome A * W) :=
    match fuel with
    | O => None
    | S fuel' =>
        match f w with
        | (Ret v, w1) => Some (Ret v, w1)
        | (Raise (RBase n), w1) => Some (Raise (RBase n), w1)
        | (Raise (RExc e), w1) =>
            match (match on with None => (Ret true, w1) | Some q => q e w1 end) with
            | (Raise x, w2) => Some (Raise x, w2)
            | (Ret false, w2) => Some (Raise (RExc e), w2)
            | (Ret true, w2) =>
                if match max with Some m => m <=? attempts | None => false end then Some (Raise (RExc e), w2)
                else match sleep w2 with
                     | (Raise x, w3) => Some (Raise x, w3)
                     | (Ret _, w3) => retry fuel' max (attempts + 1) w3
                     end
            end
        end
    end.
End Retry.
