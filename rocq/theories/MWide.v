(** Model of [int(s)] for texts with decimal digits of other scripts (CPython's longobject.c:
    PyLong_FromUnicodeObject), and of the clock times of schedules with it
    (jqtrade/scheduler/event_source.py:138-151).  PyStr.v's [py_int] is the same for texts
    without such digits (C133).  [dig]: the value of a decimal digit of any script. *)
From Verif Require Import PyBase PyStr MTime MTimeExpr.
Open Scope Z_scope.

Section Wide.
  Variable dig : N -> option Z.

  Definition digit_here (c : N) : bool := match dig c with Some _ => true | None => false end.
  (** as PyStr.int_body *)
  Fixpoint int_body_u (acc : Z) (us : bool) (s : str) : option Z :=
    match s with
    | [] => if us then Some acc else None
    | c :: s' =>
        match dig c with
        | Some v => int_body_u (acc * 10 + v) true s'
        | None =>
            if (c =? 95)%N && us then
              match s' with
              | d :: _ => if digit_here d then int_body_u acc false s' else None
              | [] => None
              end
            else None
        end
    end.
  Definition py_int_u (s : str) : option Z :=
    match int_strip s with
    | c :: s' =>
        if (c =? 43)%N then int_body_u 0 false s'
        else if (c =? 45)%N then option_map Z.opp (int_body_u 0 false s')
        else int_body_u 0 false (c :: s')
    | [] => None
    end.

  (** lines 138-149 *)
  Definition clock_time_u (expr : str) : res Z :=
    match split_on 58%N expr with
    | h :: m :: rest =>
        let sec := match rest with s :: _ => py_int_u s | [] => Some 0 end in
        match py_int_u h, py_int_u m, sec with
        | Some h', Some m', Some s' => mk_time h' m' s'
        | _, _, _ => Err ValueError
        end
    | _ => Err ValueError
    end.
  (** lines 138-151; the offsets of relative expressions are matched by [0-9] (line 244) *)
  Definition expr_offset_u (mp : periods) (expr : str) : res Z :=
    if has_char 58%N expr then clock_time_u expr else expr_to_time mp expr.
End Wide.
