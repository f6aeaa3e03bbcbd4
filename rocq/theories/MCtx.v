(** Model of the object [context] that user functions get
    (jqtrade/scheduler/api.py, lines 5-27) and of the Context behind it
    (jqtrade/scheduler/context.py, lines 13-119).

    A UserContext is its instance dictionary; strategy_dt, current_dt and portfolio are
    properties without a setter, which Python looks up before the dictionary.
    Simplifications: names that every object has (such as [__class__]) are not considered;
    a value the strategy puts in place of the private attribute has none of the three
    attributes. *)
From Coq Require Import String.
From Verif Require Import PyBase PyStr MTime MLoop MSched MStrategy.
Open Scope list_scope.
Open Scope Z_scope.

Section Ctx.
  (** values the strategy stores *)
  Context {V : Type}.

  (** what an attribute can hold: a datetime or None; a Portfolio (of the account with this
      number) or None; a value of the strategy; the Context *)
  Inductive cval := VDt (d : option Z) | VFolio (i : option nat) | VUser (v : V) | VSelf.

  (** api.py:12: [self.__ctx], with the class name put before it by Python *)
  Definition private : str := lit "_UserContext__ctx".
  (** api.py:11-12 [__init__] *)
  Definition uc_new : dict str cval := [(private, VSelf)].

  (** what the Context refers to when an attribute is read: [_strategy_time] of the loop,
      the clock (milliseconds), and context.py:28-33 *)
  Record seen := Seen { se_st : option Z; se_clock : Z; se_use : option bool; se_acc : option nat }.

  (** context.py:80-83 and loop.py:157-160 *)
  Definition ctx_strategy_dt (tz : Z) (x : seen) : option Z :=
    match se_st x with
    | Some t => if t =? 0 then None else Some (milliseconds_to_dt tz t)
    | None => None
    end.
  (** context.py:75-78 and loop.py:152-155 *)
  Definition ctx_current_dt (tz : Z) (x : seen) : Z := milliseconds_to_dt tz (se_clock x).
  (** context.py:109-115; strategy.py:240-244 makes a portfolio for each account *)
  Definition ctx_portfolio (x : seen) : res (option nat) :=
    match se_use x with Some true => Ok (se_acc x) | _ => Err InvalidCall end.

  Definition uc_property (n : str) : bool :=
    str_eqb n (lit "strategy_dt") || str_eqb n (lit "current_dt") || str_eqb n (lit "portfolio").

  (** api.py:14-27: reading an attribute *)
  Definition uc_get (tz : Z) (x : seen) (n : str) (u : dict str cval) : res cval :=
    if uc_property n then
      match dget private u with
      | Some VSelf =>
          if str_eqb n (lit "strategy_dt") then Ok (VDt (ctx_strategy_dt tz x))
          else if str_eqb n (lit "current_dt") then Ok (VDt (Some (ctx_current_dt tz x)))
          else do i <- ctx_portfolio x; Ok (VFolio i)
      | _ => Err AttributeError
      end
    else match dget n u with Some v => Ok v | None => Err AttributeError end.

  (** what user code does to the object: [context.n = v], [del context.n] *)
  Inductive uattr := USet (n : str) (v : V) | UDel (n : str).
  Definition uc_step (a : uattr) (u : dict str cval) : res unit * dict str cval :=
    match a with
    | USet n v => if uc_property n then (Err AttributeError, u) else (Ok tt, dset n (VUser v) u)
    | UDel n => if uc_property n || negb (dmem n u) then (Err AttributeError, u) else (Ok tt, dpop n u)
    end.
  (** strategy.py:93-96 and 72: process_initialize and every task get the same object, so
      what they do to it follows one another; their exceptions may be caught *)
  Definition uc_run (l : list uattr) : dict str cval := fold_left (fun u a => snd (uc_step a u)) l uc_new.
End Ctx.
Arguments cval : clear implicits. Arguments uattr : clear implicits.

(** what the Context of a task process shows: runner.py:82-94 makes one loop, one Context
    and one Strategy *)
Definition seen_of {C W} (s4 : strat) (s : lstate C W) (clock : Z) : seen :=
  Seen (l_st s) clock (st_use s4) (st_acc s4).

(** context.py:13, 35 and 61-65: [_instance] holds the Context made last; None: get_instance
    raises InternalError *)
Definition instance (made : list nat) : option nat := fold_left (fun _ c => Some c) made None.
