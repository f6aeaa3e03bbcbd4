(** Model of a task process (jqtrade/scheduler/runner.py:81-94): the strategy is set up,
    which schedules its event sources, then the loop runs.

    Simplifications: the loader's work is the attributes [ns] of the user module (MUtils
    models loading); start-up raises or hangs are not represented ([start] is None); a
    callback that raises keeps later subscribers of the same event from running
    (bus.py:59-61), [invoked] lists all of them.  The market periods in force are those of
    the options when the tasks are scheduled (strategy.py:111, event_source.py:162); the
    sync timer, scheduled earlier, does not use them. *)
From Verif Require Import PyBase PyStr MTime MTimeExpr MEventSource MQueue MLoop MSched MBus MStrategy.
Open Scope Z_scope.

(** event_source.py:162-163: the periods as pairs of times *)
Definition periods_of (mp : rawmp) : periods :=
  flat_map (fun p => match p with [TTime a; TTime b] => [(a, b)] | _ => [] end) mp.

Definition market_period (sc : scfg) (s : strat) : rawmp :=
  match so_mp (st_opts s) with Some p => p | None => sc_mp sc end.

Definition loop_cfg (cfg : escfg) (sc : scfg) (s : strat) : escfg :=
  ESCfg (cf_hist cfg) (cf_count cfg) (periods_of (market_period sc s)).

Section Process.
  Variables (fuel : nat) (cfg : escfg) (sc : scfg) (tz ctx_start : Z) (ctx_end : option Z).

  (** runner.py:91-92.  [now k]: the clock when schedule() reaches the k-th entry; [calls]: what process_initialize
      does; [dates]: the date at which each source is scheduled. *)
  Definition start (now : nat -> Z) (calls : list ucall) (ns : dict str obj) (dates : list Z)
    : option (strat * lstate scb sworld) :=
    match setup fuel cfg sc ctx_start ctx_end now true calls None (strat_new ns) with
    | (GOk _, s4) =>
        match boot fuel (loop_cfg cfg sc s4) tz (st_srcs s4) dates with
        | Some s0 => Some (s4, s0)
        | None => None
        end
    | _ => None
    end.

  (** runner.py:94: states of the loop *)
  Definition runs (now : nat -> Z) (calls : list ucall) (ns : dict str obj) (dates : list Z)
      (s4 : strat) (s : lstate scb sworld) : Prop :=
    exists s0 ls, start now calls ns dates = Some (s4, s0) /\ length dates = length (st_srcs s4) /\
      Forall ok_label ls /\ l_exec (sched_handler fuel (loop_cfg cfg sc s4) tz) s0 ls = Some s.
End Process.

(** the callbacks called so far, with the instant of the event (event_source.py:209-213,
    strategy.py:93-96) *)
Definition invoked (s4 : strat) (w : sworld) : list (Z * cb) :=
  flat_map (fun ke => map (fun c => (fst (snd ke), c)) (calls inst (snd (snd ke)) (st_bus s4))) (w_emits w).
