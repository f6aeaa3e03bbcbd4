(** Model of Strategy (jqtrade/scheduler/strategy.py), event classes (event.py), and of
    the account's sync timer (jqtrade/account/account.py:95-159).

    Simplifications: Context is represented by the fields used; the account side of
    set_options is reduced to which account object is current, what it registers on
    the bus, and its event source; the initial syncs are in MEnable.  Scheduling a
    source is recorded by appending it to [st_srcs]; MSched.boot schedules them in that
    order.  Keyword arguments of set_options not listed in [sopts] only matter to the
    trade gate (MGate). *)
From Verif Require Import PyBase PyStr MTime MTimeExpr MEventSource MBus.
Open Scope Z_scope.

(** Values given as times in option lists: datetime.time, str, anything else. *)
Inductive tval := TTime (t : Z) | TStr (s : str) | TOther.
Definition rawmp := list (list tval).

(** one [%H], [%M] or [%S] field of strptime: one or two digits.
    Simplification: non-ASCII digits, which strptime accepts, are rejected (MStrptime.v
    has every text; C129_periods). *)
Definition field (s : str) : option Z :=
  match s with
  | [a] => if is_digit a then Some (digit_val a) else None
  | [a; b] => if is_digit a && is_digit b then Some (digit_val a * 10 + digit_val b) else None
  | _ => None
  end.

(** common/utils.py:48-54 [parse_time] *)
Definition parse_time (v : tval) : res Z :=
  match v with
  | TTime t => Ok t
  | TStr s =>
      match split_on 58%N s with
      | [h; m; s'] =>
          match field h, field m, field s' with
          | Some h', Some m', Some s'' => mk_time h' m' s''
          | _, _, _ => Err ValueError
          end
      | _ => Err ValueError
      end
  | TOther => Err ValueError
  end.

(** [strftime("%H:%M:%S")]: the sub-second part is dropped *)
Definition two (z : Z) : str := [Z.to_N (48 + z / 10); Z.to_N (48 + z mod 10)].
Definition fmt_hms (dt : Z) : str :=
  let t := dt_time dt / US in
  two (t / 3600) ++ 58%N :: two (t / 60 mod 60) ++ 58%N :: two (t mod 60).

(** [cur = start; while cur <= stop: ...; cur += step]; None: not finished *)
Fixpoint step_loop (fuel : nat) (step cur stop : Z) : option (list Z) :=
  match fuel with
  | O => None
  | S f => if cur <=? stop then option_map (cons cur) (step_loop f step (cur + step) stop)
           else Some []
  end.

Definition MINUTE : Z := 60 * US.

(** the time expressions of one period: strategy.py:112-123 and account.py:140-151 *)
Definition period_entries (fuel : nat) (step today : Z) (p : list tval) : gres (list str) :=
  match p with
  | [TTime a; TTime b] =>
      match step_loop fuel step (combine today a) (combine today b) with
      | Some l => GOk (map fmt_hms l)
      | None => GFuel
      end
  | _ => GErr ValueError
  end.

Fixpoint periods_entries (fuel : nat) (step today : Z) (mp : rawmp) : gres (list str) :=
  match mp with
  | [] => GOk []
  | p :: mp' =>
      match period_entries fuel step today p with
      | GOk l => match periods_entries fuel step today mp' with
                 | GOk l' => GOk (l ++ l')
                 | r => r
                 end
      | r => r
      end
  end.

Definition add_entries (c : ecls) (l : list str) (es : esrc) : esrc :=
  fold_left (fun es e => es_add_daily c e es) l es.

(** strategy.py:41-46, 138 *)
Definition time_dict (t : str) : str :=
  if str_eqb t (lit "open") then lit "open+0m"
  else if str_eqb t (lit "close") then lit "close+0m"
  else if str_eqb t (lit "before_open") then lit "open-30m"
  else if str_eqb t (lit "after_close") then lit "close+30m"
  else t.

(** What user code passes to run_daily.  [f_id] is the object's identity; [f_name] its
    [__name__], if it has one.  Objects without [__module__] are not represented. *)
Record fnobj := Fn { f_id : nat; f_name : option str; f_callable : bool }.

(** Attributes of the user module: user objects and injected API objects. *)
Inductive obj := OUser (id : nat) | OApi (name : str).

(** Callbacks on the bus: the closure made for the k-th schedule entry (93-96) with the
    function it calls (None: [_get_handle] found nothing), or the sync methods of the
    i-th Account object. *)
Inductive cb := CbUser (k : nat) (target : option obj) | CbBal (i : nat) | CbOrd (i : nat).

Record desc := Desc { d_name : str; d_time : str }.

(** keyword arguments of set_options.  [so_interval]: the result of float() (in
    microseconds, as timedelta rounds it) or its ValueError. *)
Record sopts := SOpts {
  so_mp : option rawmp;
  so_use : option bool;
  so_acct : bool;
  so_bal : option bool;
  so_ord : option bool;
  so_interval : option (res Z);
  so_period : option rawmp
}.
Definition opts_empty : sopts := SOpts None None false None None None None.

(** config values read here (scheduler/config.py, account/config.py) *)
Record scfg := SCfg {
  sc_mp : rawmp;
  sc_setup : bool;           (* SETUP_ACCOUNT *)
  sc_bal : bool;             (* SYNC_BALANCE *)
  sc_ord : bool;             (* SYNC_ORDER *)
  sc_interval : Z;           (* SYNC_INTERNAL, microseconds *)
  sc_period : rawmp          (* SYNC_PERIOD *)
}.
Definition scfg_default : scfg :=
  SCfg [[TTime (34200 * US); TTime (41400 * US)]; [TTime (46800 * US); TTime (54000 * US)]]
    true true true (5 * US) [].

(** outcomes decided by the environment during one set_options call: creating the
    runtime directory, loading the gate, gate.setup, and the clock *)
Record senv := SEnv { e_dir : res unit; e_load : res unit; e_gate : res unit; e_now : Z }.

Record strat := Strat {
  st_sched : list desc;               (* _schedules *)
  st_allowed : bool;                  (* _is_scheduler_allowed *)
  st_count : nat;                     (* _schedule_count *)
  st_opts : sopts;                    (* _options *)
  st_ns : dict str obj;               (* user module attributes *)
  st_use : option bool;               (* ctx.use_account *)
  st_acc : option nat;                (* ctx.account: which Account object *)
  st_nacc : nat;                      (* Account objects created so far *)
  st_bus : bus ecls cb;
  st_srcs : list esrc                 (* sources handed to scheduler.schedule *)
}.

Definition set_sched l s := Strat l (st_allowed s) (st_count s) (st_opts s) (st_ns s) (st_use s) (st_acc s) (st_nacc s) (st_bus s) (st_srcs s).
Definition set_allowed b s := Strat (st_sched s) b (st_count s) (st_opts s) (st_ns s) (st_use s) (st_acc s) (st_nacc s) (st_bus s) (st_srcs s).
Definition set_opts o s := Strat (st_sched s) (st_allowed s) (st_count s) o (st_ns s) (st_use s) (st_acc s) (st_nacc s) (st_bus s) (st_srcs s).
Definition set_ns n s := Strat (st_sched s) (st_allowed s) (st_count s) (st_opts s) n (st_use s) (st_acc s) (st_nacc s) (st_bus s) (st_srcs s).
Definition set_use u s := Strat (st_sched s) (st_allowed s) (st_count s) (st_opts s) (st_ns s) u (st_acc s) (st_nacc s) (st_bus s) (st_srcs s).
Definition new_acc s := Strat (st_sched s) (st_allowed s) (st_count s) (st_opts s) (st_ns s) (st_use s) (Some (st_nacc s)) (S (st_nacc s)) (st_bus s) (st_srcs s).
Definition set_bus b s := Strat (st_sched s) (st_allowed s) (st_count s) (st_opts s) (st_ns s) (st_use s) (st_acc s) (st_nacc s) b (st_srcs s).
Definition add_src es s := Strat (st_sched s) (st_allowed s) (st_count s) (st_opts s) (st_ns s) (st_use s) (st_acc s) (st_nacc s) (st_bus s) (st_srcs s ++ [es]).
Definition inc_count s := Strat (st_sched s) (st_allowed s) (S (st_count s)) (st_opts s) (st_ns s) (st_use s) (st_acc s) (st_nacc s) (st_bus s) (st_srcs s).

(** equality of classes (one class object per name, event.py:26-29; the name determines
    the priority here) and of callbacks (closures and bound methods by identity) *)
Definition ecls_eqb (a b : ecls) : bool := str_eqb (ec_name a) (ec_name b) && (ec_prio a =? ec_prio b).
Lemma ecls_eqb_spec a b : reflect (a = b) (ecls_eqb a b).
Proof.
  destruct a as [n p], b as [m q]; unfold ecls_eqb; cbn [ec_name ec_prio].
  destruct (str_eqb_spec n m), (Z.eqb_spec p q); cbn [andb]; constructor; congruence.
Qed.
Global Instance Eqb_ecls : Eqb ecls := {| eqb := ecls_eqb; eqb_spec := ecls_eqb_spec |}.

Definition obj_eqb (a b : obj) : bool :=
  match a, b with
  | OUser i, OUser j => Nat.eqb i j
  | OApi m, OApi n => str_eqb m n
  | _, _ => false
  end.
Lemma obj_eqb_spec a b : reflect (a = b) (obj_eqb a b).
Proof.
  destruct a as [i|m], b as [j|n]; cbn [obj_eqb]; try (constructor; discriminate).
  - destruct (Nat.eqb_spec i j); constructor; congruence.
  - destruct (str_eqb_spec m n); constructor; congruence.
Qed.
Global Instance Eqb_obj : Eqb obj := {| eqb := obj_eqb; eqb_spec := obj_eqb_spec |}.

Definition cb_eqb (a b : cb) : bool :=
  match a, b with
  | CbUser k t, CbUser k' t' => Nat.eqb k k' && eqb t t'
  | CbBal i, CbBal j => Nat.eqb i j
  | CbOrd i, CbOrd j => Nat.eqb i j
  | _, _ => false
  end.
Lemma cb_eqb_spec a b : reflect (a = b) (cb_eqb a b).
Proof.
  destruct a as [k t|i|i], b as [k' t'|j|j]; cbn [cb_eqb]; try (constructor; discriminate).
  - destruct (Nat.eqb_spec k k'), (eqb_spec t t'); cbn [andb]; constructor; congruence.
  - destruct (Nat.eqb_spec i j); constructor; congruence.
  - destruct (Nat.eqb_spec i j); constructor; congruence.
Qed.
Global Instance Eqb_cb : Eqb cb := {| eqb := cb_eqb; eqb_spec := cb_eqb_spec |}.

(** [isinstance(event, cls)]: all event classes are direct subclasses of Event *)
Definition inst (e k : ecls) : bool := eqb e k.

(** event.py:26-29 and account.py:128 *)
Definition sync_cls : ecls := ECls (lit "AccountSyncEvent") 2.
(** strategy.py:103 *)
Definition task_cls (name : str) (count : nat) (prio : Z) : ecls :=
  ECls (lit "Scheduler_" ++ name ++ lit "_" ++ str_of_N (N.of_nat count)) prio.

Section Strat.
  Variables (fuel : nat) (cfg : escfg) (sc : scfg) (ctx_start : Z) (ctx_end : option Z).

  (** ** account.py: the sync timer *)

  (** lines 130-151: the time expressions *)
  Definition sync_entries (now : Z) (o : sopts) : gres (list str) :=
    let now0 := combine (dt_date now) (dt_time now / US * US) in
    match (match so_interval o with Some r => r | None => Ok (sc_interval sc) end) with
    | Err e => GErr e
    | Ok step =>
        let period := match so_period o with Some p => p | None => sc_period sc end in
        match period with
        | [] => match step_loop fuel step (now0 + step) (combine (dt_date now) (86399 * US)) with
                | Some l => GOk (map fmt_hms l)
                | None => GFuel
                end
        | _ => periods_entries fuel step (dt_date now) period
        end
    end.

  Definition need_bal (o : sopts) : bool := match so_bal o with Some b => b | None => sc_bal sc end.
  Definition need_ord (o : sopts) : bool := match so_ord o with Some b => b | None => sc_ord sc end.

  (** lines 123-159 [_setup_sync_timer] of account [i] *)
  Definition setup_timer (i : nat) (now : Z) (o : sopts) (s : strat) : gres unit * strat :=
    match sync_entries now o with
    | GErr e => (GErr e, s)
    | GFuel => (GFuel, s)
    | GOk l =>
        let es := add_entries sync_cls l (es_new (Some ctx_start) ctx_end) in
        let b1 := if need_bal o then register sync_cls (CbBal i) 0 (st_bus s) else st_bus s in
        let b2 := if need_ord o then register sync_cls (CbOrd i) 0 b1 else b1 in
        (GOk tt, add_src es (set_bus b2 s))
    end.

  (** strategy.py:215-246 [setup_account] and account.py:95-106 *)
  Definition setup_account (e : senv) (o : sopts) (s : strat) : gres unit * strat :=
    if negb (so_acct o) then (GErr InvalidParam, s)
    else match e_load e with
         | Err x => (GErr x, s)
         | Ok _ =>
             let i := st_nacc s in
             let s1 := new_acc s in
             match e_gate e with
             | Err x => (GErr x, s1)
             | Ok _ => if need_bal o || need_ord o then setup_timer i (e_now e) o s1
                       else (GOk tt, s1)
             end
         end.

  (** ** strategy.py *)

  Fixpoint parse_periods (mp : rawmp) : res rawmp :=
    match mp with
    | [] => Ok []
    | [a; b] :: mp' =>
        do x <- parse_time a; do y <- parse_time b;
        do r <- parse_periods mp'; Ok ([TTime x; TTime y] :: r)
    | _ :: _ => Err ValueError
    end.
  (** lines 170-178, 190-198: parsed only if truthy *)
  Definition parse_opt (o : option rawmp) : res (option rawmp) :=
    match o with
    | None => Ok None
    | Some [] => Ok (Some [])
    | Some mp => do r <- parse_periods mp; Ok (Some r)
    end.

  (** lines 166-198: the parsed keyword arguments *)
  Definition parse_opts (k : sopts) : res sopts :=
    do mp <- parse_opt (so_mp k);
    do iv <- (match so_interval k with Some (Err e) => Err e | x => Ok x end);
    do sp <- parse_opt (so_period k);
    Ok (SOpts mp (so_use k) (so_acct k) (so_bal k) (so_ord k) iv sp).

  (** lines 162-213 [set_options] *)
  Definition set_options (k : sopts) (e : senv) (s : strat) : gres unit * strat :=
    if negb (st_allowed s) then (GErr InvalidCall, s)
    else match parse_opts k with
         | Err x => (GErr x, s)
         | Ok o =>
             let s1 := set_opts o s in
             match e_dir e with
             | Err x => (GErr x, s1)
             | Ok _ =>
                 let use := match so_use o with Some b => b | None => sc_setup sc end in
                 let s2 := set_use (Some use) s1 in
                 if use then setup_account e o s2 else (GOk tt, s2)
             end
         end.

  (** lines 133-153 [run_daily], [_check_handle] *)
  Definition run_daily (f : fnobj) (t : str) (s : strat) : res unit * strat :=
    match f_name f with
    | None => (Err AttributeError, s)
    | Some n =>
        if negb (st_allowed s) then (Err InvalidCall, s)
        else if negb (f_callable f) then (Err InvalidParam, s)
        else (Ok tt, set_sched (st_sched s ++ [Desc n (time_dict t)]) s)
    end.

  (** what user code can do: call the API, rebind module attributes *)
  Inductive ucall := URun (f : fnobj) (t : str) | UOpt (k : sopts) (e : senv) | UBind (n : str) (o : obj).

  Definition ustep (c : ucall) (s : strat) : gres unit * strat :=
    match c with
    | URun f t => match run_daily f t s with (Ok u, s') => (GOk u, s') | (Err x, s') => (GErr x, s') end
    | UOpt k e => set_options k e s
    | UBind n o => (GOk tt, set_ns (dset n o (st_ns s)) s)
    end.

  (** user code making these calls (it may catch their exceptions) *)
  Fixpoint uexec (cs : list ucall) (s : strat) : strat :=
    match cs with
    | [] => s
    | c :: cs' => uexec cs' (snd (ustep c s))
    end.

  (** lines 79-91 [make_apis]; account/api.py:323-329 [__all__] *)
  Definition api_names : list str :=
    [lit "run_daily"; lit "log"; lit "context"; lit "set_options"; lit "print"].
  Definition account_names : list str :=
    [lit "LimitOrderStyle"; lit "MarketOrderStyle"; lit "order"; lit "cancel_order";
     lit "batch_submit_orders"; lit "batch_cancel_orders"; lit "get_orders";
     lit "sync_balance"; lit "sync_orders"].
  Definition make_apis (s : strat) : strat :=
    set_ns (fold_left (fun ns n => dset n (OApi n) ns)
              (api_names ++ if sc_setup sc then account_names else []) (st_ns s)) s.

  (** lines 98-131: one entry; [now] is the clock at EventSource.setup, [today] the date *)
  Definition schedule_one (now : Z) (d : desc) (s : strat) : gres strat :=
    let target := dget (d_name d) (st_ns s) in
    match es_setup cfg now (es_new (Some ctx_start) ctx_end) with
    | Err x => GErr x
    | Ok es0 =>
        let every := str_eqb (d_time d) (lit "every_minute") in
        let c := task_cls (d_name d) (st_count s) (if every then 1 else 0) in
        let mp := match so_mp (st_opts s) with Some p => p | None => sc_mp sc end in
        match (if every then periods_entries fuel MINUTE (dt_date now) mp else GOk [d_time d]) with
        | GErr x => GErr x
        | GFuel => GFuel
        | GOk l =>
            GOk (inc_count (add_src (add_entries c l es0)
                  (set_bus (register c (CbUser (st_count s) target) 0 (st_bus s)) s)))
        end
    end.

  (** [now k]: the clock when the k-th entry is scheduled *)
  Fixpoint schedule_descs (now : nat -> Z) (ds : list desc) (s : strat) : gres strat :=
    match ds with
    | [] => GOk s
    | d :: ds' => match schedule_one (now (st_count s)) d s with
                  | GOk s' => schedule_descs now ds' s'
                  | r => r
                  end
    end.
  (** lines 98-131 [schedule] *)
  Definition schedule_all_tasks (now : nat -> Z) (s : strat) : gres strat := schedule_descs now (st_sched s) s.

  (** lines 48-62 [__init__] on a module with the given attributes *)
  Definition strat_new (ns : dict str obj) : strat :=
    Strat [] false 0 opts_empty ns None None 0 bus_new [].

  (** lines 64-77 [setup].  [has_init]: the module defines process_initialize;
      [calls]/[fin]: what it does, and the exception it ends with. *)
  Definition setup (now : nat -> Z) (has_init : bool) (calls : list ucall) (fin : option exn) (s : strat)
    : gres unit * strat :=
    let s1 := make_apis s in
    if has_init then
      let s2 := uexec calls (set_allowed true s1) in
      match fin with
      | Some x => (GErr x, s2)
      | None => let s3 := set_allowed false s2 in
                match schedule_all_tasks now s3 with
                | GOk s4 => (GOk tt, s4)
                | GErr x => (GErr x, s3)
                | GFuel => (GFuel, s3)
                end
      end
    else (GErr TaskError, s1).
End Strat.
