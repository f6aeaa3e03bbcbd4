(** Model of set_options as a whole (jqtrade/scheduler/strategy.py:162-246 and
    jqtrade/account/account.py:95-121): the strategy's part (MStrategy), the new gate and
    account, the gate's set-up, the sync timer and the two first syncs (MAccount).

    [k] and the options the gate reads are the same keyword arguments. *)
From Verif Require Import PyBase PyStr MEventSource MStrategy MOrder MAccount MApi MGate MBalance MFolio MSetup.
Open Scope list_scope.
Open Scope Z_scope.

Section Enable.
  Variables (fuel : nat) (sc : scfg) (ctx_start : Z) (ctx_end : option Z).
  (** [new_gate]: a new gate object beside the same files; [setup]: its setup(options) *)
  Context {G : Type} (gt : gate G) (new_gate : G -> G) (setup : G -> res unit * G).

  (** account.py:107-113: the first syncs *)
  Definition first_syncs (o : sopts) (a : acct) (g : G) : acct * G :=
    let s1 := if need_bal sc o then acc_sync_balance gt a g else (a, g) in
    if need_ord sc o then acc_sync_orders gt (fst s1) (snd s1) else s1.

  (** strategy.py:215-246 [setup_account], account.py:95-113 [setup] *)
  Definition open_account (e : senv) (o : sopts) (s : strat) (w : world G) : gres unit * (strat * world G) :=
    if negb (so_acct o) then (GErr InvalidParam, (s, w))
    else match e_load e with
         | Err x => (GErr x, (s, w))
         | Ok _ =>
             let s1 := new_acc s in
             match setup (new_gate (w_gate w)) with
             | (Err x, g1) => (GErr x, (s1, World (w_use w) (Some acct_new) g1))
             | (Ok _, g1) =>
                 if need_bal sc o || need_ord sc o then
                   match setup_timer fuel sc ctx_start ctx_end (st_nacc s) (e_now e) o s1 with
                   | (GOk _, s2) =>
                       let r := first_syncs o acct_new g1 in
                       (GOk tt, (s2, World (w_use w) (Some (fst r)) (snd r)))
                   | (r, s2) => (r, (s2, World (w_use w) (Some acct_new) g1))
                   end
                 else (GOk tt, (s1, World (w_use w) (Some acct_new) g1))
             end
         end.

  (** strategy.py:162-213 [set_options] *)
  Definition enable (k : sopts) (e : senv) (s : strat) (w : world G) : gres unit * (strat * world G) :=
    if negb (st_allowed s) then (GErr InvalidCall, (s, w))
    else match parse_opts k with
         | Err x => (GErr x, (s, w))
         | Ok o =>
             let s1 := set_opts o s in
             match e_dir e with
             | Err x => (GErr x, (s1, w))
             | Ok _ =>
                 let use := match so_use o with Some b => b | None => sc_setup sc end in
                 let s2 := set_use (Some use) s1 in
                 let w2 := World use (w_acc w) (w_gate w) in
                 if use then open_account e o s2 w2 else (GOk tt, (s2, w2))
             end
         end.
End Enable.

(** ** the AnXin gate: its settings beside its state and files *)
Section AnXin.
  Context (ptime f3 f4 : str -> option Z) (py_str : oval -> str) (eol : str).
  Context {F : Type} (pnum pyfloat : str -> option F) (trunc : F -> option Z) (round4 round3 : F -> Z) (minus : F -> F -> F).
  Context (exists_ : oval -> res bool) (makedirs : str -> res unit) (fsenc win_dir task : str) (day : Z) (runtime : str).

  Definition ag := (gset * fgst)%type.
  (** a method of the gate with the settings in force; before a set-up there are none
      (trade_gate.py:211-236) and methods raise *)
  Definition by_settings {A} (m : gate fgst -> fgst -> res A * fgst) (g : ag) : res A * ag :=
    match gopts_of py_str eol (fst g) with
    | Some go =>
        let r := m (full_gate ptime f3 f4 go pnum pyfloat trunc round4 round3 minus) (snd g) in
        (fst r, (fst g, snd r))
    | None => (Err AttributeError, g)
    end.
  Definition ax_gate : gate ag :=
    Gate ag (fun o => by_settings (fun t => g_order t o)) (fun id => by_settings (fun t => g_cancel t id))
      (by_settings (fun t => g_sync_orders t)) (by_settings (fun t => g_sync_balance t)).
  (** trade_gate.py:211-236 *)
  Definition ax_new (g : ag) : ag :=
    let x := fg_gate (snd g) in
    (gset_new (gt_wraps (fst g)),
     with_gate (snd g) (GSt [] 0 0 (gs_day x) (gs_ofile x) (gs_cfile x) (gs_rfile x) (gs_ufile x) (gs_data x) (gs_env x))).
  (** trade_gate.py:519-555; [ok]: whether loading the save file works *)
  Definition ax_setup (ok : bool) (o : options) (g : ag) : res unit * ag :=
    match gate_configure exists_ makedirs fsenc win_dir task day runtime o (fst g) with
    | (Err x, s') => (Err x, (s', snd g))
    | (Ok _, s') => (Ok tt, (s', with_gate (snd g) (gate_setup ok (fg_gate (snd g)))))
    end.
End AnXin.
