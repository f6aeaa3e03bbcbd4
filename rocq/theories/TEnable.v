(** C150: what a strategy sees right after set_options. *)
From Coq Require Import String.
From Verif Require Import PyBase PyStr MTime MDate MEventSource MStrategy MOrder MAccount MApi SAccount LAccount MGate SGate SLife LSync2 LLife TGate TLife TAcked LGate3
  MBalance SBalance MCsv MFolio SFolio SFolio2 TFolio TFolio2 MFiles MSetup TSetup MEnable.
Open Scope list_scope.
Open Scope Z_scope.

(** ** Specification *)
(** an account that shows nothing *)
Definition shows_nothing (a : acct) : Prop :=
  a_orders a = [] /\ long_view a = [] /\ short_view a = [] /\ a_total a = 0 /\ a_cash a = 0 /\ a_locked a = 0.
(** two accounts with the same money and positions *)
Definition same_money (a b : acct) : Prop :=
  a_total a = a_total b /\ a_cash a = a_cash b /\ a_locked a = a_locked b /\ long_view a = long_view b /\ short_view a = short_view b.

Lemma sync_all_money l : forall a, a_total (sync_all l a) = a_total a /\ a_cash (sync_all l a) = a_cash a /\ a_locked (sync_all l a) = a_locked a /\
  a_long (sync_all l a) = a_long a /\ a_short (sync_all l a) = a_short a.
Proof.
  induction l as [|i l IH]; intro a; cbn [sync_all]; [cbn; auto|].
  destruct (sync_one i a) as [a'|x] eqn:E; [|auto]. specialize (IH a').
  assert (K : a_total a' = a_total a /\ a_cash a' = a_cash a /\ a_locked a' = a_locked a /\ a_long a' = a_long a /\ a_short a' = a_short a).
  { unfold sync_one in E. destruct (load i) as [rem|]; [|discriminate]. cbn [rbind] in E. destruct (local_order (i_id i) a) as [lo|].
    - destruct (same rem lo); [injection E as <-; auto|]. destruct (notice_for lo rem); injection E as <-; cbn; auto.
    - injection E as <-. cbn. auto. }
  intuition congruence.
Qed.
Lemma sync_orders_money {G} (gt : gate G) a g : same_money (fst (acc_sync_orders gt a g)) a.
Proof.
  unfold acc_sync_orders. destruct (g_sync_orders gt g) as [[l|x] g']; cbn [fst]; [|repeat split].
  destruct (sync_all_money l a) as (A & B & C & D & E). unfold same_money, long_view, short_view. rewrite A, B, C, D, E. repeat split.
Qed.
Lemma parse_flags k o : parse_opts k = Ok o -> so_use o = so_use k /\ so_bal o = so_bal k /\ so_ord o = so_ord k /\ so_acct o = so_acct k.
Proof.
  unfold parse_opts. destruct (parse_opt (so_mp k)) as [mp|]; [|discriminate]. cbn [rbind].
  destruct (match so_interval k with Some (Err e) => Err e | x => Ok x end) as [iv|]; [|discriminate]. cbn [rbind].
  destruct (parse_opt (so_period k)) as [sp|]; [|discriminate]. cbn [rbind]. intro H. injection H as <-. auto.
Qed.

(** ** any gate *)
Section Any.
  Context (fuel : nat) (sc : scfg) (ctx_start : Z) (ctx_end : option Z).
  Context {G : Type} (gt : gate G) (new_gate : G -> G) (setup : G -> res unit * G).
  Notation enable := (enable fuel sc ctx_start ctx_end gt new_gate setup).
  (** whether the options ask for the account *)
  Definition wants (k : sopts) : bool := match so_use k with Some b => b | None => sc_setup sc end.

  (** The strategy's side is that of the model in MStrategy, with the gate's own answer. *)
  Theorem C150_agrees :
    forall k e s w,
      let r := enable k e s w in
      (fst r, fst (snd r)) =
        set_options fuel sc ctx_start ctx_end k (SEnv (e_dir e) (e_load e) (fst (setup (new_gate (w_gate w)))) (e_now e)) s.
  Proof.
    intros k e s w r. unfold r, MEnable.enable, set_options. destruct (negb (st_allowed s)); [reflexivity|].
    destruct (parse_opts k) as [o|]; [|reflexivity]. cbn [e_dir]. destruct (e_dir e); [|reflexivity].
    destruct (match so_use o with Some b => b | None => sc_setup sc end); [|reflexivity].
    unfold open_account, setup_account. destruct (negb (so_acct o)); [reflexivity|]. cbn [e_load e_gate e_now w_gate]. destruct (e_load e); [|reflexivity].
    destruct (setup (new_gate (w_gate w))) as [[u|x] g1]; cbn [fst]; [|reflexivity].
    destruct (need_bal sc o || need_ord sc o); [|reflexivity].
    cbn [set_use set_opts st_nacc]. destruct (setup_timer _ _ _ _ _ _ _ _) as [[u'|x|] s2]; try reflexivity. destruct u'. reflexivity.
  Qed.

  Lemma enable_returned k e s w s' w' : enable k e s w = (GOk tt, (s', w')) -> wants k = true ->
    exists u g1, setup (new_gate (w_gate w)) = (Ok u, g1) /\
      w' = World true (Some (fst (first_syncs sc gt k acct_new g1))) (snd (first_syncs sc gt k acct_new g1)).
  Proof.
    unfold MEnable.enable, wants. destruct (negb (st_allowed s)); [discriminate|].
    destruct (parse_opts k) as [o|] eqn:Ep; [|discriminate]. destruct (parse_flags _ _ Ep) as (Fu & Fb & Fo & _).
    destruct (e_dir e); [|discriminate]. rewrite Fu. intros H W. rewrite W in H. unfold open_account in H.
    destruct (negb (so_acct o)); [discriminate|]. destruct (e_load e); [|discriminate]. cbn [w_gate w_use] in H.
    destruct (setup (new_gate (w_gate w))) as [[u|x] g1]; [|discriminate]. exists u, g1. split; [reflexivity|].
    assert (Eq : first_syncs sc gt o acct_new g1 = first_syncs sc gt k acct_new g1) by (unfold first_syncs, need_bal, need_ord; rewrite Fb, Fo; reflexivity).
    destruct (need_bal sc o || need_ord sc o) eqn:N.
    - destruct (setup_timer _ _ _ _ _ _ _ _) as [[u'|x|] s2]; try discriminate. injection H as _ <-. rewrite <- Eq. reflexivity.
    - injection H as _ <-. rewrite <- Eq. unfold first_syncs. apply orb_false_iff in N as [-> ->]. reflexivity.
  Qed.

  (** When set_options returned and the account is enabled, it is a new account brought up to
      date by a balance sync and then an order sync, as far as the options do not switch them
      off, with the gate that was just set up. *)
  Theorem C150_first :
    forall k e s w s' w', enable k e s w = (GOk tt, (s', w')) -> wants k = true ->
      exists u g1 a,
        setup (new_gate (w_gate w)) = (Ok u, g1) /\ the_account w' = Ok a /\
        snd (a_run gt ((if need_bal sc k then [ASyncBal] else []) ++ (if need_ord sc k then [ASyncOrd] else [])) (acct_new, g1)) = (a, w_gate w').
  Proof.
    intros k e s w s' w' H W. destruct (enable_returned _ _ _ _ _ _ H W) as (u & g1 & S & ->).
    exists u, g1, (fst (first_syncs sc gt k acct_new g1)). split; [exact S|]. split; [reflexivity|]. cbn [w_gate]. unfold first_syncs.
    destruct (need_bal sc k), (need_ord sc k); cbn [app a_run a_step];
      try (destruct (acc_sync_balance gt acct_new g1) as [a2 g2]; cbn [fst snd a_step]);
      try match goal with |- context [acc_sync_orders gt ?y ?z] => destruct (acc_sync_orders gt y z) as [a3 g3] end; reflexivity.
  Qed.

  (** Without use_account nothing is read, and the account functions refuse to work. *)
  Theorem C150_without :
    forall k e s w s' w', enable k e s w = (GOk tt, (s', w')) -> wants k = false ->
      w_gate w' = w_gate w /\ the_account w' = Err InvalidCall.
  Proof.
    intros k e s w s' w' H W. unfold MEnable.enable in H. destruct (negb (st_allowed s)); [discriminate|].
    destruct (parse_opts k) as [o|] eqn:Ep; [|discriminate]. destruct (parse_flags _ _ Ep) as (Fu & _).
    destruct (e_dir e); [|discriminate]. unfold wants in W. rewrite Fu, W in H. injection H as _ <-. split; reflexivity.
  Qed.

  (** "so that the user never reads account data that was not synchronised" (the comment in
      set_options): false.  If the gate's first answers are errors, or the options switch the
      syncs off, set_options returns all the same and the account shows nothing. *)
  Theorem C150_unsynced_refuted :
    forall k e s w s' w', enable k e s w = (GOk tt, (s', w')) -> wants k = true ->
      (need_bal sc k = true -> forall g, exists x, fst (g_sync_balance gt g) = Err x) ->
      (need_ord sc k = true -> forall g, exists x, fst (g_sync_orders gt g) = Err x) ->
      exists a, the_account w' = Ok a /\ shows_nothing a.
  Proof.
    intros k e s w s' w' H W HB HO. destruct (enable_returned _ _ _ _ _ _ H W) as (u & g1 & S & ->).
    eexists. split; [reflexivity|].
    assert (E : fst (first_syncs sc gt k acct_new g1) = acct_new).
    { unfold first_syncs.
      assert (B : fst (if need_bal sc k then acc_sync_balance gt acct_new g1 else (acct_new, g1)) = acct_new).
      { destruct (need_bal sc k); [|reflexivity]. unfold acc_sync_balance. destruct (HB eq_refl g1) as [x Ex].
        destruct (g_sync_balance gt g1) as [[b|y] g2]; [discriminate Ex|reflexivity]. }
      destruct (if need_bal sc k then _ else _) as [a2 g2]. cbn [fst snd] in *. subst a2.
      destruct (need_ord sc k); [|reflexivity]. unfold acc_sync_orders. destruct (HO eq_refl g2) as [x Ex].
      destruct (g_sync_orders gt g2) as [[l|y] g3]; [discriminate Ex|reflexivity]. }
    rewrite E. repeat split.
  Qed.

  (** A call that raises is not without effect: if only the account number is missing, the
      account counts as enabled from then on; if the gate's set-up fails, the account known so
      far has been replaced by one that shows nothing. *)
  Theorem C150_raised_refuted :
    forall k e s w, st_allowed s = true -> wants k = true -> e_dir e = Ok tt -> (exists o, parse_opts k = Ok o) ->
      (so_acct k = false ->
         fst (enable k e s w) = GErr InvalidParam /\ snd (snd (enable k e s w)) = World true (w_acc w) (w_gate w)) /\
      (so_acct k = true -> e_load e = Ok tt -> forall x g1, setup (new_gate (w_gate w)) = (Err x, g1) ->
         fst (enable k e s w) = GErr x /\ exists a, the_account (snd (snd (enable k e s w))) = Ok a /\ shows_nothing a).
  Proof.
    intros k e s w Ha W Hd [o Ho]. unfold MEnable.enable. rewrite Ha, Ho, Hd. cbn [negb].
    destruct (parse_flags _ _ Ho) as (Fu & _ & _ & Fa). unfold wants in W. rewrite Fu, W. unfold open_account. rewrite Fa. split.
    - intros ->. split; reflexivity.
    - intros -> -> x g1 Hs. cbn [negb w_gate]. rewrite Hs. split; [reflexivity|]. eexists. split; [reflexivity|]. repeat split.
  Qed.
End Any.
Print Assumptions C150_agrees.
Print Assumptions C150_first.
Print Assumptions C150_without.
Print Assumptions C150_unsynced_refuted.
Print Assumptions C150_raised_refuted.

(** The first order sync announces nothing, whatever happened to the orders before. *)
Lemma sync_all_silent l : forall a, (forall i, In i l -> dget (i_id i) (a_orders a) = None) -> NoDup (map i_id l) -> a_log (sync_all l a) = a_log a.
Proof.
  induction l as [|i l IH]; intros a Hn Hd; [reflexivity|]. cbn [sync_all map] in *. apply NoDup_cons_iff in Hd as [Hi Hd].
  unfold sync_one, local_order. rewrite (Hn i (or_introl eq_refl)). destruct (load i) as [rem|]; cbn [rbind]; [|reflexivity].
  rewrite IH; [reflexivity| |exact Hd]. intros j Hj. cbn [store a_orders]. rewrite dget_dset_other; [apply Hn; right; exact Hj|].
  intro E. apply Hi. rewrite <- E. apply in_map, Hj.
Qed.
Lemma add_positions_log l : forall a, a_log (add_positions l a) = a_log a /\ a_orders (add_positions l a) = a_orders a /\ a_heap (add_positions l a) = a_heap a.
Proof.
  induction l as [|p l IH]; intro a; cbn [add_positions]; [auto|]. destruct (MAccount.pos_of p) as [q|]; [|auto].
  destruct (IH (match ps_side q with
                | Long => set_positions (dset (ps_code q) q (a_long a)) (a_short a) a
                | Short => set_positions (a_long a) (dset (ps_code q) q (a_short a)) a end)) as (-> & -> & ->).
  destruct (ps_side q); auto.
Qed.
Lemma sync_balance_log {G} (gt : gate G) a g : a_log (fst (acc_sync_balance gt a g)) = a_log a /\ a_orders (fst (acc_sync_balance gt a g)) = a_orders a /\
  a_heap (fst (acc_sync_balance gt a g)) = a_heap a.
Proof.
  unfold acc_sync_balance. destruct (g_sync_balance gt g) as [[b|x] g']; cbn [fst]; [|auto].
  destruct (b_cash b) as [c|]; [|auto]. destruct (b_pos b) as [l|]; [|auto]. cbn [fst].
  destruct (add_positions_log l (set_positions [] [] (set_cash (or_old (c_total c) (a_total a)) (or_old (c_avail c) (a_cash a)) (or_old (c_locked c) (a_locked a)) a))) as (-> & -> & ->).
  auto.
Qed.

Lemma sync_all_book l : forall a b, a_heap a = a_heap b -> a_orders a = a_orders b ->
  a_heap (sync_all l a) = a_heap (sync_all l b) /\ a_orders (sync_all l a) = a_orders (sync_all l b).
Proof.
  induction l as [|i l IH]; intros a b Hh Ho; cbn [sync_all]; [auto|].
  assert (K : match sync_one i a, sync_one i b with
              | Ok a', Ok b' => a_heap a' = a_heap b' /\ a_orders a' = a_orders b'
              | Err _, Err _ => True | _, _ => False end).
  { unfold sync_one. replace (local_order (i_id i) b) with (local_order (i_id i) a) by (unfold local_order, deref; rewrite Hh, Ho; reflexivity).
    destruct (load i) as [rem|]; cbn [rbind]; [|exact I].
    assert (S : a_heap (store (i_id i) rem a) = a_heap (store (i_id i) rem b) /\ a_orders (store (i_id i) rem a) = a_orders (store (i_id i) rem b))
      by (cbn; rewrite Hh, Ho; auto).
    destruct (local_order (i_id i) a) as [lo|]; [|exact S]. destruct (same rem lo); [auto|]. destruct (notice_for lo rem); exact S. }
  destruct (sync_one i a), (sync_one i b); try contradiction; [|auto]. apply IH; apply K.
Qed.

(** ** the AnXin gate *)
Section AnXin.
  Context (fuel : nat) (sc : scfg) (ctx_start : Z) (ctx_end : option Z).
  Context (ptime f3 f4 : str -> option Z) (py_str : oval -> str) (eol : str).
  Context {F : Type} (pnum pyfloat : str -> option F) (trunc : F -> option Z) (round4 round3 : F -> Z) (minus : F -> F -> F).
  Context (exists_ : oval -> res bool) (makedirs : str -> res unit) (fsenc win_dir task : str) (day : Z) (runtime : str).
  Notation xgate := (ax_gate ptime f3 f4 py_str eol pnum pyfloat trunc round4 round3 minus).
  Notation xsetup := (ax_setup exists_ makedirs fsenc win_dir task day runtime).
  Notation xenable o := (enable fuel sc ctx_start ctx_end xgate ax_new (xsetup true o)).
  Notation fgt go := (full_gate ptime f3 f4 go pnum pyfloat trunc round4 round3 minus).

  Lemma xbalance go st f a : gopts_of py_str eol st = Some go ->
    acc_sync_balance xgate a (st, f) = (fst (acc_sync_balance (fgt go) a f), (st, f)).
  Proof.
    intro H. unfold acc_sync_balance. cbn [xgate ax_gate g_sync_balance]. unfold by_settings. cbn [fst snd]. rewrite H. cbn [full_gate g_sync_balance].
    unfold full_balance. cbn [fst snd].
    destruct (do x <- _; _) as [b|x]; [|reflexivity]. destruct (b_cash b); [|reflexivity]. destruct (b_pos b); reflexivity.
  Qed.
  Lemma xorders go bal st f a : gopts_of py_str eol st = Some go ->
    fst (acc_sync_orders xgate a (st, f)) = fst (acc_sync_orders (anxin ptime f3 f4 go bal) a (fg_gate f)).
  Proof.
    intro H. unfold acc_sync_orders. cbn [xgate ax_gate g_sync_orders]. unfold by_settings. cbn [fst snd]. rewrite H. cbn [full_gate g_sync_orders anxin].
    unfold lift. cbn [fst snd]. destruct (gate_sync_orders ptime f3 f4 go (fg_gate f)) as [[l|x] g']; reflexivity.
  Qed.
  Lemma xsets a g : fst (snd (acc_sync_orders xgate a g)) = fst g.
  Proof.
    unfold acc_sync_orders. cbn [xgate ax_gate g_sync_orders]. unfold by_settings. destruct (gopts_of py_str eol (fst g)); [|reflexivity].
    destruct (g_sync_orders _ (snd g)) as [[l|x] g']; reflexivity.
  Qed.
  Lemma xsetb a g : fst (snd (acc_sync_balance xgate a g)) = fst g.
  Proof.
    unfold acc_sync_balance. cbn [xgate ax_gate g_sync_balance]. unfold by_settings. destruct (gopts_of py_str eol (fst g)); [|reflexivity].
    destruct (g_sync_balance _ (snd g)) as [[b|x] g']; cbn [fst snd]; [|reflexivity]. destruct (b_cash b); [|reflexivity]. destruct (b_pos b); reflexivity.
  Qed.

  (** the state after a set_options that returned *)
  Lemma xreturned o k e s st f ub ua s' w' : xenable o k e s (World ub ua (st, f)) = (GOk tt, (s', w')) -> wants sc k = true ->
    exists st' g0, gate_configure exists_ makedirs fsenc win_dir task day runtime o (gset_new (gt_wraps st)) = (Ok tt, st') /\
      g0 = (st', with_gate f (gate_setup true (fg_gate f))) /\
      w' = World true (Some (fst (first_syncs sc xgate k acct_new g0))) (snd (first_syncs sc xgate k acct_new g0)) /\
      fst (w_gate w') = st' /\ exists go, gopts_of py_str eol st' = Some go.
  Proof.
    intros H W. destruct (enable_returned _ _ _ _ _ _ _ _ _ _ _ _ _ H W) as (u & g1 & S & ->). unfold ax_setup, ax_new in S. cbn [w_gate fst snd] in S.
    destruct (gate_configure _ _ _ _ _ _ _ o (gset_new (gt_wraps st))) as [[v|x] st'] eqn:C; [|discriminate]. destruct v. injection S as _ <-.
    exists st'. eexists. split; [reflexivity|]. split; [reflexivity|]. cbn [with_gate fg_gate gate_setup fg_assets fg_positions gs_env gs_data gs_ofile gs_cfile gs_rfile gs_ufile].
    split; [reflexivity|]. split.
    - cbn [w_gate]. unfold first_syncs. destruct (need_bal sc k), (need_ord sc k); cbn [fst snd]; rewrite ?xsets, ?xsetb; reflexivity.
    - unfold gate_configure in C. destruct (exists_ _) as [[|]|]; try discriminate.
      destruct (opt_get (lit "runtime_dir") (OStr runtime) o); try discriminate.
      destruct (do b <- _; _); [|discriminate]. destruct (retry_args _); [|discriminate]. injection C as <-. eexists. reflexivity.
  Qed.

  (** Money and positions right after set_options are those of the day's files, also where a
      figure is 0 (compare C97): the asset record of all exchanges and the account's records
      with a quantity. *)
  Theorem C150_money :
    forall o k e s st f ub ua s' w' go, xenable o k e s (World ub ua (st, f)) = (GOk tt, (s', w')) -> wants sc k = true -> need_bal sc k = true ->
      gopts_of py_str eol (fst (w_gate w')) = Some go ->
    forall atext ptext adf pdf selc selp pre r c t en lk ps,
      go_acct go <> [] ->
      dget (today f) (fg_assets f) = Some atext -> dget (today f) (fg_positions f) = Some ptext ->
      read_csv_q (Some atext) = Ok adf -> read_csv_q (Some ptext) = Ok pdf ->
      In (lit "acct") (fr_cols adf) -> In (lit "exchange") (fr_cols adf) -> In (lit "acct") (fr_cols pdf) ->
      (forall x, In x (fr_rows adf) -> (selc x = true <-> of_account adf (go_acct go) x /\ ~ exists s, field_of adf x (lit "exchange") (Some s))) ->
      (forall x, In x (fr_rows adf) -> selc x = true -> exists c, records_cash pnum pyfloat round4 minus adf x c) ->
      filter selc (fr_rows adf) = pre ++ [r] -> records_cash pnum pyfloat round4 minus adf r c -> c = BCash (Some t) (Some en) (Some lk) ->
      (forall x, In x (fr_rows pdf) -> (selp x = true <-> of_account pdf (go_acct go) x /\ held pnum trunc pdf x)) ->
      (forall x, In x (fr_rows pdf) -> of_account pdf (go_acct go) x ->
         (exists s, field_of pdf x (lit "symbol") (Some s)) /\ exists q, int_value pnum trunc pdf x (lit "currentQty") q) ->
      Forall2 (records_position pnum pyfloat trunc round4 round3 pdf) (filter selp (fr_rows pdf)) ps ->
      Forall known_pos ps ->
      exists a, the_account w' = Ok a /\ a_total a = t /\ a_cash a = en /\ a_locked a = lk /\
        firsts (map bp_code ps) (dkeys (long_view a)) /\
        (forall code p, last_record code ps p -> exists q, dget code (long_view a) = Some q /\ shown_as p q) /\
        short_view a = [].
  Proof.
    intros o k e s st f ub ua s' w' go H W NB Hgo atext ptext adf pdf selc selp pre r c t en lk ps Hacct Ha Hp Ra Rp Ca1 Ca2 Cp Hselc Hrdc Hlast Hc Ec Hselp Hrdp HF Hk.
    destruct (xreturned _ _ _ _ _ _ _ _ _ _ H W) as (st' & g0 & C & E0 & Ew & Est & _). rewrite Est in Hgo.
    set (f0 := with_gate f (gate_setup true (fg_gate f))) in *.
    pose proof (C97_always_partial ptime f3 f4 go pnum pyfloat trunc round4 round3 minus acct_new f0 atext ptext adf pdf selc selp pre r c t en lk ps Hacct Ha Hp Ra Rp Ca1 Ca2 Cp Hselc Hrdc Hlast Hc Ec Hselp Hrdp HF Hk) as Q.
    cbv zeta in Q. destruct Q as (Q1 & Q2 & Q3 & Q4 & Q5 & Q6).
    assert (Z0 : forall x y, figure x 0 y -> y = x) by (intros x y [[_ ->]|[-> ->]]; reflexivity).
    apply Z0 in Q1, Q2, Q3. subst w' g0. cbn [the_account w_use w_acc]. eexists. split; [reflexivity|].
    assert (M : same_money (fst (first_syncs sc xgate k acct_new (st', f0))) (fst (acc_sync_balance (fgt go) acct_new f0))).
    { unfold first_syncs. rewrite NB, (xbalance go st' f0 acct_new Hgo). cbn [fst snd]. destruct (need_ord sc k); [apply sync_orders_money|repeat split]. }
    destruct M as (M1 & M2 & M3 & M4 & M5). rewrite M1, M2, M3, M4, M5. auto 10.
  Qed.

  (** Orders of the day that an earlier process of the task left in its save file are known
      again right after set_options: as they were asked for, with what the broker's lines say
      of them by now; and none of what happened in between is announced.  (C150 asks for
      every history of the files; proved under the conditions of C68 on what is read.) *)
  Theorem C150_orders_partial :
    forall o k e s st f ub ua s' w' go bal d a p rt ut rs us l,
      xenable o k e s (World ub ua (st, f)) = (GOk tt, (s', w')) -> wants sc k = true -> need_ord sc k = true ->
      gopts_of py_str eol (fst (w_gate w')) = Some go -> go_ignore go = true -> (forall x t, ptime x = Some t -> year4 t) ->
      let g := fg_gate f in
      life ptime f3 f4 go bal d a g p ->
      dget d (gs_rfile g) = Some rt -> dget d (gs_ufile g) = Some ut -> calm 5 rt rs -> calm 19 ut us -> exclusive rs us ->
      fst (gate_sync_orders ptime f3 f4 go (gate_setup true g)) = Ok l ->
      exists acc, the_account w' = Ok acc /\ a_log acc = [] /\
        forall id i, dget id p = Some i -> In id (dkeys (data_of d (gs_data g))) ->
          exists od, recorded acc id od /\ same_order i od /\
            (forall pre u post sta t q m c pz, us = pre ++ u :: post -> update_for id u -> (forall x, In x post -> ~ update_for id x) ->
               status_code (col 7 u) sta -> ptime (col 1 u ++ col 2 u) = Some t -> py_int (col 11 u) = Some q ->
               f4 (col 13 u) = Some m -> py_int (col 14 u) = Some c -> f3 (col 12 u) = Some pz ->
               o_status od = sta /\ o_filled od = q /\ o_canceled od = c /\ o_deal od = m /\ o_avg od = Some pz /\ o_confirm od = Some (col 15 u)) /\
            ((exists r, In r rs /\ reject_for id r) -> o_status od = Srejected) /\
            ((forall r, In r rs -> ~ reject_for id r) -> (forall u, In u us -> ~ update_for id u) -> o_status od = Snew /\ o_filled od = 0).
  Proof.
    intros o k e s st f ub ua s' w' go bal d a p rt ut rs us l H W NO Hgo Hi Hpt g L Hr Hu Cr Cu X Hok.
    destruct (xreturned _ _ _ _ _ _ _ _ _ _ H W) as (st' & g0 & C & E0 & Ew & Est & _). rewrite Est in Hgo.
    set (f0 := with_gate f (gate_setup true (fg_gate f))) in *. subst w' g0. cbn [the_account w_use w_acc]. eexists. split; [reflexivity|].
    destruct (life_date ptime f3 f4 go bal Hpt Hi d a g p L) as [_ De].
    pose proof (l_restart ptime f3 f4 go bal d a g p L) as L2. cbv zeta in L2. set (p2 := filter _ p) in L2.
    assert (B : exists a1, fst (first_syncs sc xgate k acct_new (st', f0)) = fst (acc_sync_orders (anxin ptime f3 f4 go bal) a1 (gate_setup true g)) /\
      a_log a1 = [] /\ a_orders a1 = [] /\ a_heap a1 = []).
    { unfold first_syncs. rewrite NO. destruct (need_bal sc k).
      - rewrite (xbalance go st' f0 acct_new Hgo). cbn [fst snd]. rewrite (xorders go bal st' f0 _ Hgo). eexists. split; [reflexivity|].
        apply (sync_balance_log (fgt go) acct_new f0).
      - cbn [fst snd]. rewrite (xorders go bal st' f0 _ Hgo). exists acct_new. auto. }
    destruct B as (a1 & -> & B1 & B2 & B3).
    pose proof (C68_shown_partial ptime f3 f4 go bal d acct_new (gate_setup true g) p2 rt ut rs us l Hi Hpt L2 Hr Hu Cr Cu X Hok) as Q. cbv zeta in Q.
    assert (E : fst (acc_sync_orders (anxin ptime f3 f4 go bal) a1 (gate_setup true g)) = sync_all l a1 /\
                fst (acc_sync_orders (anxin ptime f3 f4 go bal) acct_new (gate_setup true g)) = sync_all l acct_new /\ NoDup (map i_id l)).
    { unfold acc_sync_orders. cbn [anxin g_sync_orders]. destruct (life_inv ptime f3 f4 go bal Hpt Hi d _ _ _ L2) as (_ & _ & HG & _).
      pose proof (own_after ptime f3 f4 go (gate_setup true g) (proj1 HG)) as N.
      destruct (gate_sync_orders ptime f3 f4 go (gate_setup true g)) as [[l'|x] g'] eqn:Eg; [|discriminate Hok]. cbn [fst snd] in *. apply Ok_inj in Hok. subst l'.
      split; [reflexivity|]. split; [reflexivity|]. rewrite (sync_list go ptime f3 f4 _ l g' Eg). apply own_NoDup, N. }
    destruct E as (E1 & E2 & ND). rewrite E1. rewrite E2 in Q.
    destruct (sync_all_book l a1 acct_new B3 B2) as [K1 K2]. split.
    - rewrite sync_all_silent; [exact B1| |exact ND]. intros i _. rewrite B2. reflexivity.
    - intros id i Hp Hs. assert (Hp2 : dget id p2 = Some i).
      { unfold p2. rewrite (dget_filter (fun x => dmem x (gs_orders (gate_setup true g)))). cbn [gate_setup gs_orders]. rewrite De.
        apply dmem_In in Hs. rewrite Hs. exact Hp. }
      destruct (Q id i Hp2) as (od & (r & R1 & R2) & R). exists od. split; [exists r; rewrite K1, K2; auto|exact R].
  Qed.
End AnXin.
Print Assumptions C150_money.
Print Assumptions C150_orders_partial.

(** ** a process restarted at noon: the save file knows the sale of 300, of which the broker
    has reported 100 filled; no cash is available *)
Definition en_cash : list str := [lit "8888,,1000,0,200"].
Definition en_files (g : gst) (cash held : list str) : fgst := FG g [(19000, asset_file cash)] [(19000, position_file held)].
Definition en_options : options := [(lit "account_no", OStr (lit "8888")); (lit "order_dir", OStr (lit "/dma"))].
Definition en_k : sopts := SOpts None None true None None (Some (Ok (3600 * US))) None.
Definition en_env : senv := SEnv (Ok tt) (Ok tt) (Ok tt) (19000 * DAY + 43200 * US).
Definition en_gate := ax_gate life_ptime demo_f3 demo_f4 demo_str eol_posix py_int py_int Some (fun z : Z => z) (fun z => z) Z.sub.
Definition en_setup := ax_setup demo_exists (fun _ => Ok tt) (lit "utf-8") (lit "C:\dma") (lit "t1") 19000 (lit "/home/u/jqtrade") true en_options.
Definition en_strat : strat := Strat [] true 0 opts_empty [] None None 0 [] [].
Definition en_run (k : sopts) (f : fgst) := enable 40 scfg_default (19000 * DAY) None en_gate ax_new en_setup k en_env en_strat (World false None (gset_new [], f)).
Definition en_sees (r : gres unit * (strat * world ag)) :=
  (fst r, match the_account (snd (snd r)) with Ok a => Some (TFolio.seen a, TLife.seen "77" a, a_log a) | Err _ => None end).
Example C150_demo :
  en_sees (en_run en_k (en_files life_g2 en_cash held1)) =
    (GOk tt, Some ((1000, 0, 200, [(lit "000001.XSHE", 100, 50); (lit "600002.XSHG", 200, 0)]), Some (Sfilling, 100), [])) /\
  (* without the broker's files *)
  en_sees (en_run en_k (FG life_g1 [] [])) = (GOk tt, Some ((0, 0, 0, []), None, [])) /\
  (* with the order sync switched off *)
  en_sees (en_run (SOpts None None true None (Some false) (Some (Ok (3600 * US))) None) (en_files life_g2 en_cash held1)) =
    (GOk tt, Some ((1000, 0, 200, [(lit "000001.XSHE", 100, 50); (lit "600002.XSHG", 200, 0)]), None, [])) /\
  (* without an account number *)
  en_sees (en_run (SOpts None None false None None None None) (en_files life_g2 en_cash held1)) = (GErr InvalidParam, None).
Proof. vm_compute. repeat split; reflexivity. Qed.
(** the hypotheses of C150_orders_partial for it *)
Example C150_demo_hyp :
  (exists s' w', en_run en_k (en_files life_g2 en_cash held1) = (GOk tt, (s', w')) /\ gopts_of demo_str eol_posix (fst (w_gate w')) = Some demo_go) /\
  life life_ptime demo_f3 demo_f4 demo_go no_bal 19000 life_a1 (fg_gate (en_files life_g2 en_cash held1)) life_p /\
  dget (lit "77") life_p <> None /\ In (lit "77") (dkeys (data_of 19000 (gs_data life_g2))) /\
  wants scfg_default en_k = true /\ need_ord scfg_default en_k = true /\ need_bal scfg_default en_k = true /\
  exists l, fst (gate_sync_orders life_ptime demo_f3 demo_f4 demo_go (gate_setup true life_g2)) = Ok l.
Proof.
  split; [destruct (en_run en_k (en_files life_g2 en_cash held1)) as [r [s' w']] eqn:E; exists s', w';
    assert (A : r = GOk tt) by (change r with (fst (r, (s', w'))); rewrite <- E; vm_compute; reflexivity);
    assert (B : gopts_of demo_str eol_posix (fst (w_gate w')) = Some demo_go) by (change w' with (snd (snd (r, (s', w')))); rewrite <- E; vm_compute; reflexivity);
    rewrite A; auto|].
  split; [exact life_demo|]. split; [vm_compute; discriminate|]. split; [apply dmem_In; vm_compute; reflexivity|].
  repeat (split; [reflexivity|]). eexists. vm_compute. reflexivity.
Qed.
