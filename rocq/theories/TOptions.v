(** C77, C78: what set_options leaves behind. *)
From Verif Require Import PyBase PyStr MTime MTimeExpr MEventSource MBus MStrategy SOptions LStr LStrategy.
Open Scope Z_scope.

(** ** reading the arguments *)
Lemma field_number w n : field w = Some n <-> number w n.
Proof.
  assert (D : forall a d, is_digit a = true /\ digit_val a = d <-> digit_is a d).
  { intros a d. unfold is_digit, digit_val, digit_is. rewrite andb_true_iff, !N.leb_le. split; [intros [? <-]|intros [? ->]]; split; auto. }
  split.
  - destruct w as [|a [|b [|c w]]]; cbn [field]; try discriminate.
    + destruct (is_digit a) eqn:Ea; [|discriminate]. intros Hn; injection Hn as <-. left. exists a. split; [reflexivity|]. apply D. split; [exact Ea|reflexivity].
    + destruct (is_digit a) eqn:Ea; [|discriminate]. destruct (is_digit b) eqn:Eb; cbn [andb]; [|discriminate].
      intros Hn; injection Hn as <-. right. exists a, b, (digit_val a), (digit_val b). split; [reflexivity|].
      split; [apply D; auto|]. split; [apply D; auto|]. lia.
  - intros [(a & -> & Ha)|(a & b & d & e & -> & Ha & Hb & ->)].
    + apply D in Ha. destruct Ha as [Ea <-]. cbn [field]. rewrite Ea. reflexivity.
    + apply D in Ha, Hb. destruct Ha as [Ea <-], Hb as [Eb <-]. cbn [field]. rewrite Ea, Eb. cbn [andb]. f_equal. lia.
Qed.
Lemma number_pos w n : number w n -> 0 <= n.
Proof. intros [(a & _ & [H ->])|(a & b & d & e & _ & [H1 ->] & [H2 ->] & ->)]; lia. Qed.
Lemma number_no_colon w n : number w n -> has_char 58%N w = false.
Proof.
  assert (D : forall a d, digit_is a d -> N.eqb 58 a = false) by (intros a d [H _]; apply N.eqb_neq; lia).
  intros [(a & -> & Ha)|(a & b & d & e & -> & Ha & Hb & _)]; unfold has_char; cbn [existsb]; rewrite ?(N.eqb_sym _ 58), ?(D _ _ Ha), ?(D _ _ Hb); reflexivity.
Qed.
Lemma parse_time_reads v t : parse_time v = Ok t <-> reads v t.
Proof.
  destruct v as [t'|s|]; cbn [parse_time reads].
  - split; [intros H; injection H as <-; reflexivity|intros ->; reflexivity].
  - split.
    + destruct (split_on 58%N s) as [|h [|m [|c [|? ?]]]] eqn:Es; try discriminate.
      destruct (field h) as [hn|] eqn:Eh; [|discriminate]. destruct (field m) as [mn|] eqn:Em; [|discriminate].
      destruct (field c) as [cn|] eqn:Ec; [|discriminate]. apply field_number in Eh, Em, Ec. unfold mk_time.
      destruct ((0 <=? hn) && (hn <? 24) && (0 <=? mn) && (mn <? 60) && (0 <=? cn) && (cn <? 60)) eqn:Eb; [|discriminate].
      intros Ht; injection Ht as <-. rewrite !andb_true_iff in Eb. destruct Eb as (((((B1 & B2) & B3) & B4) & B5) & B6).
      apply Z.ltb_lt in B2, B4, B6. exists h, m, c, hn, mn, cn. split; [|repeat split; assumption].
      rewrite <- (join_split 58%N s), Es. reflexivity.
    + intros (h & m & c & hn & mn & cn & -> & Hh & Hm & Hc & B1 & B2 & B3 & ->).
      cbn [app]. rewrite (split_on_app _ _ _ (number_no_colon _ _ Hh)), (split_on_app _ _ _ (number_no_colon _ _ Hm)),
        (split_on_none _ _ (number_no_colon _ _ Hc)).
      pose proof (number_pos _ _ Hh). pose proof (number_pos _ _ Hm). pose proof (number_pos _ _ Hc).
      apply field_number in Hh, Hm, Hc. rewrite Hh, Hm, Hc. unfold mk_time.
      replace ((0 <=? hn) && (hn <? 24) && (0 <=? mn) && (mn <? 60) && (0 <=? cn) && (cn <? 60)) with true; [reflexivity|].
      symmetry. rewrite !andb_true_iff, !Z.leb_le, !Z.ltb_lt. repeat split; assumption.
  - split; [discriminate|intros []].
Qed.

Lemma parse_periods_reads mp : forall l, parse_periods mp = Ok l <->
  Forall2 (fun a b => exists v w t u, a = [v; w] /\ b = [TTime t; TTime u] /\ reads v t /\ reads w u) mp l.
Proof.
  induction mp as [|p mp IH]; intros l.
  - cbn [parse_periods]. split; [intros H; injection H as <-; constructor|inversion 1; reflexivity].
  - split.
    + destruct p as [|v [|w [|? ?]]]; cbn [parse_periods]; try discriminate.
      destruct (parse_time v) as [t|] eqn:Ev; cbn [rbind]; [|discriminate]. destruct (parse_time w) as [u|] eqn:Ew; cbn [rbind]; [|discriminate].
      destruct (parse_periods mp) as [r|] eqn:Er; cbn [rbind]; [|discriminate]. intros H; injection H as <-.
      constructor; [|apply IH; reflexivity]. exists v, w, t, u. apply parse_time_reads in Ev, Ew. repeat split; assumption.
    + inversion 1 as [|? b ? l' (v & w & t & u & -> & -> & Hv & Hw) Hl]; subst. cbn [parse_periods].
      apply parse_time_reads in Hv, Hw. rewrite Hv, Hw. cbn [rbind]. apply IH in Hl. rewrite Hl. reflexivity.
Qed.
Lemma parse_opt_reads a b : parse_opt a = Ok b <-> reads_periods a b.
Proof.
  destruct a as [mp|]; cbn [parse_opt reads_periods].
  - assert (Hp : (do r <- parse_periods mp; Ok (Some r)) = Ok b <-> reads_periods (Some mp) b).
    { cbn [reads_periods]. destruct b as [l|].
      - rewrite <- parse_periods_reads. destruct (parse_periods mp) as [r|]; cbn [rbind]; split; congruence.
      - destruct (parse_periods mp); cbn [rbind]; split; try discriminate; intros []. }
    destruct mp as [|p mp]; [|exact Hp]. cbn [parse_periods rbind] in Hp. exact Hp.
  - destruct b; split; try discriminate; try reflexivity. intros [].
Qed.
Lemma parse_opts_given k o : parse_opts k = Ok o <-> given k o.
Proof.
  unfold parse_opts. split.
  - destruct (parse_opt (so_mp k)) as [mp|] eqn:Em; cbn [rbind]; [|discriminate]. apply parse_opt_reads in Em.
    destruct (so_interval k) as [[z|x]|] eqn:Ei; cbn [rbind]; try discriminate;
      (destruct (parse_opt (so_period k)) as [sp|] eqn:Ep; cbn [rbind]; [|discriminate]); apply parse_opt_reads in Ep;
      intros H; injection H as <-; constructor; cbn; try assumption; try reflexivity; congruence.
  - intros [G1 G2 G3 G4 G5 G6 G7 G8]. destruct o as [mp us ac ba od iv sp]. cbn in *. subst.
    apply parse_opt_reads in G1, G2. rewrite G1. cbn [rbind]. destruct (so_interval k) as [[z|x]|]; [..|exfalso|]; cbn [rbind]; try (rewrite G2; reflexivity).
    apply (G4 x). reflexivity.
Qed.

(** ** C77 *)
(** The claim: a set_options call that raises changes nothing. *)
Definition all_or_nothing : Prop :=
  forall fuel sc st en k e s x s', set_options fuel sc st en k e s = (GErr x, s') -> s' = s.

(** False: a call without account_no raises, but its options are in force and the
    account counts as enabled. *)
Theorem C77_refuted : ~ all_or_nothing.
Proof.
  intros Hc. specialize (Hc 1%nat scfg_default 0 None (SOpts (Some []) (Some true) false None None None None)
    (SEnv (Ok tt) (Ok tt) (Ok tt) 0) (set_allowed true (strat_new [])) InvalidParam _ eq_refl). discriminate.
Qed.
Print Assumptions C77_refuted.

(** False also when the directory cannot be made, or the gate cannot be set up: then the
    new account object is current. *)
Theorem C77_gate_refuted :
  forall fuel sc st en k o ed el x s, st_allowed s = true -> given k o -> so_use k = Some true -> so_acct k = true ->
    exists s', set_options fuel sc st en k (SEnv (Ok ed) (Ok el) (Err x) 0) s = (GErr x, s') /\
      st_opts s' = o /\ st_use s' = Some true /\ st_acc s' = Some (st_nacc s).
Proof.
  intros fuel sc st en k o ed el x s Ha Hg Hu Hn. unfold set_options. rewrite Ha. cbn [negb].
  pose proof Hg as Hp. apply parse_opts_given in Hp. rewrite Hp. cbn [e_dir]. rewrite (gv_use _ _ Hg), Hu. unfold setup_account.
  rewrite (gv_acct _ _ Hg), Hn. cbn. eexists. split; [reflexivity|]. repeat split; reflexivity.
Qed.
Print Assumptions C77_gate_refuted.

(** What holds: outside process_initialize, and with arguments that make no sense,
    nothing changes and the call raises. *)
Theorem C77_rejected_partial :
  forall fuel sc st en k e s, st_allowed s = false \/ (forall o, ~ given k o) ->
    exists x, set_options fuel sc st en k e s = (GErr x, s).
Proof.
  intros fuel sc st en k e s Hk. unfold set_options. destruct (st_allowed s); cbn [negb]; [|exists InvalidCall; reflexivity].
  destruct Hk as [Hk|Hk]; [discriminate|]. destruct (parse_opts k) as [o|x] eqn:Ep; [|exists x; reflexivity].
  exfalso. apply (Hk o). apply parse_opts_given. exact Ep.
Qed.
Print Assumptions C77_rejected_partial.

(** A call that returns has taken effect: its options are in force, the account is
    enabled as they say, and if so a new account object is current.  What run_daily
    recorded and the names of the user module are as before. *)
Theorem C77_returned_partial :
  forall fuel sc st en k e s u s', set_options fuel sc st en k e s = (GOk u, s') ->
    st_allowed s = true /\ given k (st_opts s') /\
    (let use := match so_use k with Some b => b | None => sc_setup sc end in
     st_use s' = Some use /\
     (use = true -> so_acct k = true /\ st_acc s' = Some (st_nacc s) /\ st_nacc s' = S (st_nacc s)) /\
     (use = false -> st_acc s' = st_acc s /\ st_nacc s' = st_nacc s /\ st_bus s' = st_bus s /\ st_srcs s' = st_srcs s)) /\
    st_allowed s' = true /\ st_sched s' = st_sched s /\ st_ns s' = st_ns s /\ st_count s' = st_count s.
Proof.
  intros fuel sc st en k e s u s' Hx. pose proof (set_options_frame fuel sc st en k e s) as Hf. rewrite Hx in Hf. cbn [snd] in Hf.
  destruct Hf as (F1 & F2 & F3 & F4). revert Hx. unfold set_options. destruct (st_allowed s) eqn:Ea; cbn [negb]; [|discriminate].
  destruct (parse_opts k) as [o|x] eqn:Ep; [|discriminate]. apply parse_opts_given in Ep.
  destruct (e_dir e); [|discriminate]. pose proof (gv_use _ _ Ep) as Hu. pose proof (gv_acct _ _ Ep) as Hac. rewrite Hu.
  intros Hx. split; [reflexivity|].
  assert (Hg : st_opts s' = o /\ (let use := match so_use k with Some b => b | None => sc_setup sc end in
     st_use s' = Some use /\
     (use = true -> so_acct k = true /\ st_acc s' = Some (st_nacc s) /\ st_nacc s' = S (st_nacc s)) /\
     (use = false -> st_acc s' = st_acc s /\ st_nacc s' = st_nacc s /\ st_bus s' = st_bus s /\ st_srcs s' = st_srcs s))).
  { cbn zeta. revert Hx. destruct (match so_use k with Some b => b | None => sc_setup sc end).
    - unfold setup_account. rewrite Hac. destruct (so_acct k); cbn [negb]; [|discriminate].
      destruct (e_load e); [|discriminate]. destruct (e_gate e); [|discriminate].
      destruct (need_bal sc o || need_ord sc o).
      + unfold setup_timer. destruct (sync_entries fuel sc (e_now e) o) as [l|x|]; try discriminate. intros Hx; injection Hx as _ <-.
        cbn. split; [reflexivity|]. split; [reflexivity|]. split; [intros _; repeat split; reflexivity|discriminate].
      + intros Hx; injection Hx as _ <-. cbn. split; [reflexivity|]. split; [reflexivity|]. split; [intros _; repeat split; reflexivity|discriminate].
    - intros Hx; injection Hx as _ <-. cbn. split; [reflexivity|]. split; [reflexivity|]. split; [discriminate|intros _; repeat split; reflexivity]. }
  destruct Hg as [<- Hg]. split; [exact Ep|]. split; [exact Hg|]. repeat split; assumption.
Qed.
Print Assumptions C77_returned_partial.

(** ** C78 *)
(** The claim: an option that was set stays as set until it is set again. *)
Definition options_stay : Prop :=
  forall fuel sc st en k1 e1 k2 e2 s u1 s1 u2 s2,
    set_options fuel sc st en k1 e1 s = (GOk u1, s1) -> set_options fuel sc st en k2 e2 s1 = (GOk u2, s2) ->
    (so_mp k2 = None -> so_mp (st_opts s2) = so_mp (st_opts s1)) /\
    (so_use k2 = None -> st_use s2 = st_use s1).

(** False: the second call forgets what the first one set. *)
Definition c78_k1 : sopts := SOpts (Some [[TStr (lit "9:30:00"); TStr (lit "11:30:00")]]) (Some false) true None None None None.
Definition c78_k2 : sopts := SOpts None None true (Some false) (Some false) None None.
Definition c78_e : senv := SEnv (Ok tt) (Ok tt) (Ok tt) 0.
Theorem C78_refuted :
  ~ options_stay /\
  exists s1 s2, set_options 1 scfg_default 0 None c78_k1 c78_e (set_allowed true (strat_new [])) = (GOk tt, s1) /\
    set_options 1 scfg_default 0 None c78_k2 c78_e s1 = (GOk tt, s2) /\
    so_mp (st_opts s1) = Some [[TTime (34200 * US); TTime (41400 * US)]] /\ so_mp (st_opts s2) = None /\
    st_use s1 = Some false /\ st_use s2 = Some true.
Proof.
  assert (H : exists s1 s2, set_options 1 scfg_default 0 None c78_k1 c78_e (set_allowed true (strat_new [])) = (GOk tt, s1) /\
    set_options 1 scfg_default 0 None c78_k2 c78_e s1 = (GOk tt, s2) /\
    so_mp (st_opts s1) = Some [[TTime (34200 * US); TTime (41400 * US)]] /\ so_mp (st_opts s2) = None /\
    st_use s1 = Some false /\ st_use s2 = Some true).
  { eexists. eexists. split; [vm_compute; reflexivity|]. split; [vm_compute; reflexivity|]. repeat split; vm_compute; reflexivity. }
  split; [|exact H]. intros Hc. destruct H as (s1 & s2 & H1 & H2 & H3 & H4 & _).
  destruct (Hc _ _ _ _ _ _ _ _ _ _ _ _ _ H1 H2) as [Hm _]. specialize (Hm eq_refl). congruence.
Qed.
Print Assumptions C78_refuted.

(** What holds, for every sequence of API calls in process_initialize: the options in
    force are exactly those of the last set_options call whose arguments make sense. *)
Theorem C78_last_call_partial :
  forall fuel sc st en cs s, st_allowed s = true -> opts_after (st_opts s) cs (st_opts (uexec fuel sc st en cs s)).
Proof.
  intros fuel sc st en cs. induction cs as [|c cs IH]; intros s Ha; cbn [uexec]; [constructor|].
  destruct c as [f t|k e|n b].
  - constructor. cbn [ustep]. unfold run_daily. destruct (f_name f) as [nm|]; [|apply IH; exact Ha].
    rewrite Ha. cbn [negb]. destruct (f_callable f); cbn [negb snd]; [|apply IH; exact Ha].
    exact (IH (set_sched _ s) Ha).
  - cbn [ustep]. pose proof (set_options_frame fuel sc st en k e s) as (F1 & _). rewrite Ha in F1.
    specialize (IH (snd (set_options fuel sc st en k e s)) F1). revert IH.
    destruct (parse_opts k) as [o|x] eqn:Ep.
    + replace (st_opts (snd (set_options fuel sc st en k e s))) with o; [intros IH|].
      * apply (oa_set _ _ _ o); [apply parse_opts_given; exact Ep|exact IH].
      * unfold set_options. rewrite Ha, Ep. cbn [negb]. destruct (e_dir e); [|reflexivity].
        destruct (match so_use o with Some b => b | None => sc_setup sc end); [|reflexivity].
        unfold setup_account. destruct (so_acct o); cbn [negb]; [|reflexivity]. destruct (e_load e); [|reflexivity].
        destruct (e_gate e); [|reflexivity]. destruct (need_bal sc o || need_ord sc o); [|reflexivity].
        unfold setup_timer. destruct (sync_entries fuel sc (e_now e) o); reflexivity.
    + intros IH. apply oa_bad; [|].
      * intros o Ho. apply parse_opts_given in Ho. congruence.
      * replace (snd (set_options fuel sc st en k e s)) with s in IH |- *; [exact IH|].
        unfold set_options. rewrite Ha, Ep. reflexivity.
  - constructor. cbn [ustep snd]. exact (IH (set_ns _ s) Ha).
Qed.
Print Assumptions C78_last_call_partial.

(** a call with text times, one with a bad one, and the options after both *)
Example C77_demo :
  given c78_k1 (SOpts (Some [[TTime (34200 * US); TTime (41400 * US)]]) (Some false) true None None None None) /\
  (forall o, ~ given (SOpts (Some [[TStr (lit "9:30"); TStr (lit "11:30:00")]]) None true None None None None) o) /\
  (forall o, ~ given (SOpts None None true None None (Some (Err ValueError)) None) o).
Proof.
  split; [apply parse_opts_given; vm_compute; reflexivity|]. split; intros o Ho.
  - apply parse_opts_given in Ho. vm_compute in Ho. discriminate.
  - apply (gv_number _ _ Ho ValueError). reflexivity.
Qed.
Example C78_demo :
  let cs := [UOpt c78_k1 c78_e; URun (Fn 1 (Some (lit "f")) true) (lit "open");
             UOpt (SOpts (Some [[TOther]]) None true None None None None) c78_e] in
  st_opts (uexec 1 scfg_default 0 None cs (set_allowed true (strat_new []))) =
  SOpts (Some [[TTime (34200 * US); TTime (41400 * US)]]) (Some false) true None None None None.
Proof. vm_compute. reflexivity. Qed.
