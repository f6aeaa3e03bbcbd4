(** Lemmas on what a task process keeps in memory (C96). *)
From Coq Require Import Permutation Sorted.
From Verif Require Import PyBase PyStr LStr MTime MTimeExpr MEventSource MQueue MLoop MSched
  LQueue LLoop SEvent LSort LEventSource LEventSource2 LSched LSched2 LSched3 SLate LLate2 MOrder MAccount MGate
  SAccount SGate LGate LGate2 LGate3 LGate4 SLife LSync2 SBound.
Open Scope Z_scope.

(** ** event sources *)

Lemma add_event_len cfg es day expr c evs evs' : add_event cfg es day expr c evs = Ok evs' -> (length evs' <= S (length evs))%nat.
Proof.
  unfold add_event. destruct (expr_offset _ _); cbn; [|discriminate]. destruct (es_start es); [|discriminate].
  destruct (_ <? _); [intros E; injection E as <-; lia|]. destruct (match es_end es with Some e => _ | None => _ end); intros E; injection E as <-; [lia|].
  rewrite app_length. cbn. lia.
Qed.
Lemma add_daily_len cfg es day daily : forall evs evs', add_daily_events cfg es day daily evs = Ok evs' ->
  (length evs' <= length daily + length evs)%nat.
Proof.
  induction daily as [|[x c] daily IH]; intros evs evs'; cbn [add_daily_events].
  - intros E; injection E as <-. lia.
  - destruct (add_event cfg es day x c evs) as [e1|] eqn:E; cbn; [|discriminate]. intros H. apply IH in H. apply add_event_len in E. cbn in *. lia.
Qed.
Lemma get_days_len cfg today es days his : get_days cfg today es = Ok (days, his) -> (length days <= ahead cfg es)%nat.
Proof.
  unfold get_days, ahead. destruct (cf_hist cfg || _) eqn:E.
  - destruct (es_his es); [intros X; injection X as <- <-; cbn; lia|]. destruct (es_start es) as [s|]; [|discriminate].
    intros X; injection X as <- <-. rewrite day_range_length. unfold dt_date. destruct (es_end es); lia.
  - intros X; injection X as <- <-. rewrite day_range_length. destruct (es_end es); [|lia]. apply orb_false_iff in E as [_ E]. discriminate.
Qed.

Definition kin (a b : esrc) : Prop := es_daily b = es_daily a /\ es_start b = es_start a /\ es_end b = es_end a.
Lemma kin_refl a : kin a a. Proof. repeat split. Qed.
Lemma kin_trans a b c : kin a b -> kin b c -> kin a c.
Proof. intros (A & B & C) (D & E & F). unfold kin. rewrite D, E, F. auto. Qed.
Lemma kin_ahead cfg a b : kin a b -> ahead cfg b = ahead cfg a.
Proof. intros (_ & B & C). unfold ahead. rewrite B, C. reflexivity. Qed.

Lemma gen_loop_slim cfg today : forall fuel es es', slim cfg es -> gen_loop fuel cfg today es = GOk es' -> slim cfg es' /\ kin es es'.
Proof.
  induction fuel as [|f IH]; intros es es' Hs; cbn [gen_loop]; [discriminate|].
  destruct (es_events es) as [|e0 evs0]; [|intros E; injection E as <-; split; [exact Hs|apply kin_refl]].
  assert (Hd : forall days his, match es_days es with [] => get_days cfg today es | _ => Ok (es_days es, es_his es) end = Ok (days, his) -> (length days <= ahead cfg es)%nat).
  { intros days his. destruct (es_days es) eqn:E; [apply get_days_len|]. intros X; injection X as <- <-. destruct Hs as [_ Hs]. rewrite E in Hs. exact Hs. }
  destruct (match es_days es with [] => get_days cfg today es | _ => Ok (es_days es, es_his es) end) as [[days his]|]; [|discriminate].
  specialize (Hd days his eq_refl). destruct days as [|day days].
  - intros E; injection E as <-. split; [split; cbn; lia|repeat split].
  - destruct (add_daily_events cfg es day (es_daily es) []) as [evs|] eqn:Ea; [|discriminate]. apply add_daily_len in Ea. cbn in Ea, Hd.
    intros E. apply IH in E as [E1 E2]; [split; [exact E1|]; exact E2|]. split; cbn; [lia|]. unfold ahead in *. cbn. lia.
Qed.
Lemma sort_len (l : list (Z * ecls)) : length (sort_by fst l) = length l.
Proof. apply Permutation_length. apply sort_perm. Qed.
Lemma gen_slim cfg today fuel es es' : slim cfg es -> gen_events fuel cfg today es = GOk es' -> slim cfg es' /\ kin es es'.
Proof.
  intros Hs. unfold gen_events, reset_if_needed.
  assert (G : forall e1, slim cfg e1 -> kin es e1 ->
    match es_events e1 with _ :: _ => GOk e1 | [] => match gen_loop fuel cfg today e1 with
      | GOk es2 => GOk (es_set_gen (sort_by fst (es_events es2)) (es_days es2) (es_need es2) (es_his es2) es2) | r => r end end = GOk es' -> slim cfg es' /\ kin es es').
  { intros e1 H1 K1. destruct (es_events e1); [|intros E; injection E as <-; auto].
    destruct (gen_loop fuel cfg today e1) as [e2| |] eqn:El; try discriminate. intros E; injection E as <-.
    apply gen_loop_slim in El as [[S1 S2] K2]; [|exact H1]. split; [|eapply kin_trans; eassumption].
    split; cbn; [rewrite sort_len; exact S1|exact S2]. }
  destruct (es_need es); [|apply G; [exact Hs|apply kin_refl]].
  destruct (get_days _ _ _) as [[days his]|] eqn:Ed; cbn; [|discriminate]. apply get_days_len in Ed.
  apply (G (es_set_gen [] days false his es)); [|repeat split]. split; cbn; [lia|]. exact Ed.
Qed.
Lemma get_slim cfg today fuel es r es' : slim cfg es -> get_next_event fuel cfg today es = GOk (r, es') -> slim cfg es' /\ kin es es'.
Proof.
  intros Hs. unfold get_next_event. destruct (gen_events fuel cfg today es) as [e1| |] eqn:E; try discriminate.
  apply gen_slim in E as [[S1 S2] K]; [|exact Hs]. destruct (es_events e1) eqn:Ee; intros X; injection X as <- <-; [split; [split|]; auto; rewrite Ee; exact S1|].
  split; [|exact K]. cbn in S1. split; cbn; [lia|exact S2].
Qed.
Lemma peek_slim cfg today fuel es r es' : slim cfg es -> peek_next_event fuel cfg today es = GOk (r, es') -> slim cfg es' /\ kin es es'.
Proof.
  intros Hs. unfold peek_next_event. destruct (gen_events fuel cfg today es) as [e1| |] eqn:E; try discriminate.
  intros X; injection X as _ <-. eapply gen_slim; eassumption.
Qed.
Lemma gets_slim cfg fuel todays : forall es rs es', slim cfg es -> get_events fuel cfg todays es = GOk (rs, es') -> slim cfg es' /\ kin es es'.
Proof.
  induction todays as [|t ts IH]; intros es rs es' Hs; cbn [get_events].
  - intros E; injection E as _ <-. split; [exact Hs|apply kin_refl].
  - destruct (get_next_event fuel cfg t es) as [[r e1]| |] eqn:E; try discriminate.
    destruct (get_events fuel cfg ts e1) as [[rs1 e2]| |] eqn:E2; try discriminate. intros X; injection X as _ <-.
    apply get_slim in E as [S1 K1]; [|exact Hs]. apply IH in E2 as [S2 K2]; [|exact S1]. split; [exact S2|eapply kin_trans; eassumption].
Qed.
Lemma rel_slim fuel cfg es0 em es : slim cfg es0 -> rel fuel cfg es0 em es -> slim cfg es /\ kin es0 es.
Proof.
  intros Hs (dates & ea & Hg & Hp). apply gets_slim in Hg as [S1 K1]; [|exact Hs]. destruct Hp as [->|(t & r & Hp)]; [auto|].
  apply peek_slim in Hp as [S2 K2]; [|exact S1]. split; [exact S2|eapply kin_trans; eassumption].
Qed.

(** ** the queue *)

Section Sched.
  Variables (fuel : nat) (cfg : escfg) (tz : Z) (srcs0 : list esrc).
  Hypothesis Hfuel : (0 < fuel)%nat.
  Implicit Types s : lstate scb sworld.

  Lemma sched_msgs s : sreach fuel cfg tz srcs0 s -> (length (srcs_of (msgs s)) <= length srcs0)%nat.
  Proof.
    intros Hr. pose proof (f_SI _ _ _ _ _ (FI_reach fuel cfg tz srcs0 Hfuel s Hr)) as [G1 _ G3 G4 _].
    rewrite <- (seq_length (length srcs0) 0). apply NoDup_incl_length; [exact G4|].
    intros k Hk. apply srcs_of_In in Hk as (m & Hm & Hs). unfold src_of in Hs. destruct (m_cb m) as [sid k'|] eqn:E; [|discriminate]. injection Hs as ->.
    destruct (G3 m sid k Hm E) as (_ & es & Hn & _). apply in_seq. rewrite <- G1. split; [lia|]. apply nth_error_Some. congruence.
  Qed.
  Lemma all_srcs (ms : list (msg scb)) : (forall m, In m ms -> src_of m <> None) -> length (srcs_of ms) = length ms.
  Proof.
    unfold srcs_of. induction ms as [|m ms IH]; intros H; cbn; [reflexivity|]. rewrite app_length, IH by (intros; apply H; right; assumption).
    destruct (src_of m) eqn:E; [reflexivity|]. destruct (H m (or_introl eq_refl) E).
  Qed.
  Lemma sources_slim s k es0 : sreach fuel cfg tz srcs0 s -> nth_error srcs0 k = Some es0 -> slim cfg es0 ->
    exists es, nth_error (w_srcs (l_w s)) k = Some es /\ slim cfg es /\ kin es0 es.
  Proof.
    intros Hr Hk Hs. destruct (emitted_prefix fuel cfg tz srcs0 Hfuel s k es0 Hr Hk) as (es & He & Hrel).
    exists es. split; [exact He|]. eapply rel_slim; eassumption.
  Qed.
End Sched.

(** ** the order books *)

Section Book.
  Context (ptime f3 f4 : str -> option Z) (go : gopts) (bal : gst -> res binfo * gst).
  Notation gt := (anxin ptime f3 f4 go bal).
  Notation sync := (gate_sync_orders ptime f3 f4 go).

  Lemma keys_in k j (i : oinfo) (o : dict str oinfo) : In j (dkeys (dset k i o)) <-> j = k \/ In j (dkeys o).
  Proof. rewrite <- !dmem_In. unfold dmem. rewrite dget_dset. destruct (eqb_spec j k) as [->|H]; [tauto|]. intuition congruence. Qed.
  Lemma keys_in' k j (i : nat) (o : dict str nat) : In j (dkeys (dset k i o)) <-> j = k \/ In j (dkeys o).
  Proof. rewrite <- !dmem_In. unfold dmem. rewrite dget_dset. destruct (eqb_spec j k) as [->|H]; [tauto|]. intuition congruence. Qed.

  Lemma sync_keys g j : In j (dkeys (gs_orders (snd (sync g)))) <-> In j (dkeys (gs_orders g)).
  Proof.
    apply (sync_orders_of ptime f3 f4 go g (fun o => In j (dkeys o) <-> In j (dkeys (gs_orders g)))); [|reflexivity].
    intros id o i e H Hd. rewrite keys_in, <- H. split; [intros [->|X]; [eapply dget_key; exact Hd|exact X]|auto].
  Qed.
  Lemma order_keys o g j : (In j (dkeys (gs_orders g)) -> In j (dkeys (gs_orders (snd (gate_order go o g))))) /\
    (In j (dkeys (gs_orders (snd (gate_order go o g)))) -> j = o_id o \/ In j (dkeys (gs_orders g))).
  Proof.
    split; [apply (order_orders_of go o g (fun d => In j (dkeys (gs_orders g)) -> In j (dkeys d))); [|auto]; rewrite keys_in; auto|].
    apply (order_orders_of go o g (fun d => In j (dkeys d) -> j = o_id o \/ In j (dkeys (gs_orders g)))); [|auto]. rewrite keys_in. tauto.
  Qed.

  Lemma acc_created_orders o a : a_orders (acc_order_created o a) = a_orders a.
  Proof. unfold acc_order_created. destruct (o_side o); [destruct (dget _ (a_long a))|destruct (dget _ (a_short a))]; reflexivity. Qed.
  Lemma add_positions_orders l : forall a, a_orders (add_positions l a) = a_orders a.
  Proof.
    induction l as [|p l IH]; intros a; cbn; [reflexivity|]. destruct (pos_of p) as [q|]; [|reflexivity]. rewrite IH. destruct (ps_side q); reflexivity.
  Qed.
  Lemma balance_orders a g : snd (bal g) = g -> a_orders (fst (acc_sync_balance gt a g)) = a_orders a /\ snd (acc_sync_balance gt a g) = g.
  Proof.
    intros H. unfold acc_sync_balance. cbn [g_sync_balance anxin]. destruct (bal g) as [[b|x] g']; cbn in H; subst g'; [|auto].
    destruct (b_cash b); [|auto]. destruct (b_pos b); [|auto]. cbn [fst snd]. rewrite add_positions_orders. auto.
  Qed.
  Lemma sync_one_orders i a a' j : sync_one i a = Ok a' ->
    (In j (dkeys (a_orders a)) -> In j (dkeys (a_orders a'))) /\ (In j (dkeys (a_orders a')) -> j = i_id i \/ In j (dkeys (a_orders a))) /\
    (NoDup (dkeys (a_orders a)) -> NoDup (dkeys (a_orders a'))).
  Proof.
    unfold sync_one. destruct (load i) as [rem|]; cbn; [|discriminate].
    assert (G : let b := store (i_id i) rem a in (In j (dkeys (a_orders a)) -> In j (dkeys (a_orders b))) /\ (In j (dkeys (a_orders b)) -> j = i_id i \/ In j (dkeys (a_orders a))) /\
      (NoDup (dkeys (a_orders a)) -> NoDup (dkeys (a_orders b)))).
    { cbv zeta. cbn [store a_orders]. rewrite keys_in'. repeat split; auto. apply NoDup_dset. }
    destruct (local_order (i_id i) a) as [l|]; [|intros E; injection E as <-; exact G].
    destruct (same rem l); [intros E; injection E as <-; auto|]. intros E; injection E as <-. destruct (notice_for l rem); exact G.
  Qed.
  Lemma sync_all_orders l j : forall a,
    (In j (dkeys (a_orders a)) -> In j (dkeys (a_orders (sync_all l a)))) /\
    (In j (dkeys (a_orders (sync_all l a))) -> In j (map i_id l) \/ In j (dkeys (a_orders a))) /\
    (NoDup (dkeys (a_orders a)) -> NoDup (dkeys (a_orders (sync_all l a)))).
  Proof.
    induction l as [|i l IH]; intros a; cbn [sync_all map]; [cbn; auto|].
    destruct (sync_one i a) as [a'|] eqn:E; [|auto]. destruct (sync_one_orders i a a' j E) as (A & B & C). destruct (IH a') as (D & F & H).
    repeat split; [auto| |auto]. intros X. apply F in X as [X|X]; [cbn; auto|]. apply B in X as [->|X]; [cbn; auto|auto].
  Qed.
  Lemma sync_values g l : fst (sync g) = Ok l -> l = dvals (gs_orders (snd (sync g))).
  Proof.
    unfold gate_sync_orders. destruct (dget _ (gs_ufile g)); [|discriminate]. destruct (dget _ (gs_rfile g)); [|discriminate].
    destruct (read_file _ _ _ _ _) as [[[x|] roff] o1]; [discriminate|]. destruct (read_file _ _ _ _ _) as [[[x|] uoff] o2]; [discriminate|].
    destruct (save_orders _) as [[u|x] g3]; [|discriminate]. cbn. intros E; injection E as <-. reflexivity.
  Qed.
  Lemma acc_sync_orders_ids a g j : let y := acc_sync_orders gt a g in own_ids (gs_orders g) ->
    (In j (dkeys (a_orders a)) -> In j (dkeys (a_orders (fst y)))) /\
    (In j (dkeys (a_orders (fst y))) -> In j (dkeys (gs_orders g)) \/ In j (dkeys (a_orders a))) /\
    (NoDup (dkeys (a_orders a)) -> NoDup (dkeys (a_orders (fst y)))) /\ gs_orders (snd y) = gs_orders (snd (sync g)).
  Proof.
    cbn zeta. intros Ho. pose proof (own_sync go ptime f3 f4 g Ho) as Ho'. pose proof (sync_values g) as Hv. pose proof (sync_keys g) as Hk.
    unfold acc_sync_orders. cbn [g_sync_orders anxin]. destruct (sync g) as [[l|x] g']; cbn [fst snd] in *; [|auto].
    destruct (sync_all_orders l j a) as (A & B & C). repeat split; [auto| |auto]. intros X. apply B in X as [X|X]; [|auto]. left.
    rewrite (Hv l eq_refl) in X. apply in_map_iff in X as (i & <- & Hi). apply in_map_iff in Hi as ([k i'] & Ei & Hi). cbn in Ei. subst i'.
    destruct Ho' as [N K]. rewrite <- Hk. rewrite (K k i (In_dget k i _ N Hi)). apply (in_map fst) in Hi. exact Hi.
  Qed.

  (** ids are never forgotten *)
  Lemma moves_own x n y : moves ptime f3 f4 go bal x n y -> own_ids (gs_orders (snd x)) -> own_ids (gs_orders (snd y)).
  Proof.
    intros M Hx. induction M as [|n a g e r u M IH|n a g id now code z st sd M IH|n a g id M IH|n a g M IH|n a g M IH Hb]; cbn [snd fst] in *.
    - exact Hx.
    - exact IH.
    - unfold acc_order. cbn [g_order anxin]. set (o := new_order id now code z st sd).
      assert (G : own_ids (gs_orders (snd (gate_order go o g)))).
      { apply order_orders_of; [|exact IH]. intros [N K]. split; [apply NoDup_dset, N|]. intros k j. rewrite dget_dset.
        destruct (eqb_spec k (o_id o)) as [->|]; [|apply K]. intro Q. injection Q as <-. reflexivity. }
      destruct (gate_order go o g) as [[u|x0] g']; exact G.
    - unfold acc_cancel. destruct (dmem id (a_orders a)); [|exact IH]. cbn [snd g_cancel anxin]. rewrite cancel_orders_of. exact IH.
    - destruct (acc_sync_orders_ids a g [] IH) as (_ & _ & _ & E). rewrite E. apply own_sync, IH.
    - rewrite (proj2 (balance_orders a g Hb)). exact IH.
  Qed.
  Lemma moves_kept x n y id : moves ptime f3 f4 go bal x n y -> own_ids (gs_orders (snd x)) ->
    (In id (dkeys (a_orders (fst x))) -> In id (dkeys (a_orders (fst y)))) /\ (In id (dkeys (gs_orders (snd x))) -> In id (dkeys (gs_orders (snd y)))).
  Proof.
    intros M Hx. induction M as [|n a g e r u M IH|n a g i now code z st sd M IH|n a g i M IH|n a g M IH|n a g M IH Hb]; cbn [snd fst] in *.
    - auto.
    - exact IH.
    - destruct IH as [IH1 IH2]. unfold acc_order. cbn [g_order anxin]. set (o := new_order i now code z st sd). pose proof (order_keys o g id) as [Hk _].
      destruct (gate_order go o g) as [[u|x0] g']; cbn [fst snd] in *; (split; [|auto]); intros H; [rewrite acc_created_orders|]; cbn [acc_log store a_orders]; rewrite keys_in'; auto.
    - destruct IH as [IH1 IH2]. unfold acc_cancel. destruct (dmem i (a_orders a)); cbn [fst snd g_cancel anxin]; [|auto]. rewrite cancel_orders_of. auto.
    - destruct IH as [IH1 IH2]. pose proof (moves_own _ _ _ M Hx) as Ho. cbn in Ho. destruct (acc_sync_orders_ids a g id Ho) as (A & _ & _ & E). rewrite E, sync_keys. auto.
    - destruct (balance_orders a g Hb) as [E1 E2]. rewrite E1, E2. exact IH.
  Qed.

  (** nor more of them than orders were placed *)
  Definition within (n : nat) (y : acct * gst) : Prop :=
    exists L, (length L <= n)%nat /\ NoDup (dkeys (a_orders (fst y))) /\ incl (dkeys (a_orders (fst y))) L /\ incl (dkeys (gs_orders (snd y))) L.
  Lemma moves_within g0 n y : gs_orders g0 = [] -> moves ptime f3 f4 go bal (acct_new, g0) n y -> within n y.
  Proof.
    intros H0 M. assert (Hx : own_ids (gs_orders (snd (acct_new, g0)))) by (cbn; rewrite H0; split; [constructor|discriminate]).
    induction M as [|n a g e r u M IH|n a g i now code z st sd M IH|n a g i M IH|n a g M IH|n a g M IH Hb].
    - exists []. cbn. rewrite H0. repeat split; try constructor; intros ? [].
    - exact IH.
    - destruct IH as (L & HL & HN & H1 & H2). exists (i :: L). cbn [fst snd] in *. split; [cbn; lia|].
      unfold acc_order. cbn [g_order anxin]. set (o := new_order i now code z st sd). pose proof (fun j => proj2 (order_keys o g j)) as Hk.
      change (o_id o) with i in Hk.
      assert (G : forall b, a_orders b = dset i (length (a_heap a)) (a_orders a) -> NoDup (dkeys (a_orders b)) /\ incl (dkeys (a_orders b)) (i :: L)).
      { intros b ->. split; [apply NoDup_dset, HN|]. intros j Hj. apply keys_in' in Hj as [->|Hj]; [left; reflexivity|right; apply H1, Hj]. }
      assert (G2 : incl (dkeys (gs_orders (snd (gate_order go o g)))) (i :: L)).
      { intros j Hj. apply Hk in Hj as [->|Hj]; [left; reflexivity|right; apply H2, Hj]. }
      destruct (gate_order go o g) as [[u|x0] g']; cbn [fst snd] in *.
      + destruct (G (acc_order_created o (acc_log (EvOrder o) (store i o a)))) as [A B]; [rewrite acc_created_orders; reflexivity|]. auto.
      + destruct (G (acc_log (EvOrder o) (store i o a))) as [A B]; [reflexivity|]. auto.
    - unfold acc_cancel. destruct (dmem i (a_orders a)); [|exact IH]. destruct IH as (L & HL & HN & H1 & H2). exists L. cbn [fst snd g_cancel anxin] in *.
      rewrite cancel_orders_of. auto.
    - pose proof (moves_own _ _ _ M Hx) as Ho. cbn in Ho. destruct IH as (L & HL & HN & H1 & H2). exists L. cbn [fst snd] in *. split; [exact HL|].
      destruct (acc_sync_orders_ids a g [] Ho) as (_ & _ & C & E). split; [auto|]. split.
      + intros j Hj. destruct (acc_sync_orders_ids a g j Ho) as (_ & B & _ & _). apply B in Hj as [Hj|Hj]; [apply H2, Hj|apply H1, Hj].
      + rewrite E. intros j Hj. rewrite sync_keys in Hj. apply H2, Hj.
    - destruct (balance_orders a g Hb) as [E1 E2]. destruct IH as (L & HL & HN & H1 & H2). exists L. cbn [fst snd] in *. rewrite E1, E2. auto.
  Qed.
End Book.

(** ** start-up *)
From Verif Require Import MBus MStrategy LStrategy MProcess.

Lemma of_source_len (ms : list (msg scb)) : length (filter of_source ms) = length (srcs_of ms).
Proof.
  unfold srcs_of. induction ms as [|m ms IH]; cbn; [reflexivity|]. rewrite app_length, <- IH. unfold of_source, src_of. destruct (m_cb m); reflexivity.
Qed.
Lemma filter_app_len {A} (f : A -> bool) l1 l2 : (length (filter f l2) <= length (filter f (l1 ++ l2)))%nat.
Proof. rewrite filter_app, app_length. lia. Qed.

Lemma entries_slim cfg c l : forall es, slim cfg es -> slim cfg (add_entries c l es).
Proof.
  induction l as [|e l IH]; intros es H; [exact H|]. change (add_entries c (e :: l) es) with (add_entries c l (es_add_daily c e es)).
  apply IH. destruct H as [H1 H2]. split; cbn; [rewrite app_length; lia|exact H2].
Qed.
Lemma new_slim cfg a b : slim cfg (es_new a b).
Proof. split; cbn; lia. Qed.
Lemma setup_slim cfg now a b es : es_setup cfg now (es_new a b) = Ok es -> slim cfg es.
Proof.
  unfold es_setup, reset_if_needed. cbn [es_set_start es_new es_need]. destruct (get_days _ _ _) as [[days his]|] eqn:E; cbn; [|discriminate].
  intros X; injection X as <-. apply get_days_len in E. split; cbn; [lia|exact E].
Qed.

Section Start.
  Variables (fuel : nat) (cfg : escfg) (sc : scfg) (st : Z) (en : option Z).
  Notation all_slim := (fun s : strat => Forall (slim cfg) (st_srcs s)).

  Lemma ustep_slim c s : all_slim s -> all_slim (snd (ustep fuel sc st en c s)).
  Proof.
    intros H. destruct c as [f t|k e|n o]; cbn [ustep].
    - unfold run_daily. destruct (f_name f); [|exact H]. destruct (negb (st_allowed s)); [exact H|]. destruct (negb (f_callable f)); exact H.
    - unfold set_options, setup_account, setup_timer.
      destruct (negb (st_allowed s)); [exact H|]. destruct (parse_opts k) as [o|x]; [|exact H]. destruct (e_dir e); [|exact H].
      destruct (match so_use o with Some b => b | None => sc_setup sc end); [|exact H].
      destruct (negb (so_acct o)); [exact H|]. destruct (e_load e); [|exact H]. destruct (e_gate e); [|exact H].
      destruct (need_bal sc o || need_ord sc o); [|exact H].
      destruct (sync_entries fuel sc (e_now e) o) as [l| |]; [|exact H|exact H].
      cbn [snd add_src set_bus st_srcs new_acc set_use set_opts]. apply Forall_app. split; [exact H|]. constructor; [|constructor].
      apply entries_slim, new_slim.
    - exact H.
  Qed.
  Lemma uexec_slim cs : forall s, all_slim s -> all_slim (uexec fuel sc st en cs s).
  Proof. induction cs as [|c cs IH]; intros s H; [exact H|]. cbn [MStrategy.uexec]. apply IH, ustep_slim, H. Qed.
  Lemma descs_slim now ds : forall s s', all_slim s -> schedule_descs fuel cfg sc st en now ds s = GOk s' -> all_slim s'.
  Proof.
    induction ds as [|d ds IH]; intros s s' H; cbn [schedule_descs].
    - intros E; injection E as <-; exact H.
    - destruct (schedule_one fuel cfg sc st en (now (st_count s)) d s) as [s1|x|] eqn:E1; try discriminate. intros E. eapply IH; [|exact E].
      unfold schedule_one in E1. destruct (es_setup _ _ _) as [es0|] eqn:Es; [|discriminate].
      destruct (if str_eqb (d_time d) (lit "every_minute") then _ else _) as [l|x|]; try discriminate.
      assert (G : forall a b : strat, GOk a = GOk b -> a = b) by (clear; intros a b E0; injection E0; auto). apply G in E1. subst s1.
      cbn [inc_count add_src set_bus st_srcs]. apply Forall_app. split; [exact H|]. constructor; [|constructor].
      apply entries_slim. eapply setup_slim; exact Es.
  Qed.
  Lemma start_slim tz now calls ns dates s4 s0 : start fuel cfg sc tz st en now calls ns dates = Some (s4, s0) ->
    Forall (slim (loop_cfg cfg sc s4)) (st_srcs s4) /\ boot fuel (loop_cfg cfg sc s4) tz (st_srcs s4) dates = Some s0.
  Proof.
    unfold start. destruct (MStrategy.setup fuel cfg sc st en now true calls None (strat_new ns)) as [[[]|x|] s5] eqn:Es; try discriminate.
    destruct (boot fuel (loop_cfg cfg sc s5) tz (st_srcs s5) dates) as [s0'|] eqn:Eb; [|discriminate]. intros E.
    assert (G : forall A B (a a' : A) (b b' : B), Some (a, b) = Some (a', b') -> a = a' /\ b = b') by (intros * H; injection H; auto).
    apply G in E as [-> ->]. split; [|exact Eb].
    assert (H : Forall (slim cfg) (st_srcs s4)).
    { unfold MStrategy.setup, schedule_all_tasks in Es. set (s1 := set_allowed true (make_apis sc (strat_new ns))) in *.
      set (s3 := set_allowed false (uexec fuel sc st en calls s1)) in *.
      destruct (schedule_descs fuel cfg sc st en now (st_sched s3) s3) as [s5|x|] eqn:E; try discriminate.
      assert (Ep : forall a b : gres unit * strat, a = b -> snd a = snd b) by (intros a b ->; reflexivity).
      apply Ep in Es. cbn [snd] in Es. subst s5. eapply descs_slim; [|exact E]. unfold s3. cbn [set_allowed st_srcs]. apply uexec_slim. constructor. }
    exact H.
  Qed.
End Start.
