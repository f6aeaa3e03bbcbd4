(** Lemmas behind the account and API theorems. *)
From Verif Require Import PyBase PyStr LStr MTime MDate LDate MOrder MAccount MApi SAccount LAccount LAccount2
  MStrategy.
Open Scope Z_scope.

Section Acc.
  Context {G : Type} (gt : gate G).

  (** ** notices over a whole sync *)
  Lemma changed_sym a b : changed a b -> changed b a.
  Proof. unfold changed. intros H K. apply H. symmetry. exact K. Qed.

  Lemma sync_all_notes l a :
    exists ns : list (list aevent),
      a_log (sync_all l a) = a_log a ++ concat ns /\ (length ns <= length l)%nat /\
      forall k evs, nth_error ns k = Some evs ->
        evs = [] \/
        exists i kd loc rem, evs = [EvNotice kd rem] /\ nth_error l k = Some i /\ load i = Ok rem /\
          recorded (sync_all (firstn k l) a) (i_id i) loc /\
          changed loc rem /\ ~ final_status (o_status loc) /\ kind_of kd (o_status rem).
  Proof.
    revert a; induction l as [|i l IH]; intro a; cbn [sync_all].
    - exists []. cbn. rewrite app_nil_r. split; [reflexivity|split; [lia|]]. intros [|k] evs H; discriminate.
    - destruct (sync_one i a) as [a1|] eqn:E.
      + destruct (IH a1) as (ns & L1 & L2 & L3). exists (note_of i a :: ns).
        cbn [concat length]. rewrite L1, (sync_one_log _ _ _ E), app_assoc.
        split; [reflexivity|split; [lia|]].
        intros [|k] evs H; cbn [nth_error firstn] in *.
        * injection H as <-. unfold note_of.
          destruct (load i) as [rem|] eqn:Ll; [|auto].
          destruct (local_order (i_id i) a) as [loc|] eqn:El; [|auto].
          destruct (same rem loc) eqn:Es; [auto|].
          destruct (notice_for loc rem) as [kd|] eqn:En; [|auto].
          right. exists i, kd, loc, rem. destruct (notice_for_ok _ _ _ En) as [K1 K2].
          repeat split; auto.
          -- apply local_recorded in El. exact El.
          -- assert (X : ~ ~ changed rem loc) by (intro Q; apply same_iff in Q; congruence).
             intro Q. apply X. intro Y. apply (changed_sym _ _ Y). exact Q.
        * destruct (L3 k evs H) as [->|(i' & kd & loc & rem & R)]; [auto|].
          right. exists i', kd, loc, rem. cbn [sync_all]. rewrite E. exact R.
      + exists []. cbn. rewrite app_nil_r. split; [reflexivity|split; [lia|]]. intros [|k] evs H; discriminate.
  Qed.

  Lemma sync_notice_needed a i loc rem :
    load i = Ok rem -> recorded a (i_id i) loc -> changed loc rem -> ~ final_status (o_status loc) ->
    (o_status rem = Sfilling \/
     (o_status loc <> o_status rem /\ In (o_status rem) [Sfilled; Scanceling; Spartly_canceled; Scanceled; Srejected]) \/
     (o_status loc = Snew /\ o_status rem = Sopen)) ->
    exists kd, a_log (sync_all [i] a) = a_log a ++ [EvNotice kd rem] /\ kind_of kd (o_status rem).
  Proof.
    intros Ll Hr Hc Hf Ht. apply local_recorded in Hr.
    destruct (notice_for_some _ _ Hc Hf Ht) as [kd En]. exists kd.
    cbn [sync_all]. unfold sync_one. rewrite Ll; cbn [rbind]. rewrite Hr.
    destruct (same rem loc) eqn:Es.
    { apply same_iff in Es. exfalso. apply Es, changed_sym, Hc. }
    rewrite En. split; [reflexivity|]. apply (notice_for_ok _ _ _ En).
  Qed.

  (** ** balance *)
  Lemma get_side_cases p : pos_complete p -> exists sd q, p_side p = Some (side_str sd) /\ pos_of p = Ok q /\ ps_side q = sd /\ pos_as p q.
  Proof.
    intros (Hs & Hc & Ha & Hv & Hg). unfold pos_of.
    destruct (p_code p) as [c|] eqn:E1; [|congruence]. destruct (p_amount p) as [n|] eqn:E2; [|congruence].
    destruct (p_avail p) as [v|] eqn:E3; [|congruence]. destruct (p_avg p) as [g|] eqn:E4; [|congruence].
    destruct Hs as [Hs|Hs]; rewrite Hs.
    - exists Long. eexists. split; [reflexivity|]. split; [reflexivity|]. split; [reflexivity|].
      unfold pos_as; cbn. auto 10.
    - exists Short. eexists. split; [reflexivity|]. split; [reflexivity|]. split; [reflexivity|].
      unfold pos_as; cbn. auto 10.
  Qed.

  Definition side_map (sd : side) (a : acct) : dict str position :=
    match sd with Long => a_long a | Short => a_short a end.

  Lemma find_app_rev {A} (f : A -> bool) l x :
    find f (rev (x :: l)) = match find f (rev l) with Some y => Some y | None => if f x then Some x else None end.
  Proof.
    cbn [rev]. induction (rev l) as [|y m IH]; cbn; [reflexivity|].
    destruct (f y); [reflexivity|exact IH].
  Qed.

  Lemma add_positions_map sd code l a : Forall pos_complete l ->
    match last_pos sd code l with
    | None => dget code (side_map sd (add_positions l a)) = dget code (side_map sd a)
    | Some p => exists q, dget code (side_map sd (add_positions l a)) = Some q /\ pos_as p q
    end.
  Proof.
    revert a; induction l as [|p l IH]; intros a HF; [reflexivity|].
    inversion_clear HF as [|? ? Hp HF']. destruct (get_side_cases p Hp) as (sp & q & Hs & Hq & Hqs & Has).
    cbn [add_positions]. rewrite Hq.
    set (a1 := match ps_side q with Long => _ | Short => _ end).
    specialize (IH a1 HF'). unfold last_pos in *. rewrite find_app_rev.
    destruct (find _ (rev l)) as [y|]; [exact IH|].
    rewrite IH. pose proof Has as (_ & Hcode & _). rewrite Hs, Hcode; cbn [dfl].
    assert (X : side_map sd a1 = if str_eqb (side_str sp) (side_str sd) then dset (ps_code q) q (side_map sd a) else side_map sd a).
    { subst a1. rewrite Hqs. destruct sp, sd; reflexivity. }
    rewrite X. destruct (str_eqb (side_str sp) (side_str sd)); cbn [andb]; [|reflexivity].
    destruct (str_eqb_spec (ps_code q) code) as [->|Hn].
    - exists q. rewrite dget_dset_same. auto.
    - rewrite dget_dset_other by congruence. reflexivity.
  Qed.

  Definition nonzero (x : option Z) : Prop := match x with Some v => v <> 0 | None => False end.
  Lemma or_old_nonzero x old : nonzero x -> Some (or_old x old) = x.
  Proof. destruct x as [v|]; cbn; [|tauto]. intro H. destruct (Z.eqb_spec v 0); [congruence|reflexivity]. Qed.

  Lemma sync_balance_exact a g b g' c l :
    g_sync_balance gt g = (Ok b, g') -> b_cash b = Some c -> b_pos b = Some l -> Forall pos_complete l ->
    let a' := fst (acc_sync_balance gt a g) in
    (nonzero (c_total c) -> c_total c = Some (a_total a')) /\
    (nonzero (c_avail c) -> c_avail c = Some (a_cash a')) /\
    (nonzero (c_locked c) -> c_locked c = Some (a_locked a')) /\
    map_as Long l (a_long a') /\ map_as Short l (a_short a').
  Proof.
    intros Hg Hc Hl HF. unfold acc_sync_balance. rewrite Hg, Hc, Hl. cbn [fst].
    set (a1 := set_positions [] [] _).
    destruct (add_positions_frame l a1) as (_ & _ & _ & D & E & F).
    cbn zeta. rewrite D, E, F. subst a1. cbn [set_positions set_cash a_total a_cash a_locked].
    split; [intro; symmetry; apply or_old_nonzero; assumption|].
    split; [intro; symmetry; apply or_old_nonzero; assumption|].
    split; [intro; symmetry; apply or_old_nonzero; assumption|].
    split; intro code.
    - pose proof (add_positions_map Long code l (set_positions [] [] (set_cash (or_old (c_total c) (a_total a)) (or_old (c_avail c) (a_cash a)) (or_old (c_locked c) (a_locked a)) a)) HF) as X.
      destruct (last_pos Long code l); exact X.
    - pose proof (add_positions_map Short code l (set_positions [] [] (set_cash (or_old (c_total c) (a_total a)) (or_old (c_avail c) (a_cash a)) (or_old (c_locked c) (a_locked a)) a)) HF) as X.
      destruct (last_pos Short code l); exact X.
  Qed.

  Lemma sync_balance_failed a g r g' :
    g_sync_balance gt g = (r, g') ->
    (forall b, r = Ok b -> b_cash b = None \/ b_pos b = None) ->
    fst (acc_sync_balance gt a g) = a.
  Proof.
    intros H K. unfold acc_sync_balance. rewrite H. destruct r as [b|]; [|reflexivity].
    destruct (K b eq_refl) as [X|X]; rewrite X; [reflexivity|destruct (b_cash b); reflexivity].
  Qed.

  Lemma sync_balance_zero a g b g' c l :
    g_sync_balance gt g = (Ok b, g') -> b_cash b = Some c -> b_pos b = Some l ->
    (c_avail c = Some 0 -> a_cash (fst (acc_sync_balance gt a g)) = a_cash a) /\
    (c_total c = Some 0 -> a_total (fst (acc_sync_balance gt a g)) = a_total a) /\
    (c_locked c = Some 0 -> a_locked (fst (acc_sync_balance gt a g)) = a_locked a).
  Proof.
    intros Hg Hc Hl. unfold acc_sync_balance. rewrite Hg, Hc, Hl. cbn [fst].
    set (a1 := set_positions [] [] _).
    destruct (add_positions_frame l a1) as (_ & _ & _ & D & E & F). rewrite D, E, F. subst a1.
    cbn [set_positions set_cash a_total a_cash a_locked].
    split; [|split]; intros ->; reflexivity.
  Qed.

  (** a bad position after good ones: the old positions are gone, the later ones missing *)
  Lemma sync_balance_midway a g b g' c pre bad post :
    g_sync_balance gt g = (Ok b, g') -> b_cash b = Some c -> b_pos b = Some (pre ++ bad :: post) ->
    Forall pos_complete pre -> ~ pos_complete bad ->
    map_as Long pre (a_long (fst (acc_sync_balance gt a g))) /\ map_as Short pre (a_short (fst (acc_sync_balance gt a g))).
  Proof.
    intros Hg Hc Hl HF Hb. unfold acc_sync_balance. rewrite Hg, Hc, Hl. cbn [fst].
    set (a1 := set_positions [] [] _).
    assert (B : pos_of bad = Err KeyError \/ pos_of bad = Err ValueError).
    { unfold pos_of. destruct (p_side bad) as [s|] eqn:E0; [|auto].
      unfold get_side, find_name. destruct (find _ _) as [sd|] eqn:Ef; cbn [rbind]; [|auto].
      apply find_some in Ef. destruct Ef as [_ Ef]. apply str_eqb_eq in Ef.
      destruct (p_code bad) eqn:E1; [|auto]. destruct (p_amount bad) eqn:E2; [|auto].
      destruct (p_avail bad) eqn:E3; [|auto]. destruct (p_avg bad) eqn:E4; [|auto].
      exfalso. apply Hb. unfold pos_complete. rewrite E0, E1, E2, E3, E4, <- Ef.
      split; [destruct sd; auto|repeat split; discriminate]. }
    assert (X : forall l a, Forall pos_complete l -> add_positions (l ++ bad :: post) a = add_positions l a).
    { clear - B. induction l as [|p l IH]; intros a HF; cbn [app add_positions].
      - destruct B as [->| ->]; reflexivity.
      - inversion_clear HF. destruct (pos_of p); [apply IH; assumption|reflexivity]. }
    rewrite X by exact HF.
    split; intro code.
    - pose proof (add_positions_map Long code pre a1 HF) as Y. destruct (last_pos Long code pre); exact Y.
    - pose proof (add_positions_map Short code pre a1 HF) as Y. destruct (last_pos Short code pre); exact Y.
  Qed.

  (** ** C31 *)
  Lemma sync_all_long l a : a_long (sync_all l a) = a_long a.
  Proof.
    revert a; induction l as [|i l IH]; intro a; cbn [sync_all]; [reflexivity|].
    destruct (sync_one i a) as [a1|] eqn:E; [|reflexivity]. rewrite IH.
    unfold sync_one in E. destruct (load i) as [rem|]; cbn [rbind] in E; [|discriminate].
    destruct (local_order (i_id i) a) as [lo|]; [destruct (same rem lo)|]; apply Ok_inj in E; subst a1; try reflexivity.
    destruct (notice_for lo rem); reflexivity.
  Qed.

  (** the accepted sells of one step *)
  Definition step_sold (code : str) (op : aop (G := G)) (r : option str) : Z :=
    match op, r with
    | AOrder _ _ c z _ _, Some _ => if str_eqb c code && (z <? 0) then - z else 0
    | _, _ => 0
    end.
  Lemma step_sold_nonneg code op r : 0 <= step_sold code op r.
  Proof.
    unfold step_sold. destruct op; try lia. destruct r; [|lia].
    destruct (str_eqb code0 code); cbn [andb]; [|lia]. destruct (Z.ltb_spec amount 0); lia.
  Qed.
  Lemma sold_cons code op ops r rs : sold code (op :: ops) (r :: rs) = step_sold code op r + sold code ops rs.
  Proof. destruct op; cbn; try reflexivity. destruct r; reflexivity. Qed.
  Lemma sold_nonneg code ops rs : 0 <= sold (G := G) code ops rs.
  Proof.
    revert rs; induction ops as [|op ops IH]; intros rs; [cbn; lia|].
    destruct rs as [|r rs]; [destruct op; cbn; lia|]. rewrite sold_cons.
    pose proof (step_sold_nonneg code op r). specialize (IH rs). lia.
  Qed.

  Lemma a_step_avail op a g r a' g' code p :
    op <> ASyncBal -> a_step gt op (a, g) = (r, (a', g')) ->
    dget code (a_long a) = Some p -> 0 <= ps_avail p ->
    dget code (a_long a') = Some (set_avail (Z.max (ps_avail p - step_sold code op r) 0) p).
  Proof.
    intros Hn H Hd Hv.
    assert (Same : dget code (a_long a') = dget code (a_long a) -> step_sold code op r = 0 ->
                   dget code (a_long a') = Some (set_avail (Z.max (ps_avail p - step_sold code op r) 0) p)).
    { intros -> ->. rewrite Hd, Z.sub_0_r, Z.max_l by lia. destruct p; reflexivity. }
    destruct op as [id now c z st sd|id| | |g1]; cbn [a_step] in H; [| |congruence| |].
    - unfold acc_order in H. destruct (g_order gt _ g) as [[u|e] g1].
      + injection H as <- <- <-.
        destruct (str_eqb_spec c code) as [->|Hc].
        * unfold acc_order_created, new_order. cbn [o_side o_code acc_log store a_long].
          rewrite Hd. cbn [set_positions a_long]. rewrite dget_dset_same. f_equal.
          unfold pos_order_created, step_sold. rewrite str_eqb_refl. cbn [o_action o_amount andb].
          destruct (Z.ltb_spec z 0).
          -- rewrite Z.abs_neq by lia. reflexivity.
          -- rewrite Z.sub_0_r, Z.max_l by lia. destruct p; reflexivity.
        * apply Same.
          -- unfold acc_order_created, new_order. cbn [o_side o_code acc_log store a_long].
             destruct (dget c (a_long a)) as [q|]; [|reflexivity].
             cbn [set_positions a_long]. apply dget_dset_other. congruence.
          -- cbn. replace (str_eqb c code) with false by (symmetry; apply str_eqb_neq; exact Hc). reflexivity.
      + injection H as <- <- <-. apply Same; reflexivity.
    - rewrite acc_cancel_spec in H. injection H as <- <- <-. apply Same; [destruct (dmem _ _); reflexivity|reflexivity].
    - unfold acc_sync_orders in H. destruct (g_sync_orders gt g) as [[l|] g1]; injection H as <- <- <-;
        (apply Same; [try rewrite sync_all_long; reflexivity|reflexivity]).
    - injection H as <- <- <-. apply Same; reflexivity.
  Qed.

  Lemma a_run_avail ops a g rs a' g' code p :
    no_balance_sync ops -> a_run gt ops (a, g) = (rs, (a', g')) ->
    dget code (a_long a) = Some p -> 0 <= ps_avail p ->
    dget code (a_long a') = Some (set_avail (Z.max (ps_avail p - sold code ops rs) 0) p).
  Proof.
    revert a g rs p; induction ops as [|op ops IH]; intros a g rs p Hn H Hd Hv; cbn [a_run] in H.
    - injection H as <- <- <-. cbn [sold]. rewrite Z.sub_0_r, Z.max_l by lia. rewrite Hd. destruct p; reflexivity.
    - inversion_clear Hn as [|? ? Hop Hn'].
      destruct (a_step gt op (a, g)) as [r [a1 g1]] eqn:E1.
      destruct (a_run gt ops (a1, g1)) as [rs' [a2 g2]] eqn:E2. injection H as <- <- <-.
      pose proof (a_step_avail _ _ _ _ _ _ _ _ Hop E1 Hd Hv) as D1.
      assert (V : 0 <= ps_avail (set_avail (Z.max (ps_avail p - step_sold code op r) 0) p)) by (cbn; lia).
      pose proof (IH _ _ _ _ Hn' E2 D1 V) as D2. rewrite D2, sold_cons. f_equal.
      unfold set_avail; cbn [ps_avail ps_code ps_amount ps_avg ps_side ps_last ps_value]. f_equal.
      pose proof (sold_nonneg code ops rs'). pose proof (step_sold_nonneg code op r). lia.
  Qed.

  (** selling at most what is shown as closeable *)
  Definition careful (code : str) (ops : list (aop (G := G))) (s : acct * G) : Prop :=
    forall pre id now z st sd post, ops = pre ++ AOrder id now code z st sd :: post -> z < 0 ->
      forall q, dget code (a_long (fst (snd (a_run gt pre s)))) = Some q -> - z <= ps_avail q.
  Lemma careful_cons code op ops s : careful code (op :: ops) s -> careful code ops (snd (a_step gt op s)).
  Proof.
    intros H pre id now z st sd post -> Hz q Hq.
    apply (H (op :: pre) id now z st sd post eq_refl Hz q).
    cbn [a_run]. destruct (a_step gt op s) as [r s1]. cbn [snd] in Hq |- *.
    destruct (a_run gt pre s1) as [rs s2]. exact Hq.
  Qed.
  Lemma never_oversold ops a g rs a' g' code p :
    no_balance_sync ops -> a_run gt ops (a, g) = (rs, (a', g')) ->
    dget code (a_long a) = Some p -> 0 <= ps_avail p -> careful code ops (a, g) ->
    sold code ops rs <= ps_avail p.
  Proof.
    revert a g rs p; induction ops as [|op ops IH]; intros a g rs p Hn H Hd Hv Hc; cbn [a_run] in H.
    - injection H as <- <- <-. exact Hv.
    - inversion_clear Hn as [|? ? Hop Hn'].
      destruct (a_step gt op (a, g)) as [r [a1 g1]] eqn:E1.
      destruct (a_run gt ops (a1, g1)) as [rs' [a2 g2]] eqn:E2. injection H as <- <- <-.
      pose proof (a_step_avail _ _ _ _ _ _ _ _ Hop E1 Hd Hv) as D1.
      assert (V : 0 <= ps_avail (set_avail (Z.max (ps_avail p - step_sold code op r) 0) p)) by (cbn; lia).
      assert (C1 : careful code ops (a1, g1)).
      { apply careful_cons in Hc. rewrite E1 in Hc. exact Hc. }
      pose proof (IH _ _ _ _ Hn' E2 D1 V C1) as D2. rewrite sold_cons.
      assert (Hle : step_sold code op r <= ps_avail p).
      { unfold step_sold. destruct op as [id now c z st sd| | | |]; try lia. destruct r; [|lia].
        destruct (str_eqb_spec c code) as [->|]; cbn [andb]; [|lia]. destruct (Z.ltb_spec z 0); [|lia].
        apply (Hc [] id now z st sd ops eq_refl H p). exact Hd. }
      unfold set_avail in D2; cbn [ps_avail] in D2. lia.
  Qed.

  (** ** positions: keys of the maps *)
  Definition pos_ok (a : acct) : Prop := NoDup (dkeys (a_long a)) /\ NoDup (dkeys (a_short a)).
  Lemma add_positions_pos_ok l a : pos_ok a -> pos_ok (add_positions l a).
  Proof.
    revert a; induction l as [|p l IH]; intros a [H1 H2]; cbn [add_positions]; [split; assumption|].
    destruct (pos_of p) as [q|]; [|split; assumption]. apply IH.
    destruct (ps_side q); split; cbn [set_positions a_long a_short]; try assumption; apply NoDup_dset; assumption.
  Qed.

  Lemma view_same (d : dict str position) : NoDup (dkeys d) ->
    fold_left (fun v kv => dset (fst kv) (snd kv) v) d [] = d.
  Proof.
    intro H.
    assert (X : forall d1 d2 : dict str position, NoDup (dkeys (d2 ++ d1)) ->
                fold_left (fun v kv => dset (fst kv) (snd kv) v) d1 d2 = d2 ++ d1).
    { clear. induction d1 as [|[k v] d1 IH]; intros d2 H; cbn [fold_left fst snd]; [symmetry; apply app_nil_r|].
      assert (K : dset k v d2 = d2 ++ [(k, v)]).
      { assert (N : ~ In k (dkeys d2)).
        { unfold dkeys in *. rewrite map_app in H. cbn in H. apply NoDup_remove_2 in H. intro Q; apply H, in_or_app; auto. }
        clear - N. induction d2 as [|[k' v'] d2 IH]; cbn [dset app]; [reflexivity|]. cbn in N.
        destruct (eqb k k') eqn:E; [apply eqb_true in E; subst; tauto|].
        unfold dkeys in IH. rewrite IH by tauto. reflexivity. }
      rewrite K, IH by (rewrite <- app_assoc; exact H). rewrite <- app_assoc. reflexivity. }
    apply (X d []). exact H.
  Qed.
End Acc.
