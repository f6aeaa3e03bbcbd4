(** Proofs about time expressions (C13). *)
From Verif Require Import PyBase PyStr MTime MTimeExpr SExpr.
Open Scope Z_scope.

Definition no_pm (s : str) : Prop := Forall (fun c => is_pm c = false) s.

Lemma re_split_pm_none s : no_pm s -> re_split_pm s = [s].
Proof.
  induction 1 as [|a s Ha Hs IH]; cbn [re_split_pm]; [reflexivity|]. rewrite Ha, IH. reflexivity.
Qed.

Lemma re_split_pm_one a c b : no_pm a -> is_pm c = true -> no_pm b ->
  re_split_pm (a ++ c :: b) = [a; [c]; b].
Proof.
  intros Ha Hc Hb. induction Ha as [|x a Hx Ha IH]; cbn [app re_split_pm].
  - rewrite Hc, (re_split_pm_none b Hb). reflexivity.
  - rewrite Hx, IH. reflexivity.
Qed.

Lemma re_split_pm_nonempty s : re_split_pm s <> [].
Proof. destruct s as [|a s]; cbn; [discriminate|]. destruct (is_pm a); [discriminate|]. destruct (re_split_pm s); discriminate. Qed.

Lemma re_split_pm_inv1 s a : re_split_pm s = [a] -> a = s /\ no_pm s.
Proof.
  revert a; induction s as [|x s IH]; intros a; cbn [re_split_pm].
  - intros E; injection E as <-. split; [reflexivity|constructor].
  - destruct (is_pm x) eqn:Ex; [discriminate|].
    destruct (re_split_pm s) as [|w ws] eqn:E; [exfalso; eapply re_split_pm_nonempty; exact E|].
    intros H; injection H as <- Hws. destruct ws; [|discriminate].
    destruct (IH w eq_refl) as [-> Hn]. split; [reflexivity|constructor; assumption].
Qed.

Lemma re_split_pm_inv3 s a c b : re_split_pm s = [a; c; b] ->
  exists c0, c = [c0] /\ is_pm c0 = true /\ s = a ++ c0 :: b /\ no_pm a /\ no_pm b.
Proof.
  revert a; induction s as [|x s IH]; intros a; cbn [re_split_pm]; [discriminate|].
  destruct (is_pm x) eqn:Ex.
  - intros H; injection H as <- <- Hb. apply re_split_pm_inv1 in Hb. destruct Hb as [-> Hn].
    exists x. repeat split; try assumption. constructor.
  - destruct (re_split_pm s) as [|w ws] eqn:E; [exfalso; eapply re_split_pm_nonempty; exact E|].
    intros H; injection H as <- ->. destruct (IH w eq_refl) as (c0 & -> & H1 & -> & H3 & H4).
    exists c0. repeat split; try assumption. constructor; assumption.
Qed.

Lemma is_unit_spec u : is_unit u = true <-> unit_sec u <> None.
Proof.
  unfold is_unit, unit_sec.
  destruct (u =? 104)%N; [split; [discriminate|reflexivity]|].
  destruct (u =? 109)%N; [split; [discriminate|reflexivity]|].
  destruct (u =? 115)%N; split; try discriminate; try reflexivity; congruence.
Qed.

Lemma digit_not_unit c : is_digit c = true -> is_unit c = false.
Proof.
  unfold is_digit, is_unit. rewrite andb_true_iff, !N.leb_le. intros [H1 H2].
  destruct (N.eqb_spec c 104); [lia|]. destruct (N.eqb_spec c 109); [lia|]. destruct (N.eqb_spec c 115); [lia|reflexivity].
Qed.
Lemma digit_not_pm c : is_digit c = true -> is_pm c = false.
Proof.
  unfold is_digit, is_pm. rewrite andb_true_iff, !N.leb_le. intros [H1 H2].
  destruct (N.eqb_spec c 43); [lia|]. destruct (N.eqb_spec c 45); [lia|reflexivity].
Qed.
Lemma unit_not_pm c : is_unit c = true -> is_pm c = false.
Proof.
  unfold is_unit, is_pm. rewrite !orb_true_iff, !N.eqb_eq. intros H.
  destruct (N.eqb_spec c 43); [lia|]. destruct (N.eqb_spec c 45); [lia|reflexivity].
Qed.

(** value of a well-formed group, as match_groups reports it *)
Definition gval (g : group) : Z * N := (decimal (g_digits g), g_unit g).

Lemma take_group_ok g rest : group_wf g -> take_group (group_text g ++ rest) = Some (gval g, rest).
Proof.
  intros (Hlen & Hd & Hu). apply is_unit_spec in Hu. destruct g as [ds u]. cbn [g_digits g_unit] in *.
  unfold group_text, gval. cbn [g_digits g_unit].
  destruct Hlen as [Hlen|Hlen].
  - destruct ds as [|a [|b ds]]; cbn in Hlen; try lia. inversion Hd; subst.
    cbn [app take_group]. rewrite H1, Hu. unfold decimal; cbn [fold_left]. do 3 f_equal; lia.
  - destruct ds as [|a [|b [|c ds]]]; cbn in Hlen; try lia. inversion Hd as [|? ? Ha Hd']; subst. inversion Hd' as [|? ? Hb _]; subst.
    cbn [app take_group]. rewrite Ha, (digit_not_unit b Hb), Hb, Hu. cbn [andb].
    unfold decimal; cbn [fold_left]. do 3 f_equal; lia.
Qed.

Lemma take_group_inv s g rest : take_group s = Some (g, rest) ->
  exists gr, group_wf gr /\ s = group_text gr ++ rest /\ g = gval gr.
Proof.
  destruct s as [|a [|b s2]]; cbn [take_group]; try discriminate.
  destruct (is_digit a) eqn:Ea; [|discriminate].
  destruct (is_unit b) eqn:Eb.
  - intros H; injection H as <- <-. exists (Group [a] b). split; [|split].
    + split; [left; reflexivity|]. split; [constructor; [exact Ea|constructor]|apply is_unit_spec; exact Eb].
    + reflexivity.
    + unfold gval, decimal; cbn. f_equal; lia.
  - destruct s2 as [|c s3]; [discriminate|].
    destruct (is_digit b && is_unit c) eqn:E; [|discriminate]. apply andb_true_iff in E. destruct E as [E1 E2].
    intros H; injection H as <- <-. exists (Group [a; b] c). split; [|split].
    + split; [right; reflexivity|]. split; [repeat constructor; assumption|apply is_unit_spec; exact E2].
    + reflexivity.
    + unfold gval, decimal; cbn. f_equal; lia.
Qed.

Lemma group_text_head g : group_wf g -> exists c s, group_text g = c :: s /\ is_digit c = true /\ s <> [].
Proof.
  intros (Hlen & Hd & _). destruct g as [ds u]; unfold group_text; cbn [g_digits g_unit] in *.
  destruct ds as [|a ds]; [cbn in Hlen; lia|]. inversion Hd; subst.
  exists a, (ds ++ [u]). split; [reflexivity|]. split; [assumption|]. destruct ds; discriminate.
Qed.

Definition tail_ok (t : str) : Prop := t = [] \/ t = [10%N].

Lemma match_groups_ok gs : forall n t, (length gs <= n)%nat -> Forall group_wf gs -> tail_ok t ->
  match_groups n (offset_text gs ++ t) = Some (map gval gs).
Proof.
  induction gs as [|g gs IH]; intros n t Hn Hw Ht.
  - unfold offset_text; cbn [map concat app]. destruct n; destruct Ht as [-> | ->]; reflexivity.
  - inversion Hw as [|? ? Hg Hgs]; subst. destruct n as [|n]; [cbn in Hn; lia|]. cbn [length] in Hn.
    unfold offset_text; cbn [map concat]. rewrite <- app_assoc.
    fold (offset_text gs).
    cbn [match_groups].
    destruct (group_text_head g Hg) as (c & s & E & Hc & Hs).
    assert (En : (str_eqb (group_text g ++ offset_text gs ++ t) [] || str_eqb (group_text g ++ offset_text gs ++ t) [10%N]) = false).
    { rewrite E. cbn [app]. apply orb_false_iff. split; [reflexivity|].
      apply str_eqb_neq. intros Heq. injection Heq as -> Hnil. destruct s; [congruence|discriminate]. }
    rewrite En, (take_group_ok g _ Hg). rewrite IH by (try assumption; lia). reflexivity.
Qed.

Lemma match_groups_inv n : forall s gs, match_groups n s = Some gs ->
  exists grs t, Forall group_wf grs /\ tail_ok t /\ s = offset_text grs ++ t /\
    gs = map gval grs /\ (length grs <= n)%nat.
Proof.
  induction n as [|n IH]; intros s gs; cbn [match_groups].
  - destruct (str_eqb s [] || str_eqb s [10%N]) eqn:E; [|discriminate].
    intros H; injection H as <-. exists [], s. split; [constructor|]. split; [|repeat split; cbn; lia].
    apply orb_true_iff in E. destruct E as [E|E]; [left|right]; apply str_eqb_eq in E; exact E.
  - destruct (str_eqb s [] || str_eqb s [10%N]) eqn:E.
    + intros H; injection H as <-. exists [], s. split; [constructor|]. split; [|repeat split; cbn; lia].
      apply orb_true_iff in E. destruct E as [E|E]; [left|right]; apply str_eqb_eq in E; exact E.
    + destruct (take_group s) as [[g rest]|] eqn:Et; [|discriminate].
      destruct (match_groups n rest) as [gs'|] eqn:Em; [|discriminate]. cbn [option_map].
      intros H; injection H as <-.
      destruct (take_group_inv _ _ _ Et) as (gr & Hw & -> & ->).
      destruct (IH _ _ Em) as (grs & t & H1 & H2 & -> & -> & H5).
      exists (gr :: grs), t. repeat split.
      * constructor; assumption.
      * exact H2.
      * unfold offset_text; cbn [map concat]. rewrite <- app_assoc. reflexivity.
      * cbn; lia.
Qed.

(** value computed by _parse_offset: per unit, the last group wins *)
Definition last_wins (gs : list group) : Z :=
  let d := unit_dict (map gval gs) in
  dget0 104%N d * 3600 + dget0 109%N d * 60 + dget0 115%N d.

Lemma parse_offset_ok gs t : offset_wf gs -> tail_ok t ->
  parse_offset (offset_text gs ++ t) = Ok (last_wins gs * US).
Proof.
  intros [Hlen Hw] Ht. unfold parse_offset. rewrite (match_groups_ok gs 3 t) by (try assumption; lia).
  destruct gs as [|g gs]; [cbn in Hlen; lia|]. reflexivity.
Qed.

Lemma parse_offset_inv s v : parse_offset s = Ok v ->
  exists gs t, offset_wf gs /\ tail_ok t /\ s = offset_text gs ++ t /\ v = last_wins gs * US.
Proof.
  unfold parse_offset. destruct (match_groups 3 s) as [[|g0 gs0]|] eqn:E; try discriminate.
  intros H; injection H as <-.
  destruct (match_groups_inv _ _ _ E) as (grs & t & H1 & H2 & H3 & H4 & H5).
  exists grs, t. repeat split; try assumption.
  - destruct grs; [discriminate|cbn; lia].
  - unfold last_wins. rewrite <- H4. reflexivity.
Qed.

Lemma parse_offset_err s x : parse_offset s = Err x -> x = InvalidParam.
Proof. unfold parse_offset. destruct (match_groups 3 s) as [[|g gs]|]; congruence. Qed.

Lemma unit_cases u : unit_sec u <> None -> u = 104%N \/ u = 109%N \/ u = 115%N.
Proof.
  unfold unit_sec. destruct (N.eqb_spec u 104); [auto|]. destruct (N.eqb_spec u 109); [auto|].
  destruct (N.eqb_spec u 115); [auto|congruence].
Qed.

Lemma last_wins_distinct gs : offset_wf gs -> NoDup (map g_unit gs) -> last_wins gs = offset_sec gs.
Proof.
  intros [Hlen Hw] Hnd.
  assert (Hu : Forall (fun g => g_unit g = 104%N \/ g_unit g = 109%N \/ g_unit g = 115%N) gs).
  { eapply Forall_impl; [|exact Hw]. intros g (_ & _ & H). apply unit_cases; exact H. }
  clear Hw.
  assert (Hne : forall x : N, ~ In x [] ) by (intros x []).
  destruct gs as [|[d1 u1] [|[d2 u2] [|[d3 u3] [|g4 gs]]]]; cbn [length] in Hlen; try lia.
  - inversion Hu as [|? ? H1 _]; subst. cbn [g_unit] in H1.
    unfold last_wins, offset_sec, group_sec, gval; cbn [map fold_right g_unit g_digits].
    destruct H1 as [->|[->| ->]]; cbn [unit_sec N.eqb Pos.eqb unit_dict fold_left dset dget0 dget snd fst eqb Eqb_N]; lia.
  - inversion Hu as [|? ? H1 Hu']; subst. inversion Hu' as [|? ? H2 _]; subst. cbn [g_unit] in *.
    cbn [map g_unit] in Hnd. inversion Hnd as [|? ? N1 Hnd']; subst.
    unfold last_wins, offset_sec, group_sec, gval; cbn [map fold_right g_unit g_digits].
    destruct H1 as [->|[->| ->]]; destruct H2 as [->|[->| ->]];
      try (exfalso; apply N1; left; reflexivity);
      cbn [unit_sec N.eqb Pos.eqb unit_dict fold_left dset dget0 dget snd fst eqb Eqb_N]; lia.
  - inversion Hu as [|? ? H1 Hu']; subst. inversion Hu' as [|? ? H2 Hu'']; subst. inversion Hu'' as [|? ? H3 _]; subst.
    cbn [g_unit] in *. cbn [map g_unit] in Hnd. inversion Hnd as [|? ? N1 Hnd']; subst. inversion Hnd' as [|? ? N2 _]; subst.
    unfold last_wins, offset_sec, group_sec, gval; cbn [map fold_right g_unit g_digits].
    destruct H1 as [->|[->| ->]]; destruct H2 as [->|[->| ->]];
      try (exfalso; apply N1; left; reflexivity);
      destruct H3 as [->|[->| ->]];
      try (exfalso; apply N1; right; left; reflexivity);
      try (exfalso; apply N2; left; reflexivity);
      cbn [unit_sec N.eqb Pos.eqb unit_dict fold_left dset dget0 dget snd fst eqb Eqb_N]; lia.
Qed.

Lemma offset_no_pm gs : Forall group_wf gs -> no_pm (offset_text gs).
Proof.
  induction 1 as [|g gs Hg Hgs IH]; unfold offset_text; cbn [map concat]; [constructor|].
  apply Forall_app. split; [|exact IH]. destruct Hg as (_ & Hd & Hu). unfold group_text. apply Forall_app. split.
  - eapply Forall_impl; [|exact Hd]. intros c; apply digit_not_pm.
  - constructor; [apply unit_not_pm, is_unit_spec; exact Hu|constructor].
Qed.

Lemma tail_no_pm t : tail_ok t -> no_pm t.
Proof. intros [-> | ->]; repeat constructor. Qed.

Lemma base_no_pm opn cls b v : base_is opn cls b v -> no_pm b.
Proof. intros [|]; cbn; repeat (constructor; [reflexivity|]); constructor. Qed.

Lemma base_value mp p0 b v : base_is (opening (p0 :: mp)) (closing (p0 :: mp)) b v ->
  (if str_eqb b (lit "open") then Ok (fst p0)
   else if str_eqb b (lit "close") then Ok (snd (last (p0 :: mp) p0)) else Err KeyError) = Ok v.
Proof. intros [|]; reflexivity. Qed.

(** exact behaviour on "base sign groups [newline]" *)
Lemma expr_off_ok mp b v gs t plus : mp <> [] -> base_is (opening mp) (closing mp) b v ->
  offset_wf gs -> tail_ok t ->
  expr_to_time mp (b ++ lit (if plus : bool then "+" else "-") ++ offset_text gs ++ t) =
  Ok (if plus then v + last_wins gs * US else v - last_wins gs * US).
Proof.
  intros Hmp Hb Hgs Ht. destruct mp as [|p0 mp]; [congruence|].
  unfold expr_to_time, parse_expr.
  assert (E : re_split_pm (b ++ lit (if plus then "+" else "-") ++ offset_text gs ++ t) =
              [b; lit (if plus then "+" else "-"); offset_text gs ++ t]).
  { assert (Hn : no_pm (offset_text gs ++ t)).
    { apply Forall_app; split; [apply offset_no_pm, Hgs|apply tail_no_pm, Ht]. }
    destruct plus; apply re_split_pm_one; try assumption; try reflexivity; eapply base_no_pm; exact Hb. }
  rewrite E, (parse_offset_ok gs t Hgs Ht). cbn [rbind].
  rewrite (base_value mp p0 b v Hb). cbn [rbind]. destruct plus; reflexivity.
Qed.

Lemma expr_base_ok mp b v : mp <> [] -> base_is (opening mp) (closing mp) b v -> expr_to_time mp b = Ok v.
Proof.
  intros Hmp Hb. destruct mp as [|p0 mp]; [congruence|].
  unfold expr_to_time, parse_expr. rewrite (re_split_pm_none b) by (eapply base_no_pm; exact Hb).
  assert (Ha : allowed_base b = true) by (destruct Hb; reflexivity). rewrite Ha. cbn [rbind].
  rewrite (base_value mp p0 b v Hb). cbn [rbind]. f_equal. cbn. lia.
Qed.

(** C13, first half *)
Lemma expr_sound mp s v : mp <> [] -> denotes_distinct (opening mp) (closing mp) s v -> expr_to_time mp s = Ok v.
Proof.
  intros Hmp Hd. inversion Hd as [b v0 Hb|b v0 gs plus Hb Hgs Hnd]; subst.
  - apply expr_base_ok; assumption.
  - pose proof (expr_off_ok mp b v0 gs [] plus Hmp Hb Hgs (or_introl eq_refl)) as E.
    rewrite app_nil_r in E. rewrite E, last_wins_distinct by assumption. reflexivity.
Qed.

(** C13, second half: what is accepted has the documented form (up to one final
    newline), and the value is that of the form when no unit is repeated *)
Lemma expr_complete mp s v : expr_to_time mp s = Ok v ->
  exists s0 v0, (s = s0 \/ s = s0 ++ [10%N]) /\ denotes (opening mp) (closing mp) s0 v0 /\
    (forall v1, denotes_distinct (opening mp) (closing mp) s0 v1 -> v = v1).
Proof.
  intros He. destruct mp as [|p0 mp]; [discriminate|].
  assert (Hmp : p0 :: mp <> []) by discriminate.
  pose proof He as He0. unfold expr_to_time, parse_expr in He.
  destruct (re_split_pm s) as [|a [|c [|b [|x l]]]] eqn:E; try discriminate.
  - destruct (allowed_base a) eqn:Ea; [|discriminate]. cbn [rbind] in He.
    apply re_split_pm_inv1 in E. destruct E as [-> _].
    unfold allowed_base in Ea. apply orb_true_iff in Ea.
    destruct Ea as [Ea|Ea]; apply str_eqb_eq in Ea; subst s.
    + exists (lit "open"), (opening (p0 :: mp)). split; [left; reflexivity|]. split.
      * constructor; constructor.
      * intros v1 Hd. apply expr_sound in Hd; [|exact Hmp]. congruence.
    + exists (lit "close"), (closing (p0 :: mp)). split; [left; reflexivity|]. split.
      * constructor; constructor.
      * intros v1 Hd. apply expr_sound in Hd; [|exact Hmp]. congruence.
  - destruct (parse_offset b) as [o|] eqn:Eo; [|discriminate]. cbn [rbind] in He.
    apply re_split_pm_inv3 in E. destruct E as (c0 & -> & Hc & -> & Ha & Hb).
    destruct (parse_offset_inv _ _ Eo) as (gs & t & Hgs & Ht & -> & ->).
    assert (Hbase : exists vb, base_is (opening (p0 :: mp)) (closing (p0 :: mp)) a vb).
    { destruct (str_eqb a (lit "open")) eqn:E1.
      - apply str_eqb_eq in E1. subst a. eexists; constructor.
      - destruct (str_eqb a (lit "close")) eqn:E2; [|discriminate].
        apply str_eqb_eq in E2. subst a. eexists; constructor. }
    destruct Hbase as [vb Hbase].
    assert (Hc' : exists plus : bool, c0 :: offset_text gs ++ t = lit (if plus then "+" else "-") ++ offset_text gs ++ t).
    { unfold is_pm in Hc. apply orb_true_iff in Hc. destruct Hc as [Hc|Hc]; apply N.eqb_eq in Hc; subst c0.
      - exists true; reflexivity.
      - exists false; reflexivity. }
    destruct Hc' as [plus Hc'].
    exists (a ++ lit (if plus then "+" else "-") ++ offset_text gs).
    exists (if plus then vb + offset_sec gs * US else vb - offset_sec gs * US).
    rewrite Hc' in He0 |- *. pose proof (expr_off_ok (p0 :: mp) a vb gs t plus Hmp Hbase Hgs Ht) as Ev.
    split; [|split].
    + destruct Ht as [-> | ->]; [left; rewrite app_nil_r; reflexivity|right; rewrite <- !app_assoc; reflexivity].
    + destruct plus; constructor; assumption.
    + intros v1 Hd. apply expr_sound in Hd; [|exact Hmp].
      pose proof (expr_off_ok (p0 :: mp) a vb gs [] plus Hmp Hbase Hgs (or_introl eq_refl)) as Ev0.
      rewrite app_nil_r in Ev0. rewrite Ev in He0. rewrite Ev0 in Hd.
      injection He0 as <-. injection Hd as <-. reflexivity.
Qed.

(** C13: everything else raises; the exception is InvalidParam unless the base of a
    well-formed offset is unknown (KeyError) *)
Lemma expr_err mp s x : mp <> [] -> expr_to_time mp s = Err x ->
  x = InvalidParam \/
  (x = KeyError /\ exists a c b, re_split_pm s = [a; c; b] /\ a <> lit "open" /\ a <> lit "close").
Proof.
  intros Hmp He. destruct mp as [|p0 mp]; [congruence|].
  unfold expr_to_time, parse_expr in He.
  destruct (re_split_pm s) as [|a [|c [|b [|x0 l]]]] eqn:E; try (left; cbn [rbind] in He; congruence).
  - destruct (allowed_base a) eqn:Ea; [|left; cbn [rbind] in He; congruence]. cbn [rbind] in He.
    unfold allowed_base in Ea. destruct (str_eqb a (lit "open")); [discriminate|].
    cbn [orb] in Ea. rewrite Ea in He. discriminate.
  - destruct (parse_offset b) as [o|y] eqn:Eo.
    + cbn [rbind] in He. destruct (str_eqb a (lit "open")) eqn:E1; [discriminate|].
      destruct (str_eqb a (lit "close")) eqn:E2; [discriminate|]. cbn [rbind] in He.
      right. split; [congruence|]. exists a, c, b. split; [reflexivity|].
      split; intros ->; discriminate.
    + left. cbn [rbind] in He. apply parse_offset_err in Eo. congruence.
Qed.

(** bounds used for termination (C11) *)
Definition OFFMAX : Z := (99 * 3600 + 99 * 60 + 99) * US.

Lemma decimal_bound g : group_wf g -> 0 <= decimal (g_digits g) <= 99.
Proof.
  intros (Hlen & Hd & _).
  assert (Hv : Forall (fun c => 0 <= digit_val c <= 9) (g_digits g)).
  { eapply Forall_impl; [|exact Hd]. intros c. unfold is_digit, digit_val. rewrite andb_true_iff, !N.leb_le. lia. }
  destruct (g_digits g) as [|a [|b [|c l]]]; cbn in Hlen; try lia; unfold decimal; cbn [fold_left].
  - inversion Hv; subst; lia.
  - inversion Hv as [|? ? H1 Hv']; subst. inversion Hv'; subst; lia.
Qed.

Lemma unit_dict_bound gs u : Forall group_wf gs -> 0 <= dget0 u (unit_dict (map gval gs)) <= 99.
Proof.
  intros Hw. unfold unit_dict.
  assert (H : forall d, (forall k, 0 <= dget0 k d <= 99) ->
    forall k, 0 <= dget0 k (fold_left (fun d g => dset (snd g) (fst g) d) (map gval gs) d) <= 99).
  { induction Hw as [|g gs Hg Hgs IH]; intros d Hd k; cbn [map fold_left]; [apply Hd|].
    apply IH. intros k'. unfold dget0. rewrite dget_dset. cbn [gval fst snd].
    destruct (eqb k' (g_unit g)); [apply decimal_bound; exact Hg|apply Hd]. }
  apply H. intros k. unfold dget0; cbn. lia.
Qed.

Lemma parse_offset_bound s v : parse_offset s = Ok v -> 0 <= v <= OFFMAX.
Proof.
  intros H. destruct (parse_offset_inv _ _ H) as (gs & t & [_ Hw] & _ & _ & ->).
  unfold last_wins, OFFMAX, US.
  pose proof (unit_dict_bound gs 104%N Hw). pose proof (unit_dict_bound gs 109%N Hw). pose proof (unit_dict_bound gs 115%N Hw).
  cbn zeta. lia.
Qed.

Definition times_ok (mp : periods) : Prop := Forall (fun p => 0 <= fst p < DAY /\ 0 <= snd p < DAY) mp.

Lemma mk_time_bound h m s v : mk_time h m s = Ok v -> 0 <= v < DAY.
Proof.
  unfold mk_time. destruct (_ && _) eqn:E; [|discriminate]. intros H; injection H as <-.
  rewrite !andb_true_iff in E. unfold US, DAY. lia.
Qed.

Lemma clock_time_bound s v : clock_time s = Ok v -> 0 <= v < DAY.
Proof.
  unfold clock_time. destruct (split_on 58%N s) as [|h [|m rest]]; try discriminate.
  destruct (py_int h); [|discriminate]. destruct (py_int m); [|discriminate].
  destruct (match rest with [] => Some 0 | s0 :: _ => py_int s0 end); [|discriminate]. apply mk_time_bound.
Qed.

Lemma last_in {A} (l : list A) : forall x q, In (last (x :: l) q) (x :: l).
Proof.
  induction l as [|a l IH]; intros x q; [left; reflexivity|]. right. apply (IH a q).
Qed.

Lemma expr_offset_bound mp s v : times_ok mp -> expr_offset mp s = Ok v -> - OFFMAX <= v < DAY + OFFMAX.
Proof.
  intros Hmp. unfold expr_offset. destruct (has_char 58%N s).
  - intros H; apply clock_time_bound in H. unfold OFFMAX, US; lia.
  - destruct mp as [|p0 mp]; [discriminate|]. unfold expr_to_time.
    destruct (parse_expr s) as [[[b op] o]|] eqn:E; [|discriminate]. cbn [rbind].
    assert (Ho : 0 <= o <= OFFMAX).
    { unfold parse_expr in E. destruct (re_split_pm s) as [|a [|c [|d [|x l]]]]; try discriminate.
      - destruct (allowed_base a); [|discriminate]. injection E as _ _ <-. unfold OFFMAX, US; lia.
      - destruct (parse_offset d) as [o'|] eqn:Eo; [|discriminate]. cbn in E. injection E as _ _ <-.
        eapply parse_offset_bound; exact Eo. }
    assert (Hp0 : 0 <= fst p0 < DAY) by (inversion Hmp; tauto).
    assert (Hpl : 0 <= snd (last (p0 :: mp) p0) < DAY).
    { assert (Hin : In (last (p0 :: mp) p0) (p0 :: mp)).
      { apply last_in. }
      unfold times_ok in Hmp. rewrite Forall_forall in Hmp. apply Hmp in Hin. tauto. }
    destruct (str_eqb b (lit "open")); [|destruct (str_eqb b (lit "close")); [|discriminate]]; cbn [rbind];
      intros H; apply Ok_inj in H; subst v; destruct (str_eqb op (lit "+")); lia.
Qed.

(** C13, deviations *)
Definition mp_ex : periods := [(34200 * US, 54000 * US)].

Lemma repeated_unit_witness :
  exists mp s v v', mp <> [] /\ denotes (opening mp) (closing mp) s v /\ expr_to_time mp s = Ok v' /\ v' <> v.
Proof.
  exists mp_ex, (lit "open+1h1h"), (34200 * US + offset_sec [Group (lit "1") 104; Group (lit "1") 104] * US), (34200 * US + 3600 * US).
  split; [discriminate|]. split; [|split; [reflexivity|vm_compute; discriminate]].
  change (lit "open+1h1h") with (lit "open" ++ lit "+" ++ offset_text [Group (lit "1") 104; Group (lit "1") 104]).
  apply den_plus; [constructor|]. split; [cbn; lia|].
  repeat constructor; try discriminate; left; reflexivity.
Qed.

Lemma offset_text_last gs : Forall group_wf gs -> gs <> [] ->
  exists s u, offset_text gs = s ++ [u] /\ unit_sec u <> None.
Proof.
  intros Hw Hne. destruct (exists_last Hne) as (gs' & g & ->).
  apply Forall_app in Hw. destruct Hw as [_ Hg]. inversion Hg as [|? ? (_ & _ & Hu) _]; subst.
  exists (offset_text gs' ++ g_digits g), (g_unit g). split; [|exact Hu].
  unfold offset_text. rewrite map_app, concat_app. cbn [map concat]. rewrite app_nil_r.
  unfold group_text. rewrite app_assoc. reflexivity.
Qed.

Lemma denotes_last opn cls s v : denotes opn cls s v -> exists s' u, s = s' ++ [u] /\ u <> 10%N.
Proof.
  assert (Hoff : forall b c gs, offset_wf gs -> exists s' u, b ++ c ++ offset_text gs = s' ++ [u] /\ u <> 10%N).
  { intros b c gs [Hl Hw]. destruct (offset_text_last gs Hw) as (s' & u & E & Hu); [destruct gs; [cbn in Hl; lia|discriminate]|].
    exists (b ++ c ++ s'), u. rewrite E. rewrite <- !app_assoc. split; [reflexivity|]. intros ->. apply Hu; reflexivity. }
  intros [b v0 [|]|b v0 gs _ Hg|b v0 gs _ Hg].
  - exists (lit "ope"), 110%N. split; [reflexivity|discriminate].
  - exists (lit "clos"), 101%N. split; [reflexivity|discriminate].
  - apply Hoff; exact Hg.
  - apply Hoff; exact Hg.
Qed.

Lemma newline_witness :
  exists mp s v, mp <> [] /\ expr_to_time mp s = Ok v /\ forall v', ~ denotes (opening mp) (closing mp) s v'.
Proof.
  exists mp_ex, (lit "open+1h" ++ [10%N]), (34200 * US + 3600 * US).
  split; [discriminate|]. split; [reflexivity|]. intros v' Hd.
  apply denotes_last in Hd. destruct Hd as (s' & u & E & Hu). apply app_inj_tail in E. destruct E; congruence.
Qed.

Lemma denotes_head opn cls s v : denotes opn cls s v ->
  exists c s', s = c :: s' /\ (c = 111%N \/ c = 99%N).
Proof.
  assert (H : forall b v t, base_is opn cls b v -> exists c s', b ++ t = c :: s' /\ (c = 111%N \/ c = 99%N)).
  { intros b v0 t [|]; eexists _, _; (split; [reflexivity|]); auto. }
  intros [b v0 Hb|b v0 gs Hb _|b v0 gs Hb _]; [|eapply H; exact Hb|eapply H; exact Hb].
  destruct (H b v0 [] Hb) as (c & s' & E & Hc). rewrite app_nil_r in E. eauto.
Qed.

Lemma unknown_base_witness :
  exists mp s, mp <> [] /\ expr_to_time mp s = Err KeyError /\ forall v, ~ denotes (opening mp) (closing mp) s v.
Proof.
  exists mp_ex, (lit "foo+1h"). split; [discriminate|]. split; [reflexivity|]. intros v Hd.
  apply denotes_head in Hd. destruct Hd as (c & s' & E & [-> | ->]); discriminate.
Qed.
