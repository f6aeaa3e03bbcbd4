(** Proofs about the time texts of schedules (C126). *)
From Verif Require Import PyBase PyStr MTime MTimeExpr SExpr SWhen LStr LTimeExpr.
Open Scope list_scope.
Open Scope Z_scope.

(** ** int() *)
Lemma blank_iff c : is_int_space c = true <-> blank c.
Proof.
  unfold is_int_space, is_space, blank.
  rewrite andb_true_iff, !orb_true_iff, !andb_true_iff, negb_true_iff, andb_false_iff, !N.leb_le, !N.eqb_eq, !N.leb_gt. lia.
Qed.

Lemma drop_split f (s : str) : exists a, s = a ++ drop_while f s /\ Forall (fun c => f c = true) a /\
  match drop_while f s with [] => True | c :: _ => f c = false end.
Proof.
  induction s as [|c s (a & E & Ha & Hh)]; cbn [drop_while]; [exists []; repeat split; constructor|].
  destruct (f c) eqn:Ec; [|exists []; repeat split; [constructor|exact Ec]].
  exists (c :: a). split; [cbn [app]; rewrite <- E; reflexivity|]. split; [constructor; assumption|exact Hh].
Qed.

Lemma drop_blank a s : Forall (fun c => is_int_space c = true) a -> (forall c, hd_error s = Some c -> is_int_space c = false) ->
  drop_while is_int_space (a ++ s) = s.
Proof.
  intros Ha Hs. induction Ha as [|c a Hc Ha IH]; cbn [app drop_while].
  - destruct s as [|c s]; [reflexivity|]. cbn [drop_while]. rewrite (Hs c eq_refl). reflexivity.
  - rewrite Hc. exact IH.
Qed.

Lemma int_strip_split s : exists a b, s = a ++ int_strip s ++ b /\ Forall blank a /\ Forall blank b.
Proof.
  unfold int_strip. destruct (drop_split is_int_space s) as (a & Ea & Ha & _).
  destruct (drop_split is_int_space (rev (drop_while is_int_space s))) as (b & Eb & Hb & _).
  exists a, (rev b). split; [|split].
  - rewrite Ea at 1. f_equal. rewrite <- rev_app_distr, <- Eb, rev_involutive. reflexivity.
  - eapply Forall_impl; [|exact Ha]. intros c; apply blank_iff.
  - apply Forall_rev. eapply Forall_impl; [|exact Hb]. intros c; apply blank_iff.
Qed.

Lemma int_strip_mid a s b : Forall blank a -> Forall blank b -> (forall c, hd_error s = Some c -> is_int_space c = false) ->
  (forall c, hd_error (rev s) = Some c -> is_int_space c = false) -> s <> [] -> int_strip (a ++ s ++ b) = s.
Proof.
  intros Ha Hb H1 H2 Hne. unfold int_strip.
  assert (Ba : forall l, Forall blank l -> Forall (fun c => is_int_space c = true) l) by (intros l Hl; eapply Forall_impl; [|exact Hl]; intros c; apply blank_iff).
  rewrite (drop_blank a (s ++ b)) by (first [solve [auto]|destruct s; [congruence|exact H1]]).
  rewrite rev_app_distr, drop_blank; [apply rev_involutive|apply Ba, Forall_rev, Hb|exact H2].
Qed.

Lemma digits_us_body s d : digits_us s d -> forall acc us, int_body acc us s = Some (dec_value acc d).
Proof.
  induction 1 as [ds Hne Hd|ds s r Hne Hd Hs IH]; intros acc us; [apply int_body_digits; assumption|].
  assert (G : forall ds acc us, ds <> [] -> Forall (fun c => is_digit c = true) ds ->
    int_body acc us (ds ++ lit "_" ++ s) = int_body (dec_value acc ds) true (lit "_" ++ s)).
  { clear -s. induction ds as [|c ds IHd]; intros acc us Hne Hd; [congruence|]. inversion Hd as [|? ? Hc Hd']; subst.
    cbn [app int_body dec_value fold_left]. rewrite Hc. destruct ds as [|c' ds]; [reflexivity|]. apply IHd; [discriminate|exact Hd']. }
  rewrite G by assumption. change (lit "_" ++ s) with (95%N :: s). cbn [int_body].
  change (is_digit 95) with false. cbn match. change ((95 =? 95)%N && true) with true. cbn match.
  assert (Hh : exists c s', s = c :: s' /\ is_digit c = true).
  { clear -Hs. destruct Hs as [ds Hne Hd|ds s r Hne Hd _]; (destruct ds as [|c ds]; [congruence|]); inversion Hd; subst; cbn [app]; eauto. }
  destruct Hh as (c & s' & -> & Hc). rewrite Hc, IH. unfold dec_value. rewrite fold_left_app. reflexivity.
Qed.

Lemma int_body_us n : forall s acc us v, (length s <= n)%nat -> int_body acc us s = Some v ->
  (s = [] /\ us = true /\ v = acc) \/ (exists d, digits_us s d /\ v = dec_value acc d) \/
  (exists s' d, us = true /\ s = lit "_" ++ s' /\ digits_us s' d /\ v = dec_value acc d).
Proof.
  induction n as [|n IH]; intros s acc us v Hl H; destruct s as [|c s]; cbn [length] in Hl; try lia; cbn [int_body] in H.
  - destruct us; [|discriminate]. injection H as <-. left. auto.
  - destruct us; [|discriminate]. injection H as <-. left. auto.
  - destruct (is_digit c) eqn:Ec.
    + right. left. destruct (IH s _ _ _ ltac:(lia) H) as [(-> & _ & ->)|[(d & Hd & ->)|(s' & d & _ & -> & Hd & ->)]].
      * exists [c]. split; [apply du_last; [discriminate|repeat constructor; exact Ec]|reflexivity].
      * exists (c :: d). split; [|reflexivity]. destruct Hd as [ds Hne Hd|ds s r Hne Hd Hs].
        -- apply du_last; [discriminate|constructor; assumption].
        -- change (c :: ds ++ lit "_" ++ s) with ((c :: ds) ++ lit "_" ++ s). change (c :: ds ++ r) with ((c :: ds) ++ r).
           apply du_more; [discriminate|constructor; assumption|exact Hs].
      * exists ([c] ++ d). split; [|reflexivity]. apply (du_more [c]); [discriminate|repeat constructor; exact Ec|exact Hd].
    + destruct ((c =? 95)%N && us) eqn:Eu; [|discriminate]. apply andb_true_iff in Eu as [E1 ->]. apply N.eqb_eq in E1. subst c.
      destruct s as [|x s]; [discriminate|]. destruct (is_digit x) eqn:Ex; [|discriminate].
      destruct (IH (x :: s) _ _ _ ltac:(lia) H) as [(X & _)|[(d & Hd & ->)|(s' & d & X & _)]]; try discriminate.
      right. right. exists (x :: s), d. auto.
Qed.

Lemma int_body_iff s v : int_body 0 false s = Some v <-> exists d, digits_us s d /\ v = decimal d.
Proof.
  split.
  - intros H. destruct (int_body_us _ s 0 false v (le_n _) H) as [(_ & X & _)|[H'|(s' & d & X & _)]]; try discriminate. exact H'.
  - intros (d & Hd & ->). apply digits_us_body, Hd.
Qed.

Lemma us_ends s d : digits_us s d -> (exists c s', s = c :: s' /\ is_digit c = true) /\ (exists c s', rev s = c :: s' /\ is_digit c = true).
Proof.
  induction 1 as [ds Hne Hd|ds s r Hne Hd Hs [IH1 (c & s' & IH2 & Hc)]].
  - split.
    + destruct Hd as [|c ds Hc _]; [congruence|eauto].
    + apply Forall_rev in Hd. destruct (rev ds) as [|c l] eqn:E; [exfalso; apply Hne; rewrite <- (rev_involutive ds), E; reflexivity|].
      inversion Hd; subst. eauto.
  - split; [destruct Hd as [|c0 ds Hc0 _]; [congruence|cbn [app]; eauto]|].
    rewrite !rev_app_distr, IH2. cbn [app]. eauto.
Qed.

(** what int() accepts, and the number it is *)
Lemma py_int_iff s v : py_int s = Some v <-> int_text s v.
Proof.
  split.
  - intros H. destruct (int_strip_split s) as (a & b & E & Ha & Hb). unfold py_int in H. rewrite E. destruct (int_strip s) as [|c r]; [discriminate|].
    destruct (N.eqb_spec c 43) as [->|N1].
    { apply int_body_iff in H as (d & Hd & ->). apply (int_plus a r d b (lit "+")); auto. }
    destruct (N.eqb_spec c 45) as [->|N2].
    { destruct (int_body 0 false r) as [w|] eqn:Ew; [|discriminate]. injection H as <-. apply int_body_iff in Ew as (d & Hd & ->). apply (int_minus a r d b); auto. }
    apply int_body_iff in H as (d & Hd & ->). apply (int_plus a (c :: r) d b []); auto.
  - intros H. destruct H as [a s d b sg Ha Hb Hd Hsg|a s d b Ha Hb Hd].
    + destruct (us_ends s d Hd) as [(c & s' & E1 & Hc) (c' & s'' & E2 & Hc')]. rewrite (app_assoc sg s b).
      unfold py_int. rewrite int_strip_mid; try assumption.
      * destruct Hsg as [-> | ->]; cbn [app].
        -- rewrite E1. destruct (N.eqb_spec c 43) as [->|]; [discriminate|]. destruct (N.eqb_spec c 45) as [->|]; [discriminate|]. rewrite <- E1. apply int_body_iff. eauto.
        -- change (lit "+" ++ s) with (43%N :: s). cbn match. change (43 =? 43)%N with true. cbn match. apply int_body_iff. eauto.
      * intros x Hx. destruct Hsg as [-> | ->]; [cbn [app] in Hx; rewrite E1 in Hx; injection Hx as <-; apply digit_not_int_space, Hc|injection Hx as <-; reflexivity].
      * intros x Hx. rewrite rev_app_distr, E2 in Hx. injection Hx as <-. apply digit_not_int_space, Hc'.
      * rewrite E1. destruct sg; discriminate.
    + destruct (us_ends s d Hd) as [(c & s' & E1 & Hc) (c' & s'' & E2 & Hc')]. rewrite (app_assoc (lit "-") s b).
      unfold py_int. rewrite int_strip_mid; try assumption.
      * change (lit "-" ++ s) with (45%N :: s). cbn match. change (45 =? 43)%N with false. change (45 =? 45)%N with true. cbn match.
        assert (E : int_body 0 false s = Some (decimal d)) by (apply int_body_iff; eauto). rewrite E. reflexivity.
      * intros x Hx. injection Hx as <-. reflexivity.
      * intros x Hx. rewrite rev_app_distr, E2 in Hx. injection Hx as <-. apply digit_not_int_space, Hc'.
      * discriminate.
Qed.

(** ** offsets *)
Lemma dget0_fold u gs : forall d v, (forall k, dget0 k d = if (k =? u)%N then v else dget0 k d) ->
  dget0 u (fold_left (fun d g => dset (snd g) (fst g) d) (map gval gs) d) = last_of u gs v.
Proof.
  induction gs as [|g gs IH]; intros d v Hd; cbn [map fold_left last_of].
  - specialize (Hd u). rewrite N.eqb_refl in Hd. exact Hd.
  - apply IH. intros k. unfold dget0. rewrite !dget_dset. cbn [gval fst snd]. change (@eqb N Eqb_N) with N.eqb.
    destruct (N.eqb_spec k u) as [->|Nk]; [|reflexivity]. rewrite (N.eqb_sym u). destruct (N.eqb_spec (g_unit g) u) as [Eu|Nu]; [reflexivity|].
    specialize (Hd u). rewrite N.eqb_refl in Hd. exact Hd.
Qed.
Lemma last_wins_sec gs : last_wins gs = last_sec gs.
Proof.
  unfold last_wins, last_sec, unit_dict. cbn zeta.
  rewrite !(dget0_fold _ gs [] 0) by (intros k; destruct (_ =? _)%N; reflexivity). reflexivity.
Qed.

Lemma expr_inv mp s v : expr_to_time mp s = Ok v ->
  base_is (opening mp) (closing mp) s v \/
  exists b w gs plus nl, base_is (opening mp) (closing mp) b w /\ offset_wf gs /\ tail_ok nl /\
    s = b ++ lit (if plus : bool then "+" else "-") ++ offset_text gs ++ nl /\
    v = (if plus then w + last_sec gs * US else w - last_sec gs * US).
Proof.
  intros He. destruct mp as [|p0 mp]; [discriminate|].
  assert (Hmp : p0 :: mp <> []) by discriminate.
  pose proof He as He0. unfold expr_to_time, parse_expr in He.
  destruct (re_split_pm s) as [|a [|c [|b [|x l]]]] eqn:E; try discriminate.
  - left. destruct (allowed_base a) eqn:Ea; [|discriminate]. cbn [rbind] in He.
    apply re_split_pm_inv1 in E. destruct E as [-> _].
    unfold allowed_base in Ea. apply orb_true_iff in Ea.
    destruct Ea as [Ea|Ea]; apply str_eqb_eq in Ea; subst s.
    + rewrite (expr_base_ok _ (lit "open") _ Hmp (base_open _ _)) in He0. apply (f_equal (fun r => match r with Ok z => z | Err _ => 0 end)) in He0. subst v. constructor.
    + rewrite (expr_base_ok _ (lit "close") _ Hmp (base_close _ _)) in He0. apply (f_equal (fun r => match r with Ok z => z | Err _ => 0 end)) in He0. subst v. constructor.
  - right. destruct (parse_offset b) as [o|] eqn:Eo; [|discriminate]. cbn [rbind] in He.
    apply re_split_pm_inv3 in E. destruct E as (c0 & -> & Hc & -> & Ha & Hb).
    destruct (parse_offset_inv _ _ Eo) as (gs & t & Hgs & Ht & -> & ->).
    assert (Hbase : exists vb, base_is (opening (p0 :: mp)) (closing (p0 :: mp)) a vb).
    { destruct (str_eqb a (lit "open")) eqn:E1.
      - apply str_eqb_eq in E1. subst a. eexists; constructor.
      - destruct (str_eqb a (lit "close")) eqn:E2; [|discriminate].
        apply str_eqb_eq in E2. subst a. eexists; constructor. }
    destruct Hbase as [vb Hbase].
    assert (Hc' : exists plus : bool, c0 :: offset_text gs ++ t = lit (if plus then "+" else "-") ++ offset_text gs ++ t).
    { unfold is_pm in Hc. apply orb_true_iff in Hc. destruct Hc as [Hc|Hc]; apply N.eqb_eq in Hc; subst c0.
      - exists true; reflexivity.
      - exists false; reflexivity. }
    destruct Hc' as [plus Hc']. exists a, vb, gs, plus, t. rewrite Hc' in He0 |- *.
    rewrite (expr_off_ok (p0 :: mp) a vb gs t plus Hmp Hbase Hgs Ht), last_wins_sec in He0.
    apply (f_equal (fun r => match r with Ok z => z | Err _ => 0 end)) in He0. auto.
Qed.

(** ** clock times *)
Lemma colon_split (s : str) : forall l, split_on 58%N s = l -> Forall no_colon l /\
  match l with [] => False | x :: r => s = x ++ concat (map (fun y => 58%N :: y) r) end.
Proof.
  induction s as [|a s IH]; intros l E; cbn [split_on] in E.
  - subst l. split; [constructor; [intros []|constructor]|reflexivity].
  - destruct (IH _ eq_refl) as [H1 H2]. destruct (split_on 58%N s) as [|w ws]; [destruct H2|].
    destruct (N.eqb_spec a 58) as [->|Na]; subst l.
    + split; [constructor; [intros []|exact H1]|]. cbn [map concat app]. rewrite H2. reflexivity.
    + inversion H1 as [|? ? Hw Hws]; subst. split; [constructor; [|exact Hws]|cbn; reflexivity].
      intros [X|X]; [congruence|exact (Hw X)].
Qed.

Lemma colon_iff s : has_char 58%N s = false <-> no_colon s.
Proof.
  unfold has_char, no_colon. split.
  - intros H X. assert (existsb (N.eqb 58) s = true) by (apply existsb_exists; exists 58%N; split; [exact X|reflexivity]). congruence.
  - intros H. destruct (existsb (N.eqb 58) s) eqn:E; [|reflexivity]. apply existsb_exists in E as (x & Hx & Ex). apply N.eqb_eq in Ex. subst x. contradiction.
Qed.

Lemma mk_time_iff h m s v : mk_time h m s = Ok v <-> 0 <= h < 24 /\ 0 <= m < 60 /\ 0 <= s < 60 /\ v = (h * 3600 + m * 60 + s) * US.
Proof.
  unfold mk_time. destruct ((0 <=? h) && (h <? 24) && (0 <=? m) && (m <? 60) && (0 <=? s) && (s <? 60)) eqn:E.
  - rewrite !andb_true_iff, !Z.leb_le, !Z.ltb_lt in E. split; [intros H; injection H as <-; intuition lia|intros (_ & _ & _ & ->); reflexivity].
  - split; [discriminate|]. intros (H1 & H2 & H3 & _). exfalso. revert E. apply not_false_iff_true. rewrite !andb_true_iff, !Z.leb_le, !Z.ltb_lt. lia.
Qed.

(** ** the texts a schedule takes *)
Lemma means_iff mp t v : mp <> [] -> (expr_offset mp t = Ok v <-> means (opening mp) (closing mp) t v).
Proof.
  intros Hmp. unfold expr_offset. split.
  - destruct (has_char 58%N t) eqn:Ec; intros H.
    + unfold clock_time in H. destruct (colon_split t _ eq_refl) as [HF Ht].
      destruct (split_on 58%N t) as [|h [|m rest]]; try discriminate. inversion HF as [|? ? Hh HF1]; subst. inversion HF1 as [|? ? Hm HF2]; subst.
      destruct (py_int h) as [a|] eqn:Ea; [|discriminate]. destruct (py_int m) as [b|] eqn:Eb; [|discriminate]. apply py_int_iff in Ea, Eb.
      destruct rest as [|s r]; cbn [map concat].
      * apply mk_time_iff in H as (H1 & H2 & _ & ->). rewrite app_nil_r. replace (a * 3600 + b * 60 + 0) with (a * 3600 + b * 60) by lia.
        exact (mean_hm _ _ h m a b Hh Hm Ea Eb H1 H2).
      * inversion HF2 as [|? ? Hs HF3]; subst. destruct (py_int s) as [c|] eqn:Es; [|discriminate]. apply py_int_iff in Es. apply mk_time_iff in H as (H1 & H2 & H3 & ->).
        change (58%N :: m) with (lit ":" ++ m). change (58%N :: s) with (lit ":" ++ s). rewrite <- !app_assoc.
        apply (mean_hms _ _ h m s _ a b c); try assumption. destruct r as [|x r]; [left; reflexivity|right]. eexists. reflexivity.
    + destruct (expr_inv _ _ _ H) as [Hb|(b & w & gs & plus & nl & Hb & Hgs & Hnl & -> & ->)].
      * apply mean_base, Hb.
      * apply mean_off; assumption.
  - intros H. destruct H as [b v Hb|b v gs plus nl Hb Hgs Hnl|h m a b Hh Hm Ha Hb H1 H2|h m s r a b c Hh Hm Hs Ha Hb Hc H1 H2 H3 Hr].
    + assert (has_char 58%N b = false) as -> by (destruct Hb; reflexivity). apply expr_base_ok; assumption.
    + assert (E : has_char 58%N (b ++ lit (if plus then "+" else "-") ++ offset_text gs ++ nl) = false).
      { apply colon_iff. unfold no_colon. rewrite !in_app_iff. intros [X|[X|[X|X]]].
        - destruct Hb; cbn in X; intuition discriminate.
        - destruct plus; cbn in X; intuition discriminate.
        - destruct Hgs as [_ Hgs]. unfold offset_text in X. apply in_concat in X as (x & X1 & X2). apply in_map_iff in X1 as (g & <- & Hg).
          rewrite Forall_forall in Hgs. destruct (Hgs g Hg) as (_ & Hd & Hu). unfold group_text in X2. apply in_app_iff in X2 as [X2|[X2|[]]].
          + rewrite Forall_forall in Hd. specialize (Hd _ X2). discriminate.
          + rewrite X2 in Hu. apply Hu. reflexivity.
        - destruct Hnl as [-> | ->]; cbn in X; intuition discriminate. }
      rewrite E, (expr_off_ok mp b v gs nl plus Hmp Hb Hgs Hnl), last_wins_sec. reflexivity.
    + assert (E : has_char 58%N (h ++ lit ":" ++ m) = true) by (destruct (has_char 58%N _) eqn:E; [reflexivity|exfalso; apply colon_iff in E; apply E; rewrite !in_app_iff; right; left; left; reflexivity]).
      rewrite E. unfold clock_time. change (lit ":" ++ m) with (58%N :: m).
      apply colon_iff in Hh, Hm. apply py_int_iff in Ha, Hb. rewrite (split_on_app _ _ _ Hh), (split_on_none _ _ Hm). cbn [app]. rewrite Ha, Hb.
      apply mk_time_iff. repeat split; lia.
    + assert (E : has_char 58%N (h ++ lit ":" ++ m ++ lit ":" ++ s ++ r) = true) by (destruct (has_char 58%N _) eqn:E; [reflexivity|exfalso; apply colon_iff in E; apply E; rewrite !in_app_iff; right; left; left; reflexivity]).
      rewrite E. unfold clock_time. change (lit ":" ++ m ++ lit ":" ++ s ++ r) with (58%N :: (m ++ 58%N :: (s ++ r))).
      apply colon_iff in Hh, Hm, Hs. apply py_int_iff in Ha, Hb, Hc. rewrite (split_on_app _ _ _ Hh), (split_on_app _ _ _ Hm).
      assert (Er : exists l, split_on 58%N (s ++ r) = s :: l).
      { destruct Hr as [-> | (r' & ->)]; [rewrite app_nil_r, (split_on_none _ _ Hs); eauto|change (lit ":" ++ r') with (58%N :: r'); rewrite (split_on_app _ _ _ Hs); eexists; reflexivity]. }
      destruct Er as (l & ->). cbn [app]. rewrite Ha, Hb, Hc. apply mk_time_iff. repeat split; lia.
Qed.
