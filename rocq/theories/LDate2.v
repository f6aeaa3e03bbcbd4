(** [parse_dt] reads exactly the texts described in SDate.v. *)
From Verif Require Import PyBase PyStr LStr MTime MDate LDate SDate.
Open Scope Z_scope.

(** ** digits *)
Lemma digit_char d : 0 <= d <= 9 -> is_digit (Z.to_N (48 + d)) = true /\ digit_val (Z.to_N (48 + d)) = d.
Proof.
  intros H. unfold is_digit, digit_val. rewrite Z2N.id by lia. split; [|lia].
  apply andb_true_intro. split; apply N.leb_le; lia.
Qed.
Lemma num_value_snoc s c : num_value (s ++ [c]) = num_value s * 10 + digit_val c.
Proof. unfold num_value. rewrite fold_left_app. reflexivity. Qed.
Lemma dec_value s v : dec s v -> forallb is_digit s = true /\ num_value s = v.
Proof.
  induction 1 as [|s v d _ [IH1 IH2] Hd]; [split; reflexivity|]. destruct (digit_char d Hd) as [A B].
  rewrite forallb_app, num_value_snoc, IH1, IH2, B. cbn [forallb]. rewrite A. split; [reflexivity|lia].
Qed.
Lemma value_dec s : forallb is_digit s = true -> dec s (num_value s).
Proof.
  induction s as [|c s IH] using rev_ind; [constructor|]. rewrite forallb_app. cbn [forallb]. intros H.
  apply andb_prop in H as [H1 H2]. rewrite andb_true_r in H2. rewrite num_value_snoc.
  unfold is_digit in H2. apply andb_prop in H2 as [A B]. apply N.leb_le in A, B. unfold digit_val.
  replace (num_value s * 10 + (Z.of_N c - 48)) with (10 * num_value s + (Z.of_N c - 48)) by lia.
  replace c with (Z.to_N (48 + (Z.of_N c - 48))) at 1 by lia. constructor; [apply IH, H1|lia].
Qed.
Lemma num_field lo hi s v : num lo hi s = Some v <-> field lo hi s v.
Proof.
  unfold num, field. destruct (Nat.leb_spec lo (length s)), (Nat.leb_spec (length s) hi); cbn [andb];
    try (split; [discriminate|intros [H1 _]; lia]).
  destruct (forallb is_digit s) eqn:E; split.
  - intros [= <-]. split; [lia|apply value_dec, E].
  - intros [_ H1]. apply dec_value in H1. f_equal. apply H1.
  - discriminate.
  - intros [_ H1]. apply dec_value in H1. destruct H1; congruence.
Qed.
Lemma field_no lo hi s v c : field lo hi s v -> is_digit c = false -> has_char c s = false.
Proof.
  intros [_ H] Hc. apply dec_value in H as [H _]. apply digits_no_char; [exact Hc|].
  apply Forall_forall. intros x Hx. exact (proj1 (forallb_forall _ _) H x Hx).
Qed.
Lemma field_nonneg lo hi s v : field lo hi s v -> 0 <= v.
Proof. intros [_ H]. induction H; lia. Qed.

(** ** the calendar *)
Lemma leap_iff y : leap y = true <-> leap_year y.
Proof.
  unfold leap, leap_year. rewrite andb_true_iff, orb_true_iff, negb_true_iff, !Z.eqb_eq, Z.eqb_neq.
  rewrite <- !Z.mod_divide by discriminate. tauto.
Qed.
Lemma days_in_iff y m n : days_in y m n <-> 1 <= m <= 12 /\ n = month_days y m.
Proof.
  unfold days_in, month_days. rewrite <- leap_iff. split.
  - intros [[H ->]|[[H ->]|[[-> [H ->]]|[-> [H ->]]]]].
    + repeat (destruct H as [<-|H]; [split; [lia|reflexivity]|]). destruct H.
    + repeat (destruct H as [<-|H]; [split; [lia|reflexivity]|]). destruct H.
    + rewrite H. split; [lia|reflexivity].
    + destruct (leap y); [destruct H; reflexivity|]. split; [lia|reflexivity].
  - intros [H ->].
    assert (M : m = 1 \/ m = 2 \/ m = 3 \/ m = 4 \/ m = 5 \/ m = 6 \/ m = 7 \/ m = 8 \/ m = 9 \/ m = 10 \/ m = 11 \/ m = 12) by lia.
    repeat (destruct M as [->|M]); try subst m; cbn; auto 20.
    destruct (leap y); [auto 20|]. right; right; right. repeat split. discriminate.
Qed.

(** days of the year before month [m] *)
Definition cum (y m : Z) : Z :=
  (367 * m - 362) / 12 + (if m <=? 2 then 0 else if leap y then -1 else -2).
Lemma cum_step y m : 1 <= m <= 12 -> cum y (m + 1) = cum y m + month_days y m.
Proof.
  intros H. assert (M : m = 1 \/ m = 2 \/ m = 3 \/ m = 4 \/ m = 5 \/ m = 6 \/ m = 7 \/ m = 8 \/ m = 9 \/ m = 10 \/ m = 11 \/ m = 12) by lia.
  unfold cum, month_days.
  repeat (destruct M as [->|M]); try subst m; cbn; destruct (leap y); reflexivity.
Qed.
Lemma day_no_cum y m d n : day_no y m d n -> 1 <= m <= 13 /\ n = new_year y - new_year 1970 + cum y m + d - 1.
Proof.
  induction 1 as [|m k n H [IH1 IH2] Hk|m d n H [IH1 IH2] Hd].
  - split; [lia|]. change (cum y 1) with 0. lia.
  - apply days_in_iff in Hk as [Hm ->]. rewrite cum_step by exact Hm. split; lia.
  - split; lia.
Qed.
Lemma cum_day_no y m : 1 <= m <= 12 -> day_no y m 1 (new_year y - new_year 1970 + cum y m).
Proof.
  intros H. assert (K : forall k, (k < 12)%nat -> day_no y (1 + Z.of_nat k) 1 (new_year y - new_year 1970 + cum y (1 + Z.of_nat k))).
  { induction k as [|k IH]; intros Hk.
    - cbn [Z.of_nat]. change (1 + 0) with 1. change (cum y 1) with 0. rewrite Z.add_0_r. constructor.
    - replace (1 + Z.of_nat (S k)) with (1 + Z.of_nat k + 1) by lia. rewrite cum_step, Z.add_assoc by lia.
      constructor; [apply IH; lia|]. apply days_in_iff. split; [lia|reflexivity]. }
  replace m with (1 + Z.of_nat (Z.to_nat (m - 1))) by lia. apply K. lia.
Qed.

Lemma new_year_shift y k : new_year (y + k * 400) = new_year y + k * 146097.
Proof.
  unfold new_year. replace (y + k * 400 - 1) with (y - 1 + k * 400) by lia.
  rewrite Z_div_plus_full by discriminate.
  replace (y - 1 + k * 400) with (y - 1 + (k * 100) * 4) by lia. rewrite Z_div_plus_full by discriminate.
  replace (y - 1 + k * 100 * 4) with (y - 1 + (k * 4) * 100) by lia. rewrite Z_div_plus_full by discriminate. lia.
Qed.
Lemma cum_shift y m k : cum (y + k * 400) m = cum y m.
Proof. unfold cum. rewrite leap_shift. reflexivity. Qed.
Definition civil_check (y : Z) : bool :=
  all_upto (fun m => days_of_civil y m 1 =? new_year y - new_year 1970 + cum y m) 12 1.
Lemma civil_checked : all_upto civil_check 400 0 = true.
Proof. vm_compute. reflexivity. Qed.
Lemma civil_cum y m d : 1 <= m <= 12 -> days_of_civil y m d = new_year y - new_year 1970 + cum y m + d - 1.
Proof.
  intros H. assert (E : days_of_civil y m d = days_of_civil y m 1 + d - 1) by (unfold days_of_civil; lia).
  rewrite E. pose proof (Z.div_mod y 400 ltac:(discriminate)) as D. pose proof (Z.mod_pos_bound y 400 ltac:(reflexivity)) as B.
  pose proof (all_upto_ok _ _ _ civil_checked (y mod 400) ltac:(lia)) as C. unfold civil_check in C.
  pose proof (all_upto_ok _ _ _ C m ltac:(lia)) as C'. cbv beta in C'. apply Z.eqb_eq in C'.
  replace y with (y mod 400 + y / 400 * 400) by lia. rewrite days_of_civil_shift, new_year_shift, cum_shift. lia.
Qed.

Lemma date_iff y m d n : mk_date y m d = Ok n <-> date_valid y m d /\ day_no y m d n.
Proof.
  unfold mk_date, date_valid.
  destruct ((1 <=? y) && (y <=? 9999) && (1 <=? m) && (m <=? 12) && (1 <=? d) && (d <=? month_days y m)) eqn:E.
  - rewrite !andb_true_iff, !Z.leb_le in E. split.
    + intros [= <-]. split; [split; [lia|]; exists (month_days y m); split; [apply days_in_iff; split; [lia|reflexivity]|lia]|].
      rewrite civil_cum by lia. apply day_later; [apply cum_day_no; lia|lia].
    + intros [_ H]. apply day_no_cum in H as [_ ->]. rewrite civil_cum by lia. reflexivity.
  - split; [discriminate|]. intros [[Hy (k & Hk & Hd)] _]. apply days_in_iff in Hk as [Hm ->]. exfalso.
    assert (T : (1 <=? y) && (y <=? 9999) && (1 <=? m) && (m <=? 12) && (1 <=? d) && (d <=? month_days y m) = true)
      by (rewrite !andb_true_iff, !Z.leb_le; lia). congruence.
Qed.
Lemma time_iff h m s t : mk_time h m s = Ok t <-> clock h m s /\ t = ((h * 60 + m) * 60 + s) * 1000000.
Proof.
  unfold mk_time, clock.
  destruct ((0 <=? h) && (h <? 24) && (0 <=? m) && (m <? 60) && (0 <=? s) && (s <? 60)) eqn:E.
  - rewrite !andb_true_iff, !Z.leb_le, !Z.ltb_lt in E. split.
    + intros [= <-]. split; [lia|unfold US; lia].
    + intros [_ ->]. f_equal. unfold US. lia.
  - split; [discriminate|]. intros [H _]. exfalso.
    assert (T : (0 <=? h) && (h <? 24) && (0 <=? m) && (m <? 60) && (0 <=? s) && (s <? 60) = true)
      by (rewrite !andb_true_iff, !Z.leb_le, !Z.ltb_lt; lia). congruence.
Qed.

(** ** splitting *)
Lemma split3 c s a b d : split_on c s = [a; b; d] <->
  s = a ++ c :: b ++ c :: d /\ has_char c a = false /\ has_char c b = false /\ has_char c d = false.
Proof.
  split.
  - intros E. pose proof (join_split c s) as J. pose proof (split_on_words c s) as W. rewrite E in J, W. cbn in J.
    inversion_clear W as [|? ? W1 W']. inversion_clear W' as [|? ? W2 W'']. inversion_clear W'' as [|? ? W3 _]. auto.
  - intros (-> & A & B & D). rewrite split_on_app, split_on_app, split_on_none by assumption. reflexivity.
Qed.
Lemma split2 c s a b : split_on c s = [a; b] <-> s = a ++ c :: b /\ has_char c a = false /\ has_char c b = false.
Proof.
  split.
  - intros E. pose proof (join_split c s) as J. pose proof (split_on_words c s) as W. rewrite E in J, W. cbn in J.
    inversion_clear W as [|? ? W1 W']. inversion_clear W' as [|? ? W2 W'']. auto.
  - intros (-> & A & B). rewrite split_on_app, split_on_none by assumption. reflexivity.
Qed.

Lemma parse_date_iff s n : parse_date s = Ok n <->
  exists ys y ms m ds d, s = ys ++ 45%N :: ms ++ 45%N :: ds /\ field 4 4 ys y /\ field 1 2 ms m /\ field 1 2 ds d /\
    date_valid y m d /\ day_no y m d n.
Proof.
  unfold parse_date. split.
  - destruct (split_on 45%N s) as [|a [|b [|c [|]]]] eqn:E; try discriminate. apply split3 in E as (-> & _).
    destruct (num 4 4 a) as [y|] eqn:E1; [|discriminate]. destruct (num 1 2 b) as [m|] eqn:E2; [|discriminate].
    destruct (num 1 2 c) as [d|] eqn:E3; [|discriminate]. intros H. apply num_field in E1, E2, E3. apply date_iff in H as [H1 H2].
    exists a, y, b, m, c, d. auto 10.
  - intros (ys & y & ms & m & ds & d & -> & F1 & F2 & F3 & V & D).
    replace (split_on 45%N (ys ++ 45%N :: ms ++ 45%N :: ds)) with [ys; ms; ds]
      by (symmetry; apply split3; split; [reflexivity|]; repeat split; eapply field_no; eauto).
    apply num_field in F1, F2, F3. rewrite F1, F2, F3. apply date_iff. auto.
Qed.
Lemma parse_hms_iff s t : parse_hms s = Ok t <->
  exists hs h ms m ss sec, s = hs ++ 58%N :: ms ++ 58%N :: ss /\ field 1 2 hs h /\ field 1 2 ms m /\ field 1 2 ss sec /\
    clock h m sec /\ t = ((h * 60 + m) * 60 + sec) * 1000000.
Proof.
  unfold parse_hms. split.
  - destruct (split_on 58%N s) as [|a [|b [|c [|]]]] eqn:E; try discriminate. apply split3 in E as (-> & _).
    destruct (num 1 2 a) as [y|] eqn:E1; [|discriminate]. destruct (num 1 2 b) as [m|] eqn:E2; [|discriminate].
    destruct (num 1 2 c) as [d|] eqn:E3; [|discriminate]. intros H. apply num_field in E1, E2, E3. apply time_iff in H as [H1 H2].
    exists a, y, b, m, c, d. auto 10.
  - intros (ys & y & ms & m & ds & d & -> & F1 & F2 & F3 & V & ->).
    replace (split_on 58%N (ys ++ 58%N :: ms ++ 58%N :: ds)) with [ys; ms; ds]
      by (symmetry; apply split3; split; [reflexivity|]; repeat split; eapply field_no; eauto).
    apply num_field in F1, F2, F3. rewrite F1, F2, F3. apply time_iff. auto.
Qed.
Lemma scale_unique v u k : (k <= 6)%nat -> u * 10 ^ Z.of_nat k = v * 1000000 <-> u = v * 10 ^ (6 - Z.of_nat k).
Proof.
  intros H. assert (E : 1000000 = 10 ^ (6 - Z.of_nat k) * 10 ^ Z.of_nat k).
  { rewrite <- Z.pow_add_r by lia. replace (6 - Z.of_nat k + Z.of_nat k) with 6 by lia. reflexivity. }
  rewrite E. pose proof (Z.pow_pos_nonneg 10 (Z.of_nat k) ltac:(lia) ltac:(lia)).
  rewrite Z.mul_assoc. split; [intros K; apply Z.mul_reg_r in K; lia|intros ->; reflexivity].
Qed.
Lemma parse_frac_iff f u : parse_frac f = Some u <-> exists v, field 1 6 f v /\ u * 10 ^ Z.of_nat (length f) = v * 1000000.
Proof.
  unfold parse_frac. split.
  - destruct (num 1 6 f) as [v|] eqn:E; [|discriminate]. intros [= <-]. apply num_field in E. exists v. split; [exact E|].
    apply scale_unique; [apply E|reflexivity].
  - intros (v & F & H). pose proof F as F'. apply num_field in F. rewrite F. f_equal. symmetry. apply scale_unique; [apply F'|exact H].
Qed.

Lemma date_text_no c ys y ms m ds d : is_digit c = false -> c <> 45%N ->
  field 4 4 ys y -> field 1 2 ms m -> field 1 2 ds d -> has_char c (ys ++ 45%N :: ms ++ 45%N :: ds) = false.
Proof.
  intros Hc Hn F1 F2 F3. assert (X : (c =? 45)%N = false) by (apply N.eqb_neq; exact Hn).
  rewrite has_char_app. change (has_char c (45%N :: ms ++ 45%N :: ds)) with ((c =? 45)%N || has_char c (ms ++ 45%N :: ds)).
  rewrite has_char_app. change (has_char c (45%N :: ds)) with ((c =? 45)%N || has_char c ds).
  rewrite X, (field_no _ _ _ _ _ F1 Hc), (field_no _ _ _ _ _ F2 Hc), (field_no _ _ _ _ _ F3 Hc). reflexivity.
Qed.
Lemma time_text_no c hs h ms m ss s : is_digit c = false -> c <> 58%N ->
  field 1 2 hs h -> field 1 2 ms m -> field 1 2 ss s -> has_char c (hs ++ 58%N :: ms ++ 58%N :: ss) = false.
Proof.
  intros Hc Hn F1 F2 F3. assert (X : (c =? 58)%N = false) by (apply N.eqb_neq; exact Hn).
  rewrite has_char_app. change (has_char c (58%N :: ms ++ 58%N :: ss)) with ((c =? 58)%N || has_char c (ms ++ 58%N :: ss)).
  rewrite has_char_app. change (has_char c (58%N :: ss)) with ((c =? 58)%N || has_char c ss).
  rewrite X, (field_no _ _ _ _ _ F1 Hc), (field_no _ _ _ _ _ F2 Hc), (field_no _ _ _ _ _ F3 Hc). reflexivity.
Qed.

Lemma parse_dt_iff s t : parse_dt s = Ok t <-> dt_text s t.
Proof.
  split.
  - unfold parse_dt. destruct (split_on 32%N s) as [|ds [|ts [|]]] eqn:E; try discriminate. apply split2 in E as (-> & _ & _).
    destruct (parse_date ds) as [n|] eqn:Ed; cbn [rbind]; [|discriminate].
    apply parse_date_iff in Ed as (ys & y & ms & m & dd & d & -> & F1 & F2 & F3 & V & D).
    destruct (has_char 46%N _).
    + destruct (split_on 46%N ts) as [|hms [|f [|]]] eqn:E; try discriminate. apply split2 in E as (-> & _ & _).
      destruct (parse_hms hms) as [tod|] eqn:Eh; cbn [rbind]; [|discriminate].
      apply parse_hms_iff in Eh as (hs & h & mis & mi & ss & sec & -> & G1 & G2 & G3 & C & ->).
      destruct (parse_frac f) as [u|] eqn:Ef; [|discriminate]. intros H. apply Ok_inj in H. subst t.
      apply parse_frac_iff in Ef as (v & Fv & Hu).
      exists ys, y, ms, m, dd, d, hs, h, mis, mi, ss, sec, (lit "." ++ f), u, n.
      split; [repeat (rewrite <- app_assoc || rewrite <- app_comm_cons); reflexivity|].
      repeat (split; [assumption|]). split; [right; exists f, v; auto|]. repeat (split; [assumption|]).
      unfold combine, DAY. lia.
    + destruct (parse_hms ts) as [tod|] eqn:Eh; cbn [rbind]; [|discriminate].
      apply parse_hms_iff in Eh as (hs & h & mis & mi & ss & sec & -> & G1 & G2 & G3 & C & ->).
      intros H. apply Ok_inj in H. subst t.
      exists ys, y, ms, m, dd, d, hs, h, mis, mi, ss, sec, [], 0, n.
      split; [rewrite app_nil_r; repeat (rewrite <- app_assoc || rewrite <- app_comm_cons); reflexivity|].
      repeat (split; [assumption|]). split; [left; auto|]. repeat (split; [assumption|]).
      unfold combine, DAY. lia.
  - intros (ys & y & ms & m & ds & d & hs & h & mis & mi & ss & sec & x & us & n & -> & F1 & F2 & F3 & G1 & G2 & G3 & X & V & C & D & ->).
    pose (Dt := ys ++ 45%N :: ms ++ 45%N :: ds). pose (T := hs ++ 58%N :: mis ++ 58%N :: ss).
    assert (HD : forall c, is_digit c = false -> c <> 45%N -> has_char c Dt = false) by (intros; eapply date_text_no; eauto).
    assert (HT : forall c, is_digit c = false -> c <> 58%N -> has_char c T = false) by (intros; eapply time_text_no; eauto).
    assert (Es : ys ++ lit "-" ++ ms ++ lit "-" ++ ds ++ lit " " ++ hs ++ lit ":" ++ mis ++ lit ":" ++ ss ++ x = Dt ++ 32%N :: T ++ x).
    { unfold Dt, T. repeat (rewrite <- app_assoc || rewrite <- app_comm_cons). reflexivity. }
    rewrite Es. clear Es.
    assert (Pd : parse_date Dt = Ok n) by (apply parse_date_iff; exists ys, y, ms, m, ds, d; auto 10).
    assert (Ph : parse_hms T = Ok (((h * 60 + mi) * 60 + sec) * 1000000)) by (apply parse_hms_iff; exists hs, h, mis, mi, ss, sec; auto 10).
    unfold parse_dt. rewrite split_on_app by (apply HD; [reflexivity|discriminate]).
    destruct X as [[-> ->]|(f & v & -> & Fv & Hu)].
    + rewrite app_nil_r, split_on_none by (apply HT; [reflexivity|discriminate]). rewrite Pd. cbn [rbind].
      replace (has_char 46%N (Dt ++ 32%N :: T)) with false.
      2:{ symmetry. rewrite has_char_app, HD by (reflexivity || discriminate).
          change (has_char 46%N (32%N :: T)) with (has_char 46%N T). apply HT; [reflexivity|discriminate]. }
      rewrite Ph. cbn [rbind]. f_equal. unfold combine, DAY. lia.
    + change (lit "." ++ f) with (46%N :: f). rewrite split_on_none.
      2:{ rewrite has_char_app, HT by (reflexivity || discriminate). change (has_char 32%N (46%N :: f)) with (has_char 32%N f).
          eapply field_no; [exact Fv|reflexivity]. }
      rewrite Pd. cbn [rbind].
      replace (has_char 46%N (Dt ++ 32%N :: T ++ 46%N :: f)) with true.
      2:{ symmetry. apply has_char_In, in_or_app. right. right. apply in_or_app. right. left. reflexivity. }
      rewrite split_on_app by (apply HT; [reflexivity|discriminate]). rewrite split_on_none by (eapply field_no; [exact Fv|reflexivity]).
      rewrite Ph. cbn [rbind]. rewrite (proj2 (parse_frac_iff f us)) by (exists v; auto). f_equal. unfold combine, DAY. lia.
Qed.

Lemma mk_date_err y m d e : mk_date y m d = Err e -> e = ValueError.
Proof. unfold mk_date. destruct (_ && _); congruence. Qed.
Lemma mk_time_err h m s e : mk_time h m s = Err e -> e = ValueError.
Proof. unfold mk_time. destruct (_ && _); congruence. Qed.
Lemma parse_date_err s e : parse_date s = Err e -> e = ValueError.
Proof.
  unfold parse_date. destruct (split_on 45%N s) as [|a [|b [|c [|]]]]; try congruence.
  destruct (num 4 4 a); [|congruence]. destruct (num 1 2 b); [|congruence]. destruct (num 1 2 c); [|congruence]. apply mk_date_err.
Qed.
Lemma parse_hms_err s e : parse_hms s = Err e -> e = ValueError.
Proof.
  unfold parse_hms. destruct (split_on 58%N s) as [|a [|b [|c [|]]]]; try congruence.
  destruct (num 1 2 a); [|congruence]. destruct (num 1 2 b); [|congruence]. destruct (num 1 2 c); [|congruence]. apply mk_time_err.
Qed.
Lemma parse_dt_err s e : parse_dt s = Err e -> e = ValueError.
Proof.
  unfold parse_dt. destruct (split_on 32%N s) as [|ds [|ts [|]]]; try congruence.
  destruct (parse_date ds) as [n|e1] eqn:Ed; cbn [rbind]; [|intros [= <-]; eapply parse_date_err, Ed].
  destruct (has_char 46%N s).
  - destruct (split_on 46%N ts) as [|hms [|f [|]]]; try congruence.
    destruct (parse_hms hms) as [t|e2] eqn:Eh; cbn [rbind]; [|intros [= <-]; eapply parse_hms_err, Eh].
    destruct (parse_frac f); congruence.
  - destruct (parse_hms ts) as [t|e2] eqn:Eh; cbn [rbind]; [discriminate|intros [= <-]; eapply parse_hms_err, Eh].
Qed.
