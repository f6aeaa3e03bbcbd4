(** C131: the times in the broker's update file. *)
From Verif Require Import PyBase PyStr LStr MTime MDate LDate LDate2 SDate MStrptime SStrptime LStrptime MCompact
  MOrder MAccount MGate SGate SLine LGate4 TLine.
Open Scope Z_scope.

Lemma hd_first {A B} (f : A -> list B) l a x : hd_error l = Some a -> hd_error (f a) = Some x -> hd_error (flat_map f l) = Some x.
Proof. destruct l as [|a' l]; [discriminate|]. intros [= ->] H. cbn [flat_map]. destruct (f a); [discriminate|]. cbn in *. exact H. Qed.

Section D.
  Context (dig : N -> option Z) (D : digits_ok dig).

  (** a text denotes a time in one of the ways the fields can be cut *)
  Definition cut (s : str) (ys ms ds hs mis ss : str) (t : Z) : Prop :=
    exists y m d h mi x n, s = ys ++ ms ++ ds ++ hs ++ mis ++ ss /\
      year_text dig ys y /\ field 1 2 ms m /\ day_text dig ds d /\ unit_text dig 23 hs h /\ unit_text dig 59 mis mi /\ unit_text dig 59 ss x /\
      date_valid y m d /\ day_no y m d n /\ t = (n * 86400 + (h * 60 + mi) * 60 + x) * 1000000.

  Lemma in_compact s ys ms ds hs mis ss r : In (ys, ms, ds, hs, mis, ss, r) (re_compact dig s) ->
    s = ys ++ ms ++ ds ++ hs ++ mis ++ ss ++ r /\ matches (re_Y dig) ys /\ matches re_m ms /\ matches (re_d dig) ds /\
    matches (re_H dig) hs /\ matches (re_M dig) mis /\ matches (re_S dig) ss.
  Proof.
    unfold re_compact. rewrite in_flat_map. intros ([y1 r1] & H1 & H). apply in_flat_map in H as ([m1 r2] & H2 & H).
    apply in_flat_map in H as ([d1 r3] & H3 & H). apply in_flat_map in H as ([h1 r4] & H4 & H). apply in_flat_map in H as ([mi1 r5] & H5 & H).
    apply in_map_iff in H as ([s1 r6] & E & H6). cbn [fst snd] in *. injection E as <- <- <- <- <- <- <-.
    apply in_alts in H1 as [-> M1], H2 as [-> M2], H3 as [-> M3], H4 as [-> M4], H5 as [-> M5], H6 as [-> M6].
    repeat (split; [reflexivity || assumption|]). assumption.
  Qed.
  Lemma compact_sound s t : strptime_compact dig s = Ok t -> exists ys ms ds hs mis ss, cut s ys ms ds hs mis ss t.
  Proof.
    unfold strptime_compact. destruct (hd_error _) as [[[[[[[ys ms] ds] hs] mis] ss] [|c r]]|] eqn:E; try discriminate.
    apply hd_in, in_compact in E as (-> & M1 & M2 & M3 & M4 & M5 & M6). rewrite app_nil_r.
    destruct (mk_date _ _ _) as [n|] eqn:Ed; cbn [rbind]; [|discriminate]. apply date_iff in Ed as [V N].
    destruct (mk_time _ _ _) as [x|] eqn:Et; cbn [rbind]; [|discriminate]. apply time_iff in Et as [(C1 & C2 & C3) ->].
    intros H. apply Ok_inj in H. exists ys, ms, ds, hs, mis, ss.
    exists (uval dig ys), (uval dig ms), (uval dig ds), (uval dig hs), (uval dig mis), (uval dig ss), n.
    split; [reflexivity|]. split; [apply year_iff; auto|]. split; [apply month_sound; auto|]. split; [apply day_sound; auto|].
    split; [apply hour_sound; auto|]. split; [apply minute_sound; auto|]. split; [apply second_sound; auto; lia|].
    split; [exact V|]. split; [exact N|]. rewrite <- H. unfold combine, DAY. lia.
  Qed.
  Lemma compact_err s e : strptime_compact dig s = Err e -> e = ValueError.
  Proof.
    unfold strptime_compact. destruct (hd_error _) as [[[[[[[ys ms] ds] hs] mis] ss] [|c r]]|]; intros H; try congruence.
    destruct (mk_date _ _ _) eqn:Ed; cbn [rbind] in H; [|apply mk_date_err in Ed; congruence].
    destruct (mk_time _ _ _) eqn:Et; cbn [rbind] in H; [discriminate|apply mk_time_err in Et; congruence].
  Qed.

  (** *** two digits are taken first *)
  Lemma two_asc s v : field 2 2 s v -> exists a c x w, s = [a; c] /\ asc a x /\ asc c w /\ v = 10 * x + w.
  Proof.
    intros [Hl Hf]. assert (F : field 1 2 s v) by (split; [lia|exact Hf]). apply field_asc in F as [(c & -> & _)|F]; [cbn in Hl; lia|exact F].
  Qed.
  Ltac asc_at A := let H := fresh in pose proof (proj2 A) as H; cbn [proj2] in H.
  Lemma asc_eqb a x k : asc a x -> chr k a = (x + 48 =? Z.of_N k).
  Proof. intros [Hx ->]. unfold chr. destruct (N.eqb_spec (Z.to_N (48 + x)) k), (Z.eqb_spec (x + 48) (Z.of_N k)); lia || reflexivity. Qed.
  Lemma asc_rngb a x p q : asc a x -> rng p q a = ((Z.of_N p <=? x + 48) && (x + 48 <=? Z.of_N q)).
  Proof.
    intros [Hx ->]. unfold rng.
    destruct (N.leb_spec p (Z.to_N (48 + x))), (N.leb_spec (Z.to_N (48 + x)) q), (Z.leb_spec (Z.of_N p) (x + 48)), (Z.leb_spec (x + 48) (Z.of_N q)); lia || reflexivity.
  Qed.
  Lemma asc_dd a x : asc a x -> dd dig a = true.
  Proof. intros H. apply any_dd. exists x. apply asc_any; assumption. Qed.
  Ltac decide_tests :=
    repeat match goal with
    | H : asc ?a ?x |- context [chr ?k ?a] => rewrite (asc_eqb a x k H)
    | H : asc ?a ?x |- context [rng ?p ?q ?a] => rewrite (asc_rngb a x p q H)
    | H : asc ?a ?x |- context [dd dig ?a] => rewrite (asc_dd a x H)
    end;
    repeat match goal with
    | |- context [?x =? ?y] => destruct (Z.eqb_spec x y); try lia
    | |- context [?x <=? ?y] => destruct (Z.leb_spec x y); try lia
    end; cbn [andb app hd_error]; try reflexivity; try lia.

  Lemma month_first s v r : field 2 2 s v -> 1 <= v <= 12 -> hd_error (alts re_m (s ++ r)) = Some (s, r).
  Proof.
    intros F V. apply two_asc in F as (a & c & x & w & -> & Ha & Hc & ->). pose proof (proj1 Ha). pose proof (proj1 Hc).
    unfold alts, re_m. cbn [app flat_map eat]. decide_tests.
  Qed.
  Lemma day_first s v r : field 2 2 s v -> 1 <= v <= 31 -> hd_error (alts (re_d dig) (s ++ r)) = Some (s, r).
  Proof.
    intros F V. apply two_asc in F as (a & c & x & w & -> & Ha & Hc & ->). pose proof (proj1 Ha). pose proof (proj1 Hc).
    unfold alts, re_d. cbn [app flat_map eat]. decide_tests.
  Qed.
  Lemma hour_first s v r : field 2 2 s v -> 0 <= v <= 23 -> hd_error (alts (re_H dig) (s ++ r)) = Some (s, r).
  Proof.
    intros F V. apply two_asc in F as (a & c & x & w & -> & Ha & Hc & ->). pose proof (proj1 Ha). pose proof (proj1 Hc).
    unfold alts, re_H. cbn [app flat_map eat]. decide_tests.
  Qed.
  Lemma minute_first s v r : field 2 2 s v -> 0 <= v <= 59 -> hd_error (alts (re_M dig) (s ++ r)) = Some (s, r).
  Proof.
    intros F V. apply two_asc in F as (a & c & x & w & -> & Ha & Hc & ->). pose proof (proj1 Ha). pose proof (proj1 Hc).
    unfold alts, re_M. cbn [app flat_map eat]. decide_tests.
  Qed.
  Lemma second_first s v r : field 2 2 s v -> 0 <= v <= 59 -> hd_error (alts (re_S dig) (s ++ r)) = Some (s, r).
  Proof.
    intros F V. apply two_asc in F as (a & c & x & w & -> & Ha & Hc & ->). pose proof (proj1 Ha). pose proof (proj1 Hc).
    unfold alts, re_S. cbn [app flat_map eat]. decide_tests.
  Qed.
  (** an hour of one digit that no two-digit hour begins with *)
  Lemma hour_one s v r : field 1 1 s v -> 3 <= v <= 9 -> hd_error (alts (re_H dig) (s ++ r)) = Some (s, r).
  Proof.
    intros [Hl Hf] V. assert (F : field 1 2 s v) by (split; [lia|exact Hf]).
    apply field_asc in F as [(c & -> & Hc)|(a & c & x & w & -> & _)]; [|cbn in Hl; lia].
    unfold alts, re_H. cbn [app flat_map eat]. decide_tests.
  Qed.
  Lemma year_first s y r : field 4 4 s y -> hd_error (alts (re_Y dig) (s ++ r)) = Some (s, r) /\ uval dig s = y.
  Proof.
    intros [Hl Hf]. apply dec_value in Hf as [Hf <-]. destruct s as [|a [|b [|c [|d [|]]]]]; cbn in Hl; try lia.
    cbn in Hf. rewrite !andb_true_iff in Hf. destruct Hf as (Ha & Hb & Hc & Hd & _).
    assert (X : forall e, is_digit e = true -> any dig e (digit_val e)).
    { intros e He. unfold any. rewrite (proj1 D); [rewrite He; reflexivity|]. unfold is_digit in He. apply andb_prop in He as [_ He]. apply N.leb_le in He. lia. }
    assert (Y : forall e, is_digit e = true -> dd dig e = true) by (intros e He; apply any_dd; eauto).
    split.
    - unfold alts, re_Y. cbn [app flat_map eat]. rewrite !Y by assumption. reflexivity.
    - unfold uval, num_value. cbn [drop_while]. rewrite (any_space dig D _ _ (X a Ha)). cbn [fold_left].
      rewrite !(any_dval dig _ _ (X _ Ha)), !(any_dval dig _ _ (X _ Hb)), !(any_dval dig _ _ (X _ Hc)), !(any_dval dig _ _ (X _ Hd)). reflexivity.
  Qed.
  Lemma uval_field s v lo : field (S lo) 2 s v -> uval dig s = v.
  Proof.
    intros [Hl Hf]. assert (F : field 1 2 s v) by (split; [lia|exact Hf]).
    apply field_asc in F as [(c & -> & Hc)|(a & c & x & w & -> & Ha & Hc & ->)]; [apply uval1; auto using asc_any|apply uval2; auto using asc_any].
  Qed.
  Lemma month_days_31 y m : month_days y m <= 31.
  Proof. unfold month_days. repeat match goal with |- context [if ?b then _ else _] => destruct b end; lia. Qed.
  Lemma valid_md y m d : date_valid y m d -> 1 <= m <= 12 /\ 1 <= d <= 31.
  Proof. intros [_ (n & Hn & Hd)]. apply days_in_iff in Hn as [Hm ->]. pose proof (month_days_31 y m). lia. Qed.

  Lemma compact_reads ys y ms m ds d hs h mis mi ss x n lo :
    field 4 4 ys y -> field 2 2 ms m -> field 2 2 ds d -> field (S lo) 2 hs h -> field 2 2 mis mi -> field 2 2 ss x ->
    date_valid y m d -> clock h mi x -> day_no y m d n ->
    (forall r, hd_error (alts (re_H dig) (hs ++ r)) = Some (hs, r)) ->
    strptime_compact dig ((ys ++ ms ++ ds) ++ hs ++ mis ++ ss) = Ok ((n * 86400 + (h * 60 + mi) * 60 + x) * 1000000).
  Proof.
    intros F1 F2 F3 F4 F5 F6 V C N HH. destruct (valid_md _ _ _ V) as [Vm Vd]. pose proof C as (C1 & C2 & C3).
    assert (E : hd_error (re_compact dig ((ys ++ ms ++ ds) ++ hs ++ mis ++ ss)) = Some (ys, ms, ds, hs, mis, ss, [])).
    { rewrite <- !app_assoc. unfold re_compact.
      eapply hd_first; [apply (year_first ys y), F1|]. cbn [fst snd].
      eapply hd_first; [eapply month_first; eauto|]. cbn [fst snd].
      eapply hd_first; [eapply day_first; eauto|]. cbn [fst snd].
      eapply hd_first; [apply HH|]. cbn [fst snd].
      eapply hd_first; [eapply minute_first; eauto|]. cbn [fst snd].
      rewrite hd_map. pose proof (second_first ss x [] F6 ltac:(lia)) as X. rewrite app_nil_r in X. rewrite X. reflexivity. }
    unfold strptime_compact. rewrite E. rewrite (proj2 (year_first ys y [] F1)), (uval_field ms m 1 F2), (uval_field ds d 1 F3),
      (uval_field hs h lo F4), (uval_field mis mi 1 F5), (uval_field ss x 1 F6).
    rewrite (proj2 (date_iff y m d n)) by auto. cbn [rbind].
    rewrite (proj2 (time_iff h mi x (((h * 60 + mi) * 60 + x) * 1000000))) by auto. cbn [rbind]. f_equal. unfold combine, DAY. lia.
  Qed.
End D.

(** A date of eight digits and a time of six are read as written. *)
Theorem C131_full_partial : forall dig ys y ms m ds d hs h mis mi ss x n, digits_ok dig ->
  field 4 4 ys y -> field 2 2 ms m -> field 2 2 ds d -> field 2 2 hs h -> field 2 2 mis mi -> field 2 2 ss x ->
  date_valid y m d -> clock h mi x -> day_no y m d n ->
  strptime_compact dig ((ys ++ ms ++ ds) ++ hs ++ mis ++ ss) = Ok ((n * 86400 + (h * 60 + mi) * 60 + x) * 1000000).
Proof.
  intros dig ys y ms m ds d hs h mis mi ss x n D F1 F2 F3 F4 F5 F6 V C N. eapply (compact_reads dig D) with (lo := 1%nat); eauto.
  intros r. eapply hour_first; eauto. apply C.
Qed.
Print Assumptions C131_full_partial.
(** The hour may be one digit from 3 on, as in 93000. *)
Theorem C131_hour_partial : forall dig ys y ms m ds d hs h mis mi ss x n, digits_ok dig ->
  field 4 4 ys y -> field 2 2 ms m -> field 2 2 ds d -> field 1 1 hs h -> 3 <= h -> field 2 2 mis mi -> field 2 2 ss x ->
  date_valid y m d -> clock h mi x -> day_no y m d n ->
  strptime_compact dig ((ys ++ ms ++ ds) ++ hs ++ mis ++ ss) = Ok ((n * 86400 + (h * 60 + mi) * 60 + x) * 1000000).
Proof.
  intros dig ys y ms m ds d hs h mis mi ss x n D F1 F2 F3 F4 H3 F5 F6 V C N. eapply (compact_reads dig D) with (lo := 0%nat); eauto.
  - split; [destruct F4; lia|apply F4].
  - intros r. eapply hour_one; eauto. split; [exact H3|]. destruct F4 as [Hl Hf].
    assert (F : field 1 2 hs h) by (split; [lia|exact Hf]). apply field_asc in F as [(c & _ & Hc)|(a & c & u & w & -> & _)]; [apply Hc|cbn in Hl; lia].
Qed.
Print Assumptions C131_hour_partial.
(** Full claim: the same for every hour written with one digit.  False: 1:30:00 as 13000 is
    taken for 13:00:00. *)
Theorem C131_hour_refuted : exists ys y ms m ds d hs h mis mi ss x n,
  field 4 4 ys y /\ field 2 2 ms m /\ field 2 2 ds d /\ field 1 1 hs h /\ field 2 2 mis mi /\ field 2 2 ss x /\
  date_valid y m d /\ clock h mi x /\ day_no y m d n /\
  forall dig, digits_ok dig ->
    strptime_compact dig ((ys ++ ms ++ ds) ++ hs ++ mis ++ ss) = Ok ((n * 86400 + 13 * 3600) * 1000000) /\
    (n * 86400 + 13 * 3600) * 1000000 <> (n * 86400 + (h * 60 + mi) * 60 + x) * 1000000.
Proof.
  assert (F : forall k s v, num k k s = Some v -> field k k s v) by (intros; apply num_field; assumption).
  pose proof (proj1 (date_iff 2022 1 8 (days_of_civil 2022 1 8)) eq_refl) as [V N].
  exists (lit "2022"), 2022, (lit "01"), 1, (lit "08"), 8, (lit "1"), 1, (lit "30"), 30, (lit "00"), 0, (days_of_civil 2022 1 8).
  repeat (split; [first [apply F; reflexivity | exact V | exact N | unfold clock; lia]|]).
  intros dig D. split; [|lia].
  change ((lit "2022" ++ lit "01" ++ lit "08") ++ lit "1" ++ lit "30" ++ lit "00") with ((lit "2022" ++ lit "01" ++ lit "08") ++ lit "13" ++ lit "00" ++ lit "0").
  assert (E : hd_error (re_compact dig ((lit "2022" ++ lit "01" ++ lit "08") ++ lit "13" ++ lit "00" ++ lit "0")) =
              Some (lit "2022", lit "01", lit "08", lit "13", lit "00", lit "0", [])).
  { rewrite <- !app_assoc. unfold re_compact.
    eapply hd_first; [eapply (year_first dig D (lit "2022") 2022), F; reflexivity|]. cbn [fst snd].
    eapply hd_first; [eapply (month_first (lit "01") 1); [apply F; reflexivity|lia]|]. cbn [fst snd].
    eapply hd_first; [eapply (day_first dig D (lit "08") 8); [apply F; reflexivity|lia]|]. cbn [fst snd].
    eapply hd_first; [eapply (hour_first dig D (lit "13") 13); [apply F; reflexivity|lia]|]. cbn [fst snd].
    eapply hd_first; [eapply (minute_first dig D (lit "00") 0); [apply F; reflexivity|lia]|]. cbn [fst snd].
    rewrite hd_map. assert (Z0 : dd dig 48%N = true) by (apply (asc_dd dig D 48%N 0); split; [lia|reflexivity]).
    unfold alts, re_S. change (lit "0") with [48%N]. cbn [flat_map eat]. change (chr 54 48%N) with false. change (rng 48 53 48%N) with true. rewrite Z0. reflexivity. }
  unfold strptime_compact. rewrite E. rewrite (proj2 (year_first dig D (lit "2022") 2022 [] (F 4%nat (lit "2022") 2022 eq_refl))),
    (uval_field dig D (lit "01") 1 1 (F 2%nat (lit "01") 1 eq_refl)), (uval_field dig D (lit "08") 8 1 (F 2%nat (lit "08") 8 eq_refl)),
    (uval_field dig D (lit "13") 13 1 (F 2%nat (lit "13") 13 eq_refl)), (uval_field dig D (lit "00") 0 1 (F 2%nat (lit "00") 0 eq_refl)).
  rewrite (uval_field dig D (lit "0") 0 0) by (apply num_field; reflexivity). reflexivity.
Qed.
Print Assumptions C131_hour_refuted.

(** Whatever is read denotes the time in one of the ways to cut the text into fields, and has
    9 to 14 characters; nothing else is read. *)
Theorem C131_sound : forall dig s t, digits_ok dig -> strptime_compact dig s = Ok t ->
  (exists ys ms ds hs mis ss, cut dig s ys ms ds hs mis ss t) /\ (9 <= List.length s <= 14)%nat.
Proof.
  intros dig s t D H. apply compact_sound in H as (ys & ms & ds & hs & mis & ss & H); [|exact D].
  split; [eauto 10|]. destruct H as (y & m & d & h & mi & x & n & -> & Y & M & Dt & U1 & U2 & U3 & _).
  assert (L1 : List.length ys = 4%nat) by (destruct Y as (a & b & c & e & ? & ? & ? & ? & -> & _); reflexivity).
  assert (L2 : (1 <= List.length ms <= 2)%nat) by apply M.
  assert (L3 : (1 <= List.length ds <= 2)%nat) by (destruct Dt; cbn; lia).
  assert (L4 : forall top s v, unit_text dig top s v -> (1 <= List.length s <= 2)%nat) by (intros ? ? ? []; cbn; lia).
  pose proof (L4 _ _ _ U1). pose proof (L4 _ _ _ U2). pose proof (L4 _ _ _ U3). rewrite !app_length. lia.
Qed.
Print Assumptions C131_sound.
Theorem C131_error : forall dig s e, strptime_compact dig s = Err e -> e = ValueError.
Proof. intros dig s e. apply compact_err. Qed.
Print Assumptions C131_error.

(** The year of a day. *)
Lemma new_year_step y : new_year (y + 1) = new_year y + (if leap y then 366 else 365).
Proof.
  unfold new_year, leap. replace (y + 1 - 1) with y by lia.
  destruct (Z.eqb_spec (y mod 4) 0), (Z.eqb_spec (y mod 100) 0), (Z.eqb_spec (y mod 400) 0); cbn [andb orb negb];
    Z.div_mod_to_equations; lia.
Qed.
Lemma new_year_mono a b : a < b -> new_year (a + 1) <= new_year b.
Proof. intros H. unfold new_year. Z.div_mod_to_equations. lia. Qed.
Lemma cum_year y m d : 1 <= m <= 12 -> 1 <= d <= month_days y m -> 0 <= cum y m + d - 1 < (if leap y then 366 else 365).
Proof.
  intros Hm Hd. assert (M : m = 1 \/ m = 2 \/ m = 3 \/ m = 4 \/ m = 5 \/ m = 6 \/ m = 7 \/ m = 8 \/ m = 9 \/ m = 10 \/ m = 11 \/ m = 12) by lia.
  assert (X : 0 <= cum y m /\ cum y m + month_days y m <= (if leap y then 366 else 365)); [|lia].
  clear d Hd. unfold cum, month_days. repeat (destruct M as [->|M]); try subst m; destruct (leap y); split; apply Z.leb_le; reflexivity.
Qed.
Lemma year_of_day y m d n : date_valid y m d -> day_no y m d n -> year_of n = y.
Proof.
  intros V N. unfold year_of. pose proof (civil_ok n) as K. destruct (civil_of_days n) as [[y' m'] d']. destruct K as (Hm' & Hd' & K).
  destruct V as [_ (k & Hk & Hd)]. apply days_in_iff in Hk as [Hm ->]. apply day_no_cum in N as [_ N].
  rewrite civil_cum in K by lia. pose proof (cum_year y m d Hm Hd). pose proof (cum_year y' m' d' Hm' Hd').
  pose proof (new_year_step y). pose proof (new_year_step y').
  destruct (Z.lt_trichotomy y y') as [L|[L|L]]; [|auto|]; pose proof (new_year_mono _ _ L); lia.
Qed.

(** So an update line with such a time shows exactly it as the time of the order. *)
Theorem C131_shown_partial : forall dig f3 f4 l i i' e st ys y ms m ds d hs h mis mi ss x n, digits_ok dig ->
  update_makes (compact_time dig) f3 f4 l i i' e -> status_code (col 7 l) st ->
  col 1 l = ys ++ ms ++ ds -> col 2 l = hs ++ mis ++ ss ->
  field 4 4 ys y -> field 2 2 ms m -> field 2 2 ds d -> field 2 2 hs h -> field 2 2 mis mi -> field 2 2 ss x ->
  1000 <= y -> date_valid y m d -> clock h mi x -> day_no y m d n ->
  exists text, i_entrust i' = Some text /\ dt_text text ((n * 86400 + (h * 60 + mi) * 60 + x) * 1000000).
Proof.
  intros dig f3 f4 l i i' e st ys y ms m ds d hs h mis mi ss x n D H S E1 E2 F1 F2 F3 F4 F5 F6 Hy V C N.
  set (t := (n * 86400 + (h * 60 + mi) * 60 + x) * 1000000).
  assert (T : compact_time dig (col 1 l ++ col 2 l) = Some t).
  { unfold compact_time. rewrite E1, E2. rewrite (C131_full_partial dig ys y ms m ds d hs h mis mi ss x n); auto. }
  exists (fmt_dt t). split.
  - destruct H; try (match goal with A : forall st, ~ _ |- _ => destruct (A st S) end); try congruence; cbn [figures i_entrust]; congruence.
  - apply parse_dt_iff, parse_fmt_dt. destruct C as (C1 & C2 & C3).
    assert (Ed : dt_date t = n) by (unfold dt_date, t, DAY; symmetry; apply Z.div_unique with (r := ((h * 60 + mi) * 60 + x) * 1000000); lia).
    rewrite Ed. unfold date_ok. rewrite (year_of_day y m d n V N). destruct V as [[_ V] _]. lia.
Qed.
Print Assumptions C131_shown_partial.

Definition demo_dig (c : N) : option Z := if is_digit c then Some (Z.of_N c - 48) else None.
Example C131_demo :
  strptime_compact demo_dig (lit "20220108093000") = Ok (days_of_civil 2022 1 8 * DAY + 34200 * US) /\
  strptime_compact demo_dig (lit "2022010893000") = Ok (days_of_civil 2022 1 8 * DAY + 34200 * US) /\
  strptime_compact demo_dig (lit "2022010813000") = Ok (days_of_civil 2022 1 8 * DAY + 46800 * US) /\
  strptime_compact demo_dig (lit "20229999093000") = Err ValueError /\
  strptime_compact demo_dig (lit "20220108") = Err ValueError /\
  strptime_compact demo_dig (lit "20220108 093000") = Err ValueError /\
  strptime_compact demo_dig (lit "2022-01-08093000") = Err ValueError /\
  strptime_compact demo_dig (lit "202211121") = Ok (days_of_civil 2022 1 1 * DAY + 3721 * US).
Proof. vm_compute. repeat split. Qed.
