(** C129: which texts [parse_dt] and [parse_time] accept, and the time they give, for every
    text: strptime as CPython's regular expression. *)
From Verif Require Import PyBase PyStr LStr MTime MDate LDate LDate2 SDate MStrptime SStrptime LStrptime.
From Verif Require MStrategy.
Open Scope Z_scope.

Theorem C129_read : forall dig s t, digits_ok dig -> (strptime_dt dig s = Ok t <-> any_dt dig s t).
Proof. intros dig s t H. apply strptime_dt_iff, H. Qed.
Print Assumptions C129_read.
Theorem C129_error : forall dig s e, digits_ok dig ->
  (strptime_dt dig s = Err e <-> (forall t, ~ any_dt dig s t) /\ e = ValueError).
Proof.
  intros dig s e D. split.
  - intro H. split; [intros t A; apply strptime_dt_iff in A; [congruence|exact D]|eapply strptime_dt_err, H].
  - intros [H ->]. destruct (strptime_dt dig s) as [t|e] eqn:E; [apply strptime_dt_iff in E; [destruct (H t E)|exact D]|].
    f_equal. eapply strptime_dt_err, E.
Qed.
Print Assumptions C129_error.
(** A text denotes one time only. *)
Theorem C129_unique : forall dig s t t', digits_ok dig -> any_dt dig s t -> any_dt dig s t' -> t = t'.
Proof. intros dig s t t' D H H'. apply strptime_dt_iff in H, H'; auto. congruence. Qed.
Print Assumptions C129_unique.

Theorem C129_time : forall dig s t, digits_ok dig ->
  (strptime_time dig s = Ok t <-> exists sec, hms_text dig s sec /\ t = sec * 1000000).
Proof. intros dig s t H. apply strptime_time_iff, H. Qed.
Print Assumptions C129_time.
Theorem C129_time_error : forall dig s e, digits_ok dig ->
  (strptime_time dig s = Err e <-> (forall sec, ~ hms_text dig s sec) /\ e = ValueError).
Proof.
  intros dig s e D. split.
  - intro H. split; [|eapply strptime_time_err, H]. intros sec A.
    assert (X : strptime_time dig s = Ok (sec * 1000000)) by (apply strptime_time_iff; eauto). congruence.
  - intros [H ->]. destruct (strptime_time dig s) as [t|e] eqn:E.
    + apply strptime_time_iff in E as (sec & A & _); [destruct (H sec A)|exact D].
    + f_equal. eapply strptime_time_err, E.
Qed.
Print Assumptions C129_time_error.

(** ** ASCII texts with one blank: the simpler models of the other files *)
Section Plain.
  Context (dig : N -> option Z) (D : digits_ok dig).

  Lemma asc_digit c v : (c < 128)%N -> any dig c v -> asc c v.
  Proof.
    intros Hc H. unfold any in H. rewrite (proj1 D c Hc) in H. destruct (is_digit c) eqn:E; [|discriminate].
    injection H as <-. unfold is_digit in E. apply andb_prop in E as [E1 E2]. apply N.leb_le in E1, E2. split; lia.
  Qed.
  Definition ascii (s : str) : Prop := Forall (fun c => (c < 128)%N) s.
  Lemma year_field s y : field 4 4 s y -> year_text dig s y.
  Proof.
    intros [Hl Hf]. apply dec_value in Hf as [Hf <-]. destruct s as [|a [|b [|c [|d [|]]]]]; cbn in Hl; try lia.
    cbn in Hf. rewrite !andb_true_iff in Hf. destruct Hf as (Ha & Hb & Hc & Hd & _).
    assert (X : forall c, is_digit c = true -> any dig c (digit_val c)).
    { intros e He. unfold any. rewrite (proj1 D); [rewrite He; reflexivity|]. unfold is_digit in He. apply andb_prop in He as [_ He].
      apply N.leb_le in He. lia. }
    exists a, b, c, d, (digit_val a), (digit_val b), (digit_val c), (digit_val d).
    repeat (split; [reflexivity || apply X; assumption|]). unfold num_value. cbn [fold_left]. lia.
  Qed.
  Lemma field_year s y : ascii s -> year_text dig s y -> field 4 4 s y.
  Proof.
    intros A (a & b & c & d & x1 & x2 & x3 & x4 & -> & H1 & H2 & H3 & H4 & ->).
    inversion A as [|? ? A1 R1]; subst. inversion R1 as [|? ? A2 R2]; subst. inversion R2 as [|? ? A3 R3]; subst. inversion R3 as [|? ? A4 R4]; subst.
    apply asc_digit in H1 as [? ->], H2 as [? ->], H3 as [? ->], H4 as [? ->]; auto. split; [cbn; lia|].
    replace (1000 * x1 + 100 * x2 + 10 * x3 + x4) with (10 * (10 * (10 * (10 * 0 + x1) + x2) + x3) + x4) by lia.
    change [Z.to_N (48 + x1); Z.to_N (48 + x2); Z.to_N (48 + x3); Z.to_N (48 + x4)]
      with (((([] ++ [Z.to_N (48 + x1)]) ++ [Z.to_N (48 + x2)]) ++ [Z.to_N (48 + x3)]) ++ [Z.to_N (48 + x4)]).
    repeat (apply dec_snoc; [|assumption]). constructor.
  Qed.
  Lemma day_field s d : field 1 2 s d -> day_text dig s d.
  Proof.
    intros H. apply field_asc in H as [(c & -> & Hc)|(a & c & x & w & -> & Ha & Hc & ->)]; [apply day_one, Hc|].
    apply day_two; auto. apply asc_any; assumption.
  Qed.
  Lemma field_day s d : ascii s -> has_char 32 s = false -> day_text dig s d -> field 1 2 s d.
  Proof.
    intros A Hb H. revert A Hb. destruct H as [c v Hc|c v Hc|a c x v Ha Hc _]; intros A Hb.
    - apply asc_field1, Hc.
    - exfalso. apply Bool.not_true_iff_false in Hb. apply Hb. apply (proj2 (has_char_In _ _)). left. reflexivity.
    - apply asc_field2; [exact Ha|]. apply asc_digit; [|exact Hc]. inversion A as [|? ? _ R]; subst. inversion R; assumption.
  Qed.
  Lemma unit_field top s v : v <= top -> field 1 2 s v -> unit_text dig top s v.
  Proof.
    intros Hv H. apply field_asc in H as [(c & -> & Hc)|(a & c & x & w & -> & Ha & Hc & ->)].
    - apply clock_one. apply asc_any; assumption.
    - apply clock_two; auto. apply asc_any; assumption.
  Qed.
  Lemma field_unit top s v : ascii s -> unit_text dig top s v -> field 1 2 s v.
  Proof.
    intros A H. revert A. destruct H as [c w Hc|a c x w Ha Hc _ _]; intros A.
    - apply asc_field1, asc_digit; [inversion A; assumption|exact Hc].
    - apply asc_field2; [exact Ha|]. apply asc_digit; [|exact Hc]. inversion A as [|? ? _ R]; subst. inversion R; assumption.
  Qed.
  Lemma hms_more s t : parse_hms s = Ok t -> strptime_time dig s = Ok t.
  Proof.
    intros H. apply parse_hms_iff in H as (hs & h & ms & m & ss & sec & -> & F1 & F2 & F3 & (C1 & C2 & C3) & ->).
    apply strptime_time_iff; [exact D|]. eexists. split; [|reflexivity]. exists hs, h, ms, m, ss, sec. split; [reflexivity|].
    split; [apply unit_field; [lia|assumption]|]. split; [apply unit_field; [lia|assumption]|]. split; [apply unit_field; [lia|assumption]|]. reflexivity.
  Qed.
  Lemma hms_same s : ascii s -> strptime_time dig s = parse_hms s.
  Proof.
    intros A. destruct (parse_hms s) as [t|e] eqn:E; [apply hms_more, E|]. apply parse_hms_err in E as X. subst e.
    destruct (strptime_time dig s) as [t|e] eqn:E'; [|f_equal; eapply strptime_time_err, E'].
    apply strptime_time_iff in E' as (sec & (hs & h & ms & m & ss & x & -> & H1 & H2 & H3 & ->) & ->); [|exact D].
    exfalso. unfold ascii in A. rewrite !Forall_app in A. destruct A as (A1 & _ & A2 & _ & A3).
    pose proof (unit_range dig D 23 hs h ltac:(lia) H1). pose proof (unit_range dig D 59 ms m ltac:(lia) H2). pose proof (unit_range dig D 59 ss x ltac:(lia) H3).
    rewrite (proj2 (parse_hms_iff _ (((h * 60 + m) * 60 + x) * 1000000))) in E; [discriminate|].
    exists hs, h, ms, m, ss, x. split; [reflexivity|]. split; [eapply field_unit; eauto|]. split; [eapply field_unit; eauto|].
    split; [eapply field_unit; eauto|]. split; [unfold clock; lia|reflexivity].
  Qed.
  Lemma dt_more s t : parse_dt s = Ok t -> strptime_dt dig s = Ok t.
  Proof.
    intros H. apply parse_dt_iff in H as (ys & y & ms & m & ds & d & hs & h & mis & mi & ss & sec & x & us & n & -> & F1 & F2 & F3 & G1 & G2 & G3 & X & V & (C1 & C2 & C3) & N & ->).
    apply strptime_dt_iff; [exact D|].
    exists ys, y, ms, m, ds, d, (lit " "), (hs ++ lit ":" ++ mis ++ lit ":" ++ ss), ((h * 60 + mi) * 60 + sec), x, us, n.
    split; [repeat rewrite <- app_assoc; reflexivity|]. split; [apply year_field, F1|]. split; [exact F2|]. split; [apply day_field, F3|].
    split; [discriminate|]. split; [repeat constructor|]. split.
    { exists hs, h, mis, mi, ss, sec. split; [reflexivity|]. split; [apply unit_field; [lia|assumption]|]. split; [apply unit_field; [lia|assumption]|].
      split; [apply unit_field; [lia|assumption]|reflexivity]. }
    split; [exact X|]. split; [exact V|]. split; [exact N|]. lia.
  Qed.
End Plain.

(** Whatever the model of [parse_dt] in MDate.v reads, strptime reads the same; and on ASCII
    texts with no white space but at most one blank they are the same. *)
Theorem C129_more : forall dig s t, digits_ok dig -> parse_dt s = Ok t -> strptime_dt dig s = Ok t.
Proof. intros. apply dt_more; assumption. Qed.
Print Assumptions C129_more.
Theorem C129_plain : forall dig s, digits_ok dig -> Forall (fun c => (c < 128)%N) s ->
  filter is_space s = [] \/ filter is_space s = lit " " -> strptime_dt dig s = parse_dt s.
Proof.
  intros dig s D A B. destruct (parse_dt s) as [t|e] eqn:E; [apply dt_more; assumption|]. apply parse_dt_err in E as X. subst e.
  destruct (strptime_dt dig s) as [t|e] eqn:E'; [|f_equal; eapply strptime_dt_err, E'].
  apply strptime_dt_iff in E'; [|exact D].
  destruct E' as (ys & y & ms & m & ds & d & ws & cs & sec & x & us & n & -> & Hy & Hm & Hd & Hn & Hw &
              (hs & h & mis & mi & ss & se & -> & H1 & H2 & H3 & ->) & Fx & V & N & ->).
  exfalso. rewrite !Forall_app in A. destruct A as (A1 & _ & A2 & _ & A3 & _ & (A4 & _ & A5 & _ & A6) & _).
  assert (W : filter is_space ws = ws).
  { clear - Hw. induction Hw as [|c ws Hc Hw IH]; [reflexivity|]. cbn. rewrite Hc, IH. reflexivity. }
  assert (L : (length (filter is_space ds) + length ws <= 1)%nat).
  { assert (T : (length (filter is_space (ys ++ lit "-" ++ ms ++ lit "-" ++ ds ++ ws ++ (hs ++ lit ":" ++ mis ++ lit ":" ++ ss) ++ x)) <= 1)%nat)
      by (destruct B as [-> | ->]; cbn; lia).
    rewrite !filter_app, !app_length, W in T. lia. }
  destruct ws as [|w [|w' ws]]; [congruence| |cbn in L; lia].
  assert (Ew : w = 32%N).
  { assert (I : In w (filter is_space (ys ++ lit "-" ++ ms ++ lit "-" ++ ds ++ [w] ++ (hs ++ lit ":" ++ mis ++ lit ":" ++ ss) ++ x))).
    { apply filter_In. split; [|apply Forall_inv in Hw; exact Hw]. rewrite !in_app_iff. cbn. tauto. }
    destruct B as [B|B]; rewrite B in I; [destruct I|]. destruct I as [<-|[]]. reflexivity. }
  subst w. assert (Hb : has_char 32 ds = false).
  { destruct (has_char 32 ds) eqn:Eb; [|reflexivity]. apply has_char_In in Eb. exfalso.
    assert (I : In 32%N (filter is_space ds)) by (apply filter_In; auto).
    destruct (filter is_space ds); [destruct I|cbn in L; lia]. }
  pose proof (unit_range dig D 23 hs h ltac:(lia) H1). pose proof (unit_range dig D 59 mis mi ltac:(lia) H2). pose proof (unit_range dig D 59 ss se ltac:(lia) H3).
  rewrite (proj2 (parse_dt_iff _ ((n * 86400 + ((h * 60 + mi) * 60 + se)) * 1000000 + us))) in E; [discriminate|].
  exists ys, y, ms, m, ds, d, hs, h, mis, mi, ss, se, x, us, n. split; [repeat rewrite <- app_assoc; reflexivity|].
  split; [eapply field_year; eauto|]. split; [exact Hm|]. split; [eapply field_day; eauto|].
  split; [eapply field_unit; eauto|]. split; [eapply field_unit; eauto|]. split; [eapply field_unit; eauto|].
  split; [exact Fx|]. split; [exact V|]. split; [unfold clock; lia|]. split; [exact N|]. lia.
Qed.
Print Assumptions C129_plain.

Lemma two_field s : MStrategy.field s = num 1 2 s.
Proof.
  unfold num, num_value. destruct s as [|a [|b [|c s]]]; cbn [length Nat.leb andb forallb MStrategy.field fold_left]; rewrite ?andb_true_r; try reflexivity.
Qed.
(** The times of the market periods, on ASCII texts. *)
Theorem C129_periods : forall dig s, digits_ok dig -> Forall (fun c => (c < 128)%N) s ->
  strptime_time dig s = MStrategy.parse_time (MStrategy.TStr s).
Proof.
  intros dig s D A. rewrite (hms_same dig D s A). unfold parse_hms, MStrategy.parse_time.
  destruct (split_on 58%N s) as [|a [|b [|c [|]]]]; try reflexivity. rewrite !two_field. reflexivity.
Qed.
Print Assumptions C129_periods.

(** ** examples: ASCII digits and the Arabic-Indic ones, U+0660 to U+0669 *)
Definition demo_dig (c : N) : option Z :=
  if is_digit c then Some (Z.of_N c - 48) else if ((1632 <=? c) && (c <=? 1641))%N then Some (Z.of_N c - 1632) else None.
Lemma demo_ok : digits_ok demo_dig.
Proof.
  split.
  - intros c Hc. unfold demo_dig. destruct (is_digit c); [reflexivity|]. destruct (N.leb_spec 1632 c); [lia|reflexivity].
  - intros c v. unfold demo_dig, is_digit.
    destruct (N.leb_spec 48 c), (N.leb_spec c 57), (N.leb_spec 1632 c), (N.leb_spec c 1641); cbn [andb]; try discriminate; intros [= <-];
    (split; [lia|]); unfold is_space;
    repeat match goal with |- context [(?a =? ?b)%N] => destruct (N.eqb_spec a b); [lia|] | |- context [(?a <=? ?b)%N] => destruct (N.leb_spec a b); [try lia|try lia] end; try reflexivity; lia.
Qed.
Example C129_demo :
  strptime_dt demo_dig (lit "2024-02-29 9:05:07.25") = Ok 1709197507250000 /\
  strptime_dt demo_dig (lit "2024-2- 9" ++ [32; 9; 32]%N ++ lit "9:5:7") = Ok (days_of_civil 2024 2 9 * DAY + 32707 * US) /\
  strptime_dt demo_dig ([1634; 1632; 1634; 1636]%N ++ lit "-02-1" ++ [1635%N] ++ lit " 1" ++ [1633%N] ++ lit ":30:00") =
    Ok (days_of_civil 2024 2 13 * DAY + 41400 * US) /\
  strptime_dt demo_dig (lit "2024-02-0" ++ [1635%N] ++ lit " 11:30:00") = Err ValueError /\
  strptime_dt demo_dig (lit "2024-02-29 09:05:60") = Err ValueError /\
  strptime_dt demo_dig (lit "2024-02-29 09:05:07 ") = Err ValueError /\
  strptime_dt demo_dig (lit " 2024-02-29 09:05:07") = Err ValueError /\
  strptime_dt demo_dig (lit "2024-02-2909:05:07") = Err ValueError /\
  strptime_dt demo_dig (lit "2024-02-29 09:05:07.1234567") = Err ValueError.
Proof. vm_compute. repeat split. Qed.
(** a text the simpler model rejects *)
Example C129_more_strict : parse_dt (lit "2024-02-29  09:05:07") = Err ValueError /\
  strptime_dt demo_dig (lit "2024-02-29  09:05:07") = Ok 1709197507000000.
Proof. vm_compute. split; reflexivity. Qed.
Example C129_time_demo :
  strptime_time demo_dig (lit "9:30:0") = Ok (34200 * US) /\
  strptime_time demo_dig ([1641%N] ++ lit ":30:00") = Ok (34200 * US) /\
  strptime_time demo_dig (lit "24:00:00") = Err ValueError /\
  strptime_time demo_dig (lit "09:30") = Err ValueError /\
  strptime_time demo_dig (lit " 9:30:00") = Err ValueError.
Proof. vm_compute. repeat split. Qed.
