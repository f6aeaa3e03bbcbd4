(** Lemmas for C132: the texts float() takes. *)
From Verif Require Import PyBase PyStr PyFloat MNumber SFloat SNumber LFloat LFloat2.
From Coq Require Import QArith Qabs Qpower Lqa.
Open Scope Z_scope.

Lemma digit_iff c : is_digit c = true <-> ascii_digit c.
Proof. unfold is_digit, ascii_digit. rewrite andb_true_iff, !N.leb_le. reflexivity. Qed.
Lemma digit_no c : is_digit c = false <-> ~ ascii_digit c.
Proof. rewrite <- digit_iff. symmetry. apply not_true_iff_false. Qed.

Lemma dec_snoc s c : dec_val (s ++ [c]) = 10 * dec_val s + (Z.of_N c - 48).
Proof. unfold dec_val. rewrite fold_left_app. cbn [fold_left]. unfold digit_val. ring. Qed.
Lemma denotes_iff s z : denotes s z <-> all_digits s = true /\ dec_val s = z.
Proof.
  split.
  - induction 1 as [|s c z H [I1 I2] Hc]; [split; reflexivity|]. split.
    + unfold all_digits in *. rewrite forallb_app, I1. cbn. apply digit_iff in Hc. rewrite Hc. reflexivity.
    + rewrite dec_snoc, I2. reflexivity.
  - revert z. induction s as [|c s IH] using rev_ind; intros z [H1 H2].
    + cbn in H2. subst. constructor.
    + unfold all_digits in H1. rewrite forallb_app in H1. apply andb_prop in H1. destruct H1 as [A B]. cbn in B. rewrite andb_true_r in B.
      rewrite dec_snoc in H2. subst z. constructor; [apply IH; split; [exact A|reflexivity]|apply digit_iff; exact B].
Qed.
Lemma denotes_nonneg s z : denotes s z -> 0 <= z.
Proof. induction 1 as [|s c z H I Hc]; [lia|]. unfold ascii_digit in Hc. lia. Qed.
Lemma denotes_fun s z z' : denotes s z -> denotes s z' -> z = z'.
Proof. rewrite !denotes_iff. intros [_ <-] [_ <-]. reflexivity. Qed.

(** not followed by a digit *)
Definition stops (r : str) : Prop := match r with c :: _ => ~ ascii_digit c | [] => True end.
Lemma span_spec s : s = fst (span s) ++ snd (span s) /\ all_digits (fst (span s)) = true /\ stops (snd (span s)).
Proof.
  induction s as [|c s (I1 & I2 & I3)]; [cbn; auto|]. cbn [span]. destruct (is_digit c) eqn:E; cbn [fst snd].
  - split; [cbn; congruence|]. split; [unfold all_digits in *; cbn; rewrite E, I2; reflexivity|exact I3].
  - split; [reflexivity|]. split; [reflexivity|]. apply digit_no. exact E.
Qed.
Lemma span_app a r : all_digits a = true -> stops r -> span (a ++ r) = (a, r).
Proof.
  induction a as [|c a IH]; intros H S.
  - destruct r as [|c r]; [reflexivity|]. cbn. cbn in S. apply digit_no in S. rewrite S. reflexivity.
  - unfold all_digits in *. cbn in H. apply andb_prop in H. destruct H as [H1 H2]. cbn. rewrite H1, (IH H2 S). reflexivity.
Qed.
Lemma all_app a b : all_digits (a ++ b) = true <-> all_digits a = true /\ all_digits b = true.
Proof. unfold all_digits. rewrite forallb_app, andb_true_iff. reflexivity. Qed.

Lemma signed_spec s : exists sg, s = sg ++ snd (signed s) /\ sign sg (if fst (signed s) then -1 else 1).
Proof.
  destruct s as [|c s]; [exists []; split; [reflexivity|constructor]|]. cbn [signed].
  destruct (N.eqb_spec c 45) as [->|]; [exists [45%N]; split; [reflexivity|constructor]|].
  destruct (N.eqb_spec c 43) as [->|]; [exists [43%N]; split; [reflexivity|constructor]|]. exists []. split; [reflexivity|constructor].
Qed.
(** a text that does not begin with a sign *)
Definition unsigned (s : str) : Prop := match s with c :: _ => c <> 45%N /\ c <> 43%N | [] => True end.
Lemma signed_app sg k s : sign sg k -> unsigned s -> signed (sg ++ s) = ((k =? -1), s).
Proof.
  intros H U. destruct H; cbn; try reflexivity. destruct s as [|c s]; [reflexivity|]. destruct U as [A B]. cbn [signed].
  destruct (N.eqb_spec c 45); [congruence|]. destruct (N.eqb_spec c 43); [congruence|]. reflexivity.
Qed.
Lemma digits_unsigned a r : a <> [] -> all_digits a = true -> unsigned (a ++ r).
Proof.
  destruct a as [|c a]; [congruence|]. intros _ H. unfold all_digits in H. cbn in *. apply andb_prop in H. destruct H as [H _]. apply digit_iff in H. unfold ascii_digit in H. lia.
Qed.

Lemma decimal_sound s m e : decimal s = Some (m, e) -> exists mt x p e', s = mt ++ x /\ mantissa mt m p /\ exponent x e' /\ e = e' - p.
Proof.
  unfold decimal. destruct (span_spec s) as (E1 & A1 & _). destruct (span s) as [a r]. cbn [fst snd] in *.
  set (br := match r with c :: t => if (c =? 46)%N then span t else ([], r) | [] => ([], r) end).
  assert (B : exists mt b r', br = (b, r') /\ s = mt ++ r' /\ all_digits b = true /\ (a ++ b <> [] -> mantissa mt (dec_val (a ++ b)) (Z.of_nat (length b)))).
  { subst br. destruct r as [|c t]; [|destruct (N.eqb_spec c 46) as [->|]].
    - exists a, [], []. split; [reflexivity|]. split; [exact E1|]. split; [reflexivity|]. rewrite app_nil_r. intro N. apply m_whole; [exact N|]. apply denotes_iff. auto.
    - destruct (span_spec t) as (E2 & A2 & _). destruct (span t) as [b r']. cbn [fst snd] in *. exists (a ++ 46%N :: b), b, r'.
      split; [reflexivity|]. split; [rewrite E1, E2, <- app_assoc; reflexivity|]. split; [exact A2|]. intro N. apply m_point; [exact N|]. apply denotes_iff. split; [apply all_app; auto|reflexivity].
    - exists a, [], (c :: t). split; [reflexivity|]. split; [exact E1|]. split; [reflexivity|]. rewrite app_nil_r. intro N. apply m_whole; [exact N|]. apply denotes_iff. auto. }
  destruct B as (mt & b & r' & -> & Es & _ & Hm). cbn iota beta.
  destruct (a ++ b) as [|d0 ds] eqn:Eab; [discriminate|]. specialize (Hm ltac:(discriminate)). destruct r' as [|c t].
  - intro H. injection H as H1 H2. exists mt, [], (Z.of_nat (length b)), 0. subst m. repeat split; [exact Es|exact Hm|constructor|lia].
  - destruct (_ || _)%bool eqn:Ec; [|discriminate]. destruct (signed_spec t) as (sg & Et & Hs). destruct (signed t) as [neg t']. cbn [fst snd] in *.
    destruct t' as [|c1 t1]; [discriminate|]. destruct (all_digits (c1 :: t1)) eqn:Ad; [|discriminate]. intro H. injection H as H1 H2.
    exists mt, (c :: sg ++ c1 :: t1), (Z.of_nat (length b)), ((if neg then -1 else 1) * dec_val (c1 :: t1)). subst m. split; [rewrite Es, Et; reflexivity|]. split; [exact Hm|]. split.
    + apply e_some; [|exact Hs|discriminate|apply denotes_iff; auto]. apply orb_prop in Ec. destruct Ec as [Ec|Ec]; apply N.eqb_eq in Ec; auto.
    + rewrite <- H2. destruct neg; lia.
Qed.
Lemma exponent_stops x e : exponent x e -> stops x /\ (x = [] \/ exists c t, x = c :: t /\ (c =? 46)%N = false).
Proof.
  destruct 1 as [|c sg k a z Hc]; [cbn; auto|]. split.
  - cbn. unfold ascii_digit. destruct Hc; subst; lia.
  - right. do 2 eexists. split; [reflexivity|]. destruct Hc; subst; reflexivity.
Qed.
Lemma exponent_read x e (d0 : N) (ds : str) m p : exponent x e ->
  match d0 :: ds, x with
  | [], _ => None
  | _, [] => Some (m, - p)
  | _, c :: t =>
      if (c =? 101)%N || (c =? 69)%N then
        let (neg, t') := signed t in
        match t' with
        | [] => None
        | _ => if all_digits t' then Some (m, - p + (if neg then - dec_val t' else dec_val t')) else None
        end
      else None
  end = Some (m, e - p) :> option (Z * Z).
Proof.
  destruct 1 as [|c sg k a z Hc Hs Ha Hd]; [f_equal; f_equal; lia|]. apply denotes_iff in Hd. destruct Hd as [D1 D2].
  assert (E : ((c =? 101) || (c =? 69))%N = true) by (destruct Hc; subst; reflexivity). rewrite E.
  rewrite (signed_app sg k a Hs) by (rewrite <- (app_nil_r a); apply digits_unsigned; assumption). destruct a as [|c1 a]; [congruence|]. rewrite D1, D2. f_equal. f_equal.
  destruct Hs; [change (1 =? -1) with false|change (1 =? -1) with false|change (-1 =? -1) with true]; cbn iota; lia.
Qed.
Lemma decimal_complete mt m p x e : mantissa mt m p -> exponent x e -> decimal (mt ++ x) = Some (m, e - p).
Proof.
  intros Hm Hx. destruct (exponent_stops x e Hx) as [St Pt]. unfold decimal. destruct Hm as [a z Ha Hd|a b z Hab Hd].
  - apply denotes_iff in Hd. destruct Hd as [D1 D2]. rewrite (span_app a x D1 St). cbn iota beta. assert (Er := fun d0 ds => exponent_read x e d0 ds z 0 Hx).
    destruct Pt as [->|(c & t & -> & Ep)]; [|rewrite Ep]; cbn iota beta; rewrite app_nil_r, D2; (destruct a as [|d0 ds]; [congruence|]; exact (Er d0 ds)).
  - apply denotes_iff in Hd. destruct Hd as [D1 D2]. apply all_app in D1. destruct D1 as [Da Db]. rewrite <- app_assoc. cbn [app].
    rewrite (span_app a (46%N :: b ++ x) Da) by (cbn; unfold ascii_digit; lia). cbn iota beta. rewrite N.eqb_refl, (span_app b x Db St). cbn iota beta. rewrite D2.
    destruct (a ++ b) as [|d0 ds]; [congruence|]. exact (exponent_read x e d0 ds z _ Hx).
Qed.
Lemma mantissa_head mt m p x : mantissa mt m p -> unsigned (mt ++ x) /\ exists c t, mt ++ x = c :: t /\ ~ (97 <= lower c <= 122)%N.
Proof.
  intros Hm. assert (Hc : exists c t, mt ++ x = c :: t /\ (ascii_digit c \/ c = 46%N)).
  { destruct Hm as [a z Ha Hd|a b z Hab Hd]; apply denotes_iff in Hd; destruct Hd as [D _].
    - destruct a as [|c a]; [congruence|]. unfold all_digits in D. cbn in D. apply andb_prop in D. destruct D as [D _]. apply digit_iff in D. cbn. eauto.
    - destruct a as [|c a]; [cbn; eauto|]. unfold all_digits in D. cbn in D. apply andb_prop in D. destruct D as [D _]. apply digit_iff in D. cbn. eauto. }
  destruct Hc as (c & t & E & H). rewrite E. split.
  - cbn. unfold ascii_digit in H. lia.
  - exists c, t. split; [reflexivity|]. unfold lower, ascii_digit in *. destruct ((65 <=? c) && (c <=? 90))%N eqn:L; [|lia]. apply andb_prop in L. rewrite !N.leb_le in L. lia.
Qed.

Lemma lower_iff a b : (97 <= a <= 122)%N -> (lower b = a <-> same_letter a b).
Proof.
  intros Ha. unfold lower, same_letter. destruct ((65 <=? b) && (b <=? 90))%N eqn:L.
  - apply andb_prop in L. rewrite !N.leb_le in L. lia.
  - apply andb_false_iff in L. rewrite !N.leb_gt in L. lia.
Qed.
Lemma word_iff w s : Forall (fun a => (97 <= a <= 122)%N) w -> (map lower s = w <-> word w s).
Proof.
  intros Hw. revert s. induction Hw as [|a w Ha Hw IH]; intros s.
  - split; [destruct s; [constructor|discriminate]|inversion 1; reflexivity].
  - split.
    + destruct s as [|b s]; [discriminate|]. cbn. intro H. injection H as H1 H2. constructor; [apply lower_iff; assumption|apply IH; assumption].
    + inversion 1; subst. cbn. f_equal; [apply lower_iff; assumption|apply IH; assumption].
Qed.
Ltac letters := repeat constructor; intro; discriminate.
Lemma inf_iff s : PyBase.eqb (map lower s) (lit "inf") || PyBase.eqb (map lower s) (lit "infinity") = true <-> word (lit "inf") s \/ word (lit "infinity") s.
Proof. rewrite orb_true_iff, !(@eqb_true str _), !word_iff by letters. reflexivity. Qed.
Lemma nan_iff s : PyBase.eqb (map lower s) (lit "nan") = true <-> word (lit "nan") s.
Proof. rewrite (@eqb_true str _), word_iff by letters. reflexivity. Qed.

Lemma word_unsigned a w s : (97 <= a <= 122)%N -> word (a :: w) s -> unsigned s /\ decimal s = None.
Proof.
  intros Ha H. inversion H as [|? c ? t Hc Ht]; subst. unfold same_letter in Hc. split; [cbn; lia|].
  unfold decimal. cbn [span]. assert (D : is_digit c = false) by (apply digit_no; unfold ascii_digit; lia). rewrite D.
  destruct (N.eqb_spec c 46); [lia|]. reflexivity.
Qed.

Lemma ungroup_iff s : (forall t, ungroup false s = Some t <-> grouped s t) /\ (forall a t, ascii_digit a -> (ungroup true s = Some t <-> grouped (a :: s) (a :: t))).
Proof.
  induction s as [|c s [I1 I2]].
  - split.
    + intro t. cbn. split; [intro H; injection H as <-; constructor|inversion 1; reflexivity].
    + intros a t Ha. cbn. split; [intro H; injection H as <-; constructor; [unfold ascii_digit in Ha; lia|constructor]|].
      inversion 1 as [|? ? ? ? G|]; subst. inversion G; reflexivity.
  - assert (G : forall t, c <> 95%N -> (option_map (cons c) (ungroup (is_digit c) s) = Some t <-> grouped (c :: s) t)).
    { intros t Hc. destruct (is_digit c) eqn:D.
      - apply digit_iff in D. split.
        + destruct (ungroup true s) as [t'|] eqn:E; [|discriminate]. cbn. intro H. injection H as <-. apply (I2 c t' D); reflexivity.
        + intro H. assert (exists t', t = c :: t') as (t' & ->) by (inversion H; eauto). apply I2 in H; [|exact D]. rewrite H. reflexivity.
      - apply digit_no in D. split.
        + destruct (ungroup false s) as [t'|] eqn:E; [|discriminate]. cbn. intro H. injection H as <-. apply g_char; [exact Hc|]. apply I1. reflexivity.
        + inversion 1 as [|? ? ? ? G|]; subst; [|tauto]. apply I1 in G. rewrite G. reflexivity. }
    split.
    + intro t. cbn [ungroup]. destruct (N.eqb_spec c 95) as [->|Hc]; [|apply G; exact Hc]. split.
      * destruct s; discriminate.
      * inversion 1 as [|? ? ? H1|? ? ? ? H1]; subst; [congruence|unfold ascii_digit in H1; lia].
    + intros a t Ha. cbn [ungroup]. assert (N95 : a <> 95%N) by (unfold ascii_digit in Ha; lia). destruct (N.eqb_spec c 95) as [->|Hc].
      * split.
        -- destruct s as [|d s]; [discriminate|]. cbn [andb]. destruct (is_digit d) eqn:D; [|discriminate]. intro H. apply digit_iff in D. apply g_under; [exact Ha|exact D|]. apply I1. exact H.
        -- inversion 1 as [|? ? ? ? H2|? b ? ? _ Hb H2]; subst.
           ++ inversion H2 as [|? ? ? H1|? ? ? ? H1]; subst; [congruence|unfold ascii_digit in H1; lia].
           ++ cbn [andb]. apply digit_iff in Hb. rewrite Hb. apply I1. exact H2.
      * rewrite (G t Hc). split; [apply g_char; exact N95|]. inversion 1; subst; [assumption|congruence].
Qed.
