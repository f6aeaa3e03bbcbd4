(** C132: what float() and round() make of the figures in the broker's files. *)
From Verif Require Import PyBase PyStr PyFloat MNumber SFloat SNumber LFloat LFloat2 LStr SWhen LWhen SStrptime LNumber.
From Verif Require Import MOrder MAccount MGate SGate SLine.
From Coq Require Import QArith Qabs Qpower Lqa.
Open Scope Z_scope.

(** the float made of a value: the nearest double, an infinity if that is too large *)
Inductive made : value -> fnum -> Prop :=
| made_fin q x : nearest q (qv x) -> rep x -> (Qabs (qv x) < inject_Z (2 ^ 1024))%Q -> made (VNum q) (Fin x)
| made_big q v neg : nearest q v -> (inject_Z (2 ^ 1024) <= Qabs v)%Q -> (neg = true <-> (v < 0)%Q) -> made (VNum q) (Inf neg)
| made_inf k neg : (neg = true <-> k = -1) -> made (VInf k) (Inf neg)
| made_nan : made VNaN NaN.

(** an ASCII text with the digits of all scripts written as ASCII ones *)
Definition latin (dig : N -> option Z) (c d : N) : Prop := (c < 128)%N /\ d = c \/ (128 <= c)%N /\ exists v, dig c = Some v /\ d = Z.to_N (48 + v).

(** ** the nearest double *)
Lemma nearest_eq q q' v : (q == q')%Q -> nearest q v -> nearest q' v.
Proof. intros E [A B]. split; [exact A|]. intros y Hy. specialize (B y Hy). rewrite E in B. exact B. Qed.
Lemma ten_pow e : 0 <= e -> (inject_Z (10 ^ e) == (10 # 1) ^ e)%Q.
Proof. intro H. change (10 # 1)%Q with (inject_Z 10). apply Zpower_Qpower. exact H. Qed.
Lemma ten_neg e : e < 0 -> ((10 # 1) ^ e == / inject_Z (10 ^ (- e)))%Q.
Proof. intro H. rewrite ten_pow by lia. rewrite <- Qpower_opp. replace (- - e) with e by lia. reflexivity. Qed.
Definition shape (e m : Z) : Q := (inject_Z m * (10 # 1) ^ e)%Q.
Lemma to_num_fl (neg : bool) m e : 0 <= m -> exists x, rep x /\ nearest (shape e (if neg then - m else m)) (qv x) /\
  to_num neg m e = (if 2 ^ 1024 * snd x <=? Z.abs (fst x) then Inf neg else Fin x) /\ (m = 0 -> x = (0, 1)).
Proof.
  intros Hm. unfold to_num, shape. set (m' := if neg then - m else m). destruct (Z.leb_spec 0 e) as [L|L].
  - exists (fl (m' * 10 ^ e) 1). split; [apply fl_rep|]. split; [|split; [reflexivity|]].
    + eapply nearest_eq; [|apply fl_nearest; lia]. rewrite inject_Z_mult, (ten_pow e L). change (inject_Z 1) with 1%Q. field.
    + intros ->. subst m'. destruct neg; reflexivity.
  - exists (fl m' (10 ^ (- e))). split; [apply fl_rep|]. assert (P : 0 < 10 ^ (- e)) by (apply Z.pow_pos_nonneg; lia). split; [|split; [reflexivity|]].
    + eapply nearest_eq; [|apply fl_nearest; exact P]. rewrite (ten_neg e L). reflexivity.
    + intros ->. subst m'. destruct neg; reflexivity.
Qed.
Lemma qabs_qv x : rep x -> (Qabs (qv x) == inject_Z (Z.abs (fst x)) / inject_Z (snd x))%Q.
Proof.
  intro R. unfold qv, rep in *. unfold Qdiv. rewrite Qabs_Qmult. rewrite (Qabs_pos (/ _)); [reflexivity|]. apply Qlt_le_weak, Qinv_lt_0_compat, inj_pos. exact R.
Qed.
Lemma zero_double : is_double 0%Q.
Proof. exists 0, 0. repeat split; discriminate. Qed.
(** rounding keeps the sign *)
Lemma nearest_sign q v : nearest q v -> (0 <= q -> 0 <= v)%Q /\ (q <= 0 -> v <= 0)%Q.
Proof.
  intros [_ B]. specialize (B 0%Q zero_double). split; intro H.
  - destruct (Qlt_le_dec v 0) as [L|L]; [|exact L]. exfalso. rewrite (Qabs_neg (v - q)), (Qabs_neg (0 - q)) in B by lra. lra.
  - destruct (Qlt_le_dec 0 v) as [L|L]; [|exact L]. exfalso. rewrite (Qabs_pos (v - q)), (Qabs_pos (0 - q)) in B by lra. lra.
Qed.
Lemma shape_pos e m : 0 <= m -> (0 <= shape e m)%Q.
Proof.
  intro H. unfold shape. apply Qmult_le_0_compat; [change 0%Q with (inject_Z 0); rewrite <- Zle_Qle; exact H|]. apply Qpower_pos. discriminate.
Qed.
Lemma shape_opp e m : (shape e (- m) == - shape e m)%Q.
Proof. unfold shape. rewrite inject_Z_opp. ring. Qed.
Lemma to_num_made (neg : bool) m e : 0 <= m -> made (VNum (shape e (if neg then - m else m))) (to_num neg m e).
Proof.
  intros Hm. destruct (to_num_fl neg m e Hm) as (x & R & N & E & Z0). rewrite E. clear E. pose proof (qabs_qv x R) as A. pose proof (inj_pos _ R) as P.
  destruct (Z.leb_spec (2 ^ 1024 * snd x) (Z.abs (fst x))) as [L|L].
  - assert (Big : (inject_Z (2 ^ 1024) <= Qabs (qv x))%Q).
    { rewrite A. apply Qle_shift_div_l; [exact P|]. rewrite <- inject_Z_mult, <- Zle_Qle. exact L. }
    apply (made_big _ (qv x)); [exact N|exact Big|]. destruct (nearest_sign _ _ N) as [S1 S2].
    assert (B0 : (0 < inject_Z (2 ^ 1024))%Q) by (apply inj_pos; reflexivity).
    set (big := inject_Z (2 ^ 1024)) in *. clearbody big. pose proof (shape_pos e m Hm) as Sp. destruct neg.
    + rewrite shape_opp in S2. specialize (S2 ltac:(lra)). split; [intros _|reflexivity]. rewrite Qabs_neg in Big by exact S2. lra.
    + specialize (S1 Sp). split; [discriminate|]. intro. exfalso. lra.
  - apply made_fin; [exact N|exact R|]. rewrite A. apply Qlt_shift_div_r; [exact P|]. rewrite <- inject_Z_mult, <- Zlt_Qlt. exact L.
Qed.

(** ** texts *)
Lemma mantissa_nonneg mt m p : mantissa mt m p -> 0 <= m.
Proof. destruct 1; eapply denotes_nonneg; eauto. Qed.
Lemma made_eq q q' n : (q == q')%Q -> made (VNum q) n -> made (VNum q') n.
Proof. intros E H. inversion H; subst; [apply made_fin|eapply made_big]; eauto using nearest_eq. Qed.
Lemma read_sound t n : read_num t = Some n -> exists v, float_text t v /\ made v n.
Proof.
  unfold read_num. destruct (signed_spec t) as (sg & E & S). destruct (signed t) as [neg u]. cbn [fst snd] in *. subst t.
  destruct (decimal u) as [[m e]|] eqn:D.
  - intro H. injection H as <-. apply decimal_sound in D. destruct D as (mt & x & p & e' & -> & Hm & Hx & ->). eexists. split; [eapply ft_num; eauto|].
    eapply made_eq; [|apply to_num_made, (mantissa_nonneg _ _ _ Hm)]. unfold shape. destruct neg; [replace (-1 * m) with (- m) by lia|rewrite Z.mul_1_l]; reflexivity.
  - destruct (_ || _)%bool eqn:W.
    + intro H. injection H as <-. apply inf_iff in W. eexists. split; [eapply ft_inf; eauto|]. constructor. destruct neg; split; congruence.
    + match goal with |- (if ?b then _ else _) = _ -> _ => destruct b eqn:W2 end; [|discriminate]. intro H. injection H as <-. apply nan_iff in W2. eexists. split; [eapply ft_nan; eauto|]. constructor.
Qed.
Lemma word_len w s : word w s -> length w = length s.
Proof. induction 1; cbn; congruence. Qed.
Lemma sign_cases sg k : sign sg k -> k = -1 /\ (k =? -1) = true \/ k = 1 /\ (k =? -1) = false.
Proof. destruct 1; auto. Qed.
Lemma read_complete t v : float_text t v -> exists n, read_num t = Some n /\ made v n.
Proof.
  destruct 1 as [sg k m z p x e S Hm Hx|sg k w S W|sg k w S W]; unfold read_num.
  - destruct (mantissa_head _ _ _ x Hm) as [U _]. rewrite (signed_app sg k _ S U), (decimal_complete _ _ _ _ _ Hm Hx). eexists. split; [reflexivity|].
    eapply made_eq; [|apply to_num_made, (mantissa_nonneg _ _ _ Hm)]. unfold shape. destruct (sign_cases _ _ S) as [[-> ->]|[-> ->]]; [replace (-1 * z) with (- z) by lia|rewrite Z.mul_1_l]; reflexivity.
  - assert (X : unsigned w /\ decimal w = None) by (destruct W as [W|W]; revert W; apply word_unsigned; split; discriminate).
    destruct X as [U D]. rewrite (signed_app sg k w S U), D. cbn zeta. rewrite (proj2 (inf_iff w) W). eexists. split; [reflexivity|]. constructor.
    destruct (sign_cases _ _ S) as [[-> ->]|[-> ->]]; split; congruence.
  - assert (X : unsigned w /\ decimal w = None) by (revert W; apply word_unsigned; split; discriminate).
    destruct X as [U D]. rewrite (signed_app sg k w S U), D. cbn zeta.
    destruct (_ || _)%bool eqn:Wi.
    + exfalso. apply inf_iff in Wi. assert (Hn : length w = 3%nat) by (apply word_len in W; rewrite <- W; reflexivity).
      destruct Wi as [Wi|Wi]; [|apply word_len in Wi; rewrite Hn in Wi; discriminate].
      inversion Wi as [|? a ? ? S1]; subst. inversion W as [|? ? ? ? S2]; subst. unfold same_letter in *. destruct S1 as [->|[_ ->]], S2 as [S2|[_ S2]]; vm_compute in S2; discriminate.
    + rewrite (proj2 (nan_iff w) W). eexists. split; [reflexivity|constructor].
Qed.

(** characters of a text that is a number *)
Definition num_char (c : N) : Prop := ascii_digit c \/ c = 43%N \/ c = 45%N \/ c = 46%N \/ (65 <= c <= 90)%N \/ (97 <= c <= 122)%N.
Lemma denotes_chars a z : denotes a z -> Forall num_char a.
Proof. induction 1 as [|s c z H I Hc]; [constructor|]. apply Forall_app. split; [exact I|]. constructor; [left; exact Hc|constructor]. Qed.
Lemma sign_chars sg k : sign sg k -> Forall num_char sg.
Proof. destruct 1; constructor; try (unfold num_char; tauto); constructor. Qed.
Lemma word_chars w s : Forall (fun a => (97 <= a <= 122)%N) w -> word w s -> Forall num_char s.
Proof.
  intros Hw H. induction H as [|a b w s S H I]; [constructor|]. inversion Hw; subst. constructor; [|auto]. unfold num_char, same_letter in *. lia.
Qed.
Lemma float_chars t v : float_text t v -> Forall num_char t /\ t <> [].
Proof.
  destruct 1 as [sg k m z p x e S Hm Hx|sg k w S W|sg k w S W].
  - split.
    + apply Forall_app. split; [eapply sign_chars; eauto|]. apply Forall_app. split.
      * destruct Hm as [a z Ha Hd|a b z Hab Hd]; apply denotes_chars in Hd; [exact Hd|]. apply Forall_app in Hd. destruct Hd. apply Forall_app. split; [assumption|]. constructor; [unfold num_char; auto|assumption].
      * destruct Hx as [|c sg' k' a z' Hc Hs Ha Hd]; [constructor|]. constructor; [unfold num_char; lia|]. apply Forall_app. split; [eapply sign_chars; eauto|eapply denotes_chars; eauto].
    + intro E. apply app_eq_nil in E. destruct E as [_ E]. destruct (mantissa_head _ _ _ x Hm) as [_ (c & u & E' & _)]. congruence.
  - assert (Forall num_char w /\ w <> []) as [A B].
    { destruct W as [W|W]; (split; [eapply word_chars; [|exact W]; letters|inversion W; discriminate]). }
    split; [apply Forall_app; split; [eapply sign_chars; eauto|exact A]|]. intro E. apply app_eq_nil in E. tauto.
  - assert (Forall num_char w /\ w <> []) as [A B] by (split; [eapply word_chars; [|exact W]; letters|inversion W; discriminate]).
    split; [apply Forall_app; split; [eapply sign_chars; eauto|exact A]|]. intro E. apply app_eq_nil in E. tauto.
Qed.
Lemma grouped_chars s t : grouped s t -> Forall num_char t -> Forall (fun c => num_char c \/ c = 95%N) s /\ (s = [] -> t = []).
Proof.
  induction 1 as [|c s t Hc G I|a b s t Ha Hb G I]; intro F.
  - split; [constructor|auto].
  - inversion F; subst. destruct (I ltac:(assumption)) as [I1 _]. split; [constructor; auto|discriminate].
  - inversion F; subst. destruct (I ltac:(assumption)) as [I1 _]. split; [constructor; [auto|constructor; auto]|discriminate].
Qed.

Section D.
  Context (dig : N -> option Z) (Hd : digits_ok dig).
  Lemma latin_ascii c d : latin dig c d -> ascii dig c = d.
  Proof.
    unfold latin, ascii. intros [[L ->]|(L & v & E & ->)].
    - rewrite (proj2 (N.ltb_lt c 128) L). reflexivity.
    - rewrite (proj2 (N.ltb_ge c 128) L), E. reflexivity.
  Qed.
  Lemma ascii_latin c : ascii dig c <> 63%N -> latin dig c (ascii dig c).
  Proof.
    unfold latin, ascii. destruct (N.ltb_spec c 128) as [L|L]; [auto|]. destruct (dig c) as [v|] eqn:E; [|congruence]. intros _. right. split; [exact L|]. eauto.
  Qed.
  Lemma latin_solid c d : latin dig c d -> num_char d \/ d = 95%N -> is_int_space c = false.
  Proof.
    intros L N. destruct (is_int_space c) eqn:B; [exfalso|reflexivity]. destruct L as [[L ->]|(L & v & E & ->)].
    - apply blank_iff in B. unfold blank, num_char, ascii_digit in *. lia.
    - destruct Hd as [_ D]. apply D in E. destruct E as [_ E]. unfold is_int_space in B. rewrite E in B. discriminate.
  Qed.
  Lemma latin_all s u : Forall2 (latin dig) s u -> map (ascii dig) s = u.
  Proof. induction 1 as [|c d s u L H I]; [reflexivity|]. cbn. rewrite I, (latin_ascii c d L). reflexivity. Qed.
  Lemma all_latin s : Forall (fun c => c <> 63%N) (map (ascii dig) s) -> Forall2 (latin dig) s (map (ascii dig) s).
  Proof. induction s as [|c s I]; cbn; intro H; [constructor|]. inversion H; subst. constructor; [apply ascii_latin; assumption|auto]. Qed.

  (** a text float() takes, and its value *)
  Definition is_float (s : str) (v : value) : Prop :=
    exists a mid b u t, s = a ++ mid ++ b /\ Forall blank a /\ Forall blank b /\ Forall2 (latin dig) mid u /\ grouped u t /\ float_text t v.

  Theorem C132_reads : forall s n, py_float dig s = Some n -> exists v, is_float s v /\ made v n.
  Proof.
    intros s n. unfold py_float. destruct (ungroup false _) as [t|] eqn:U; [|discriminate]. intro H. apply read_sound in H. destruct H as (v & F & M).
    exists v. split; [|exact M]. apply (proj1 (ungroup_iff _)) in U. destruct (int_strip_split s) as (a & b & E & Ha & Hb).
    exists a, (int_strip s), b, (map (ascii dig) (int_strip s)), t. repeat (split; [assumption|]). split; [|split; assumption].
    apply all_latin. destruct (float_chars t v F) as [C _]. destruct (grouped_chars _ _ U C) as [G _]. revert G. apply Forall_impl. unfold num_char, ascii_digit. lia.
  Qed.
  Theorem C132_takes : forall s v, is_float s v -> exists n, py_float dig s = Some n /\ made v n.
  Proof.
    intros s v (a & mid & b & u & t & E & Ha & Hb & L & G & F). destruct (float_chars t v F) as [C Ne]. destruct (grouped_chars _ _ G C) as [Gc Gn].
    assert (Sol : Forall (fun c => is_int_space c = false) mid).
    { clear - L Gc Hd. induction L as [|c d mid u L _ I]; [constructor|]. inversion Gc; subst. constructor; [eapply latin_solid; eauto|auto]. }
    assert (Nm : mid <> []) by (intros ->; inversion L; subst; apply Ne, Gn; reflexivity).
    assert (Hs : int_strip s = mid).
    { rewrite E. apply int_strip_mid; auto.
      - intros c Hc. destruct mid as [|c' mid]; [congruence|]. injection Hc as <-. inversion Sol; assumption.
      - apply Forall_rev in Sol. intros c Hc. destruct (rev mid) as [|c' r]; [discriminate|]. injection Hc as <-. inversion Sol; assumption. }
    unfold py_float. rewrite Hs, (latin_all _ _ L). apply (proj1 (ungroup_iff _)) in G. rewrite G. apply read_complete. exact F.
  Qed.
  (** all other texts are errors *)
  Theorem C132_error : forall s, py_float dig s = None <-> forall v, ~ is_float s v.
  Proof.
    intro s. split.
    - intros E v F. apply C132_takes in F. destruct F as (n & F & _). congruence.
    - intro H. destruct (py_float dig s) as [n|] eqn:E; [|reflexivity]. apply C132_reads in E. destruct E as (v & F & _). destruct (H v F).
  Qed.
End D.
Print Assumptions C132_reads.
Print Assumptions C132_takes.
Print Assumptions C132_error.

(** ** rounding *)
Lemma units_near nd x N : 0 <= nd -> rep x -> (Qabs (qv x - inject_Z N / inject_Z (10 ^ nd)) < 1 / inject_Z (2 * 10 ^ nd))%Q -> units nd x = N.
Proof.
  intros Hn R H. unfold units. apply half_even_unique; [exact R|]. assert (P : 0 < 10 ^ nd) by (apply Z.pow_pos_nonneg; lia).
  set (T := 10 ^ nd) in *. clearbody T. unfold rep, qv in *. set (n := fst x) in *. set (d := snd x) in *. clearbody n d.
  pose proof (inj_pos _ R) as Qd. pose proof (inj_pos _ P) as QT.
  assert (E : (inject_Z n / inject_Z d - inject_Z N / inject_Z T == inject_Z (n * T - N * d) / (inject_Z d * inject_Z T))%Q).
  { unfold Zminus. rewrite inject_Z_plus, inject_Z_opp, !inject_Z_mult. field. split; lra. }
  rewrite E in H. assert (QQ : (0 < inject_Z d * inject_Z T)%Q) by (apply Qmult_lt_0_compat; assumption).
  unfold Qdiv in H. rewrite Qabs_Qmult, (Qabs_pos (/ _)) in H by (apply Qlt_le_weak, Qinv_lt_0_compat, QQ).
  apply (Qmult_lt_r _ _ _ QQ) in H. rewrite <- Qmult_assoc, (Qmult_comm (/ (_ * _))), Qmult_inv_r, Qmult_1_r in H by lra.
  change (Qabs (inject_Z (n * T - N * d))) with (inject_Z (Z.abs (n * T - N * d))) in H.
  assert (E2 : (1 * / inject_Z (2 * T) * (inject_Z d * inject_Z T) == inject_Z d / inject_Z 2)%Q).
  { rewrite inject_Z_mult. field; lra. }
  rewrite E2 in H. assert (Q2 : (0 < inject_Z 2)%Q) by reflexivity. apply (Qmult_lt_r _ _ _ Q2) in H. unfold Qdiv in H. rewrite <- Qmult_assoc, (Qmult_comm (/ _)), Qmult_inv_r, Qmult_1_r in H by discriminate.
  rewrite <- inject_Z_mult, <- Zlt_Qlt in H. lia.
Qed.
Lemma nearest_eps q v K : nearest q v -> 0 <= K <= 53 -> (Qabs q < inject_Z (2 ^ K))%Q -> (Qabs (v - q) <= eps K)%Q.
Proof.
  intros [_ B] HK Hq. destruct q as [n d]. assert (E : (n # d == inject_Z n / inject_Z (Z.pos d))%Q) by apply Qmake_Qdiv.
  assert (S : Z.abs n < Z.pos d * 2 ^ K).
  { apply small_abs; [reflexivity|lia|]. rewrite <- E. apply Qabs_Qlt_condition. exact Hq. }
  pose proof (fl_near n (Z.pos d) K eq_refl HK S) as F. pose proof (fl_nearest n (Z.pos d) eq_refl) as [D _].
  eapply Qle_trans; [apply (B _ D)|]. rewrite E. apply Qabs_Qle_condition. exact F.
Qed.
(** the texts and what is made of a value below 2^39 *)
Lemma made_small q n K : made (VNum q) n -> 0 <= K <= 53 -> (Qabs q < inject_Z (2 ^ K))%Q -> exists x, n = Fin x /\ rep x /\ (Qabs (qv x - q) <= eps K)%Q.
Proof.
  intros M HK Hq. inversion M as [? x N R B|? v neg N B Hs| |]; subst.
  - exists x. repeat split; [exact R|]. apply nearest_eps; assumption.
  - exfalso. pose proof (nearest_eps q v K N HK Hq) as H. assert (e1 : (eps K <= 1)%Q).
    { unfold eps. apply Qle_shift_div_r; [apply inj_pos, Z.pow_pos_nonneg; lia|]. change 1%Q with (inject_Z 1). rewrite Qmult_1_l, <- Zle_Qle. assert (0 < 2 ^ (54 - K)) by (apply Z.pow_pos_nonneg; lia). lia. }
    assert (b1 : (inject_Z (2 ^ K) <= inject_Z (2 ^ 53))%Q) by (rewrite <- Zle_Qle; apply Z.pow_le_mono_r; lia).
    pose proof (Qabs_triangle (v - q) q) as T. setoid_replace (v - q + q)%Q with v in T by ring.
    assert (b2 : (inject_Z (2 ^ 53) + 1 < inject_Z (2 ^ 1024))%Q) by reflexivity. lra.
Qed.

(** A figure below 2^39 that is a whole number of units of the last digit kept is read as it
    is written, whatever the text of it. *)
Definition units_of (nd : Z) (q : Q) (N : Z) : Prop := (q == inject_Z N / inject_Z (10 ^ nd))%Q.
Lemma eps_small nd : 0 <= nd <= 4 -> (eps 39 < 1 / inject_Z (2 * 10 ^ nd))%Q.
Proof.
  intro H. assert (C : nd = 0 \/ nd = 1 \/ nd = 2 \/ nd = 3 \/ nd = 4) by lia. destruct C as [->|[->|[->|[->| ->]]]]; reflexivity.
Qed.
Theorem C132_figure_partial : forall dig s q nd N, digits_ok dig -> is_float dig s (VNum q) -> 0 <= nd <= 4 -> units_of nd q N ->
  (Qabs q < inject_Z (2 ^ 39))%Q -> figure dig nd s = Some N.
Proof.
  intros dig s q nd N D F Hn U Hq. destruct (C132_takes dig D s _ F) as (n & E & M). destruct (made_small q n 39 M ltac:(lia) Hq) as (x & -> & R & B).
  unfold figure. rewrite E. f_equal. apply units_near; [lia|exact R|]. unfold units_of in U. rewrite <- U. eapply Qle_lt_trans; [exact B|]. apply eps_small. exact Hn.
Qed.
Print Assumptions C132_figure_partial.

(** the usual way to write such a figure *)
Lemma latin_ascii_text dig s : Forall (fun c => (c < 128)%N) s -> Forall2 (latin dig) s s.
Proof. induction 1; constructor; [left; auto|assumption]. Qed.
Lemma grouped_self s : Forall (fun c => c <> 95%N) s -> grouped s s.
Proof. induction 1; [constructor|apply g_char; assumption]. Qed.
Lemma plain_is_float dig (neg : bool) a b z : a ++ b <> [] -> denotes (a ++ b) z ->
  is_float dig (decimal_text neg a b) (VNum (inject_Z ((if neg then -1 else 1) * z) * (10 # 1) ^ (0 - Z.of_nat (length b)))).
Proof.
  intros Ne H. set (s := decimal_text neg a b).
  assert (S : sign (if neg then [45%N] else []) (if neg then -1 else 1)) by (destruct neg; constructor).
  assert (F : float_text s (VNum (inject_Z ((if neg then -1 else 1) * z) * (10 # 1) ^ (0 - Z.of_nat (length b))))).
  { replace s with ((if neg then [45%N] else []) ++ (a ++ 46%N :: b) ++ []) by (unfold s, decimal_text; rewrite app_nil_r; reflexivity).
    apply ft_num; [exact S|apply m_point; assumption|constructor]. }
  destruct (float_chars _ _ F) as [C _]. exists [], s, [], s, s. split; [rewrite app_nil_r; reflexivity|]. split; [constructor|]. split; [constructor|].
  split; [|split; [|exact F]].
  - apply latin_ascii_text. revert C. apply Forall_impl. unfold num_char, ascii_digit. lia.
  - apply grouped_self. revert C. apply Forall_impl. unfold num_char, ascii_digit. lia.
Qed.
Theorem C132_plain_partial : forall dig (neg : bool) a b z nd, digits_ok dig -> a ++ b <> [] -> denotes (a ++ b) z -> 0 <= nd <= 4 -> Z.of_nat (length b) <= nd ->
  z < 10 ^ Z.of_nat (length b) * 2 ^ 39 ->
  figure dig nd (decimal_text neg a b) = Some ((if neg then -1 else 1) * z * 10 ^ (nd - Z.of_nat (length b))).
Proof.
  intros dig neg a b z nd D Ne H Hn Hb Hz. pose proof (denotes_nonneg _ _ H) as Z0. set (p := Z.of_nat (length b)) in *. assert (Hp : 0 <= p) by lia.
  assert (P : 0 < 10 ^ p) by (apply Z.pow_pos_nonneg; lia). assert (E : ((10 # 1) ^ (0 - p) == / inject_Z (10 ^ p))%Q).
  { replace (0 - p) with (- p) by lia. rewrite Qpower_opp, ten_pow by lia. reflexivity. }
  eapply C132_figure_partial; [exact D|apply plain_is_float; eassumption|exact Hn| |]; fold p.
  - unfold units_of. rewrite E, !inject_Z_mult. assert (X : (inject_Z (10 ^ nd) == inject_Z (10 ^ p) * inject_Z (10 ^ (nd - p)))%Q).
    { rewrite <- inject_Z_mult, <- Z.pow_add_r by lia. replace (p + (nd - p)) with nd by lia. reflexivity. }
    rewrite X. pose proof (inj_pos _ P). assert (P2 : 0 < 10 ^ (nd - p)) by (apply Z.pow_pos_nonneg; lia). pose proof (inj_pos _ P2). field. split; lra.
  - rewrite E. pose proof (inj_pos _ P) as QP. rewrite Qabs_Qmult, (Qabs_pos (/ _)) by (apply Qlt_le_weak, Qinv_lt_0_compat, QP).
    change (Qabs (inject_Z ((if neg then -1 else 1) * z))) with (inject_Z (Z.abs ((if neg then -1 else 1) * z))). apply Qlt_shift_div_r; [exact QP|].
    rewrite <- inject_Z_mult, <- Zlt_Qlt. destruct neg; lia.
Qed.
Print Assumptions C132_plain_partial.

(** Any other figure below 2^K: off by at most half a unit and the error of a double. *)
Theorem C132_near_partial : forall dig s q nd K, digits_ok dig -> is_float dig s (VNum q) -> 0 <= nd -> 0 <= K <= 53 -> (Qabs q < inject_Z (2 ^ K))%Q ->
  exists u, figure dig nd s = Some u /\ (Qabs (inject_Z u - q * inject_Z (10 ^ nd)) <= (1 # 2) + inject_Z (10 ^ nd) / inject_Z (2 ^ (54 - K)))%Q.
Proof.
  intros dig s q nd K D F Hn HK Hq. destruct (C132_takes dig D s _ F) as (n & E & M). destruct (made_small q n K M HK Hq) as (x & -> & R & B).
  exists (units nd x). unfold figure. rewrite E. split; [reflexivity|]. assert (P : 0 < 10 ^ nd) by (apply Z.pow_pos_nonneg; lia). pose proof (inj_pos _ P) as QP.
  assert (H1 : (Qabs (inject_Z (units nd x) - qv x * inject_Z (10 ^ nd)) <= 1 # 2)%Q).
  { unfold units, qv, rep in *. pose proof (half_even_err (fst x * 10 ^ nd) (snd x) R) as X. set (h := half_even _ _) in *. clearbody h. pose proof (inj_pos _ R) as Qr.
    assert (Ex : (inject_Z h - inject_Z (fst x) / inject_Z (snd x) * inject_Z (10 ^ nd) == inject_Z (h * snd x - fst x * 10 ^ nd) / inject_Z (snd x))%Q).
    { unfold Zminus. rewrite inject_Z_plus, inject_Z_opp, !inject_Z_mult. field. lra. }
    rewrite Ex. unfold Qdiv. rewrite Qabs_Qmult, (Qabs_pos (/ _)) by (apply Qlt_le_weak, Qinv_lt_0_compat, Qr). apply Qle_shift_div_r; [exact Qr|].
    change (Qabs (inject_Z (h * snd x - fst x * 10 ^ nd))) with (inject_Z (Z.abs (h * snd x - fst x * 10 ^ nd))).
    assert (Y : (inject_Z 2 * inject_Z (Z.abs (h * snd x - fst x * 10 ^ nd)) <= inject_Z (snd x))%Q) by (rewrite <- inject_Z_mult, <- Zle_Qle; lia).
    change (inject_Z 2) with 2%Q in Y. lra. }
  assert (H2 : (Qabs (qv x * inject_Z (10 ^ nd) - q * inject_Z (10 ^ nd)) <= eps K * inject_Z (10 ^ nd))%Q).
  { setoid_replace (qv x * inject_Z (10 ^ nd) - q * inject_Z (10 ^ nd))%Q with ((qv x - q) * inject_Z (10 ^ nd))%Q by ring.
    rewrite Qabs_Qmult, (Qabs_pos (inject_Z _)) by lra. apply Qmult_le_compat_r; [exact B|lra]. }
  assert (P2 : 0 < 2 ^ (54 - K)) by (apply Z.pow_pos_nonneg; lia). pose proof (inj_pos _ P2) as QP2.
  assert (Ee : (eps K * inject_Z (10 ^ nd) == inject_Z (10 ^ nd) / inject_Z (2 ^ (54 - K)))%Q) by (unfold eps; field; lra).
  rewrite <- Ee. pose proof (Qabs_triangle (inject_Z (units nd x) - qv x * inject_Z (10 ^ nd)) (qv x * inject_Z (10 ^ nd) - q * inject_Z (10 ^ nd))) as T.
  setoid_replace (inject_Z (units nd x) - qv x * inject_Z (10 ^ nd) + (qv x * inject_Z (10 ^ nd) - q * inject_Z (10 ^ nd)))%Q with (inject_Z (units nd x) - q * inject_Z (10 ^ nd))%Q in T by ring.
  eapply Qle_trans; [exact T|]. apply Qplus_le_compat; assumption.
Qed.
Print Assumptions C132_near_partial.

(** The model keeps the units; the double that stands for them gives them back, so no two of
    them are confused. *)
Theorem C132_units : forall nd u, 0 <= nd <= 4 -> Z.abs u < 10 ^ nd * 2 ^ 39 -> units nd (fl u (10 ^ nd)) = u.
Proof.
  intros nd u Hn Hu. assert (P : 0 < 10 ^ nd) by (apply Z.pow_pos_nonneg; lia). apply units_near; [lia|apply fl_rep|].
  eapply Qle_lt_trans; [|apply eps_small; exact Hn]. apply Qabs_Qle_condition. apply fl_near; [exact P|lia|exact Hu].
Qed.
Print Assumptions C132_units.
(** in particular rounding again changes nothing *)
Theorem C132_again : forall nd x, 0 <= nd <= 4 -> Z.abs (units nd x) < 10 ^ nd * 2 ^ 39 -> round_nd nd (round_nd nd x) = round_nd nd x.
Proof. intros nd x Hn Hu. unfold round_nd. rewrite C132_units by assumption. reflexivity. Qed.
Print Assumptions C132_again.

(** The locked cash is the difference of two figures; below 2^37 it is exact. *)
Theorem C132_locked_partial : forall dig sc se qc qe Nc Ne xc xe, digits_ok dig -> is_float dig sc (VNum qc) -> is_float dig se (VNum qe) ->
  units_of 4 qc Nc -> units_of 4 qe Ne -> (Qabs qc < inject_Z (2 ^ 37))%Q -> (Qabs qe < inject_Z (2 ^ 37))%Q ->
  py_float dig sc = Some (Fin xc) -> py_float dig se = Some (Fin xe) -> units 4 (f_sub xc xe) = Nc - Ne.
Proof.
  intros dig sc se qc qe Nc Ne xc xe D Fc Fe Uc Ue Bc Be Ec Ee.
  destruct (C132_takes dig D _ _ Fc) as (n1 & E1 & M1). destruct (made_small _ _ 37 M1 ltac:(lia) Bc) as (x1 & -> & R1 & B1).
  destruct (C132_takes dig D _ _ Fe) as (n2 & E2 & M2). destruct (made_small _ _ 37 M2 ltac:(lia) Be) as (x2 & -> & R2 & B2).
  rewrite Ec in E1. injection E1 as <-. rewrite Ee in E2. injection E2 as <-.
  assert (Ro : rep (- fst xe, snd xe)) by exact R2. assert (Qo : (qv (- fst xe, snd xe)%Z == - qv xe)%Q).
  { unfold qv. cbn [fst snd]. rewrite inject_Z_opp. pose proof (inj_pos _ R2). field. lra. }
  apply Qabs_Qle_condition in B1. apply Qabs_Qle_condition in B2. apply Qabs_Qlt_condition in Bc. apply Qabs_Qlt_condition in Be.
  assert (V : (eps 37 == 1 # 131072)%Q) by reflexivity. assert (V9 : (eps 39 == 1 # 32768)%Q) by reflexivity. rewrite V in *.
  assert (W : (inject_Z (2 ^ 37) == 137438953472 # 1)%Q) by reflexivity. assert (W9 : (inject_Z (2 ^ 39) == 549755813888 # 1)%Q) by reflexivity. rewrite W in *.
  assert (A : (- inject_Z (2 ^ 39) < qv xc + qv (- fst xe, snd xe)%Z < inject_Z (2 ^ 39))%Q) by (rewrite Qo, W9; split; lra).
  pose proof (f_add_near xc (- fst xe, snd xe) 39 R1 Ro ltac:(lia) A) as B3. rewrite Qo, V9 in B3. fold (f_sub xc xe) in B3.
  apply units_near; [lia|unfold f_sub, f_add; apply fl_rep|]. unfold units_of in *. unfold Zminus. rewrite inject_Z_plus, inject_Z_opp.
  assert (X : ((inject_Z Nc + - inject_Z Ne) / inject_Z (10 ^ 4) == qc - qe)%Q) by (rewrite Uc, Ue; field; discriminate).
  rewrite X. apply Qabs_Qlt_condition. assert (Y : (1 / inject_Z (2 * 10 ^ 4) == 1 # 20000)%Q) by reflexivity. rewrite Y. split; lra.
Qed.
Print Assumptions C132_locked_partial.

(** ** what does not hold *)
Definition ascii_dig (c : N) : option Z := if is_digit c then Some (Z.of_N c - 48) else None.
Lemma ascii_dig_ok : digits_ok ascii_dig.
Proof.
  unfold ascii_dig. split.
  - intros c _. reflexivity.
  - intros c v. destruct (is_digit c) eqn:E; [|discriminate]. intro H. injection H as <-. split; [|apply digit_not_space; exact E]. apply digit_iff in E. unfold ascii_digit in E. lia.
Qed.
(** The first claim without the bound. *)
Definition figure_written : Prop := forall dig s q nd N, digits_ok dig -> is_float dig s (VNum q) -> 0 <= nd <= 4 -> units_of nd q N -> figure dig nd s = Some N.
Ltac text := apply denotes_iff; vm_compute; split; reflexivity.
Theorem C132_figure_refuted : ~ figure_written.
Proof.
  intro H. specialize (H ascii_dig (decimal_text false (lit "1000000000000") (lit "0003")) _ 4 10000000000000003 ascii_dig_ok
    (plain_is_float ascii_dig false (lit "1000000000000") (lit "0003") 10000000000000003 ltac:(discriminate) ltac:(text)) ltac:(lia)).
  assert (E : units_of 4 (inject_Z (1 * 10000000000000003) * (10 # 1) ^ (0 - Z.of_nat (length (lit "0003")))) 10000000000000003) by (unfold units_of; vm_compute; reflexivity).
  specialize (H E). vm_compute in H. discriminate.
Qed.
Print Assumptions C132_figure_refuted.
(** The figure kept is a nearest one with that many digits. *)
Definition figure_nearest : Prop := forall dig s q nd u, digits_ok dig -> is_float dig s (VNum q) -> 0 <= nd <= 4 -> (Qabs q < 1)%Q -> figure dig nd s = Some u ->
  (Qabs (inject_Z u - q * inject_Z (10 ^ nd)) <= 1 # 2)%Q.
Theorem C132_nearest_refuted : ~ figure_nearest.
Proof.
  intro H. specialize (H ascii_dig (decimal_text false (lit "0") (lit "00550000000000000001")) _ 3 5 ascii_dig_ok
    (plain_is_float ascii_dig false (lit "0") (lit "00550000000000000001") 550000000000000001 ltac:(discriminate) ltac:(text)) ltac:(lia)).
  specialize (H ltac:(vm_compute; reflexivity) ltac:(vm_compute; reflexivity)). vm_compute in H. apply H. reflexivity.
Qed.
Print Assumptions C132_nearest_refuted.
(** A figure halfway between two is rounded up, or to the even one: neither. *)
Definition halves (rule : Z -> Z) : Prop := forall dig s q k, digits_ok dig -> is_float dig s (VNum q) -> (q == (inject_Z k + (1 # 2)) / inject_Z (10 ^ 3))%Q ->
  figure dig 3 s = Some (rule k).
Lemma halves_four rule b k : halves rule -> b = lit "0005" /\ k = 0 \/ b = lit "0055" /\ k = 5 -> figure ascii_dig 3 (decimal_text false (lit "0") b) = Some (rule k).
Proof.
  intros H [[-> ->]|[-> ->]].
  - apply (H ascii_dig _ _ 0 ascii_dig_ok (plain_is_float ascii_dig false (lit "0") (lit "0005") 5 ltac:(discriminate) ltac:(text))). vm_compute. reflexivity.
  - apply (H ascii_dig _ _ 5 ascii_dig_ok (plain_is_float ascii_dig false (lit "0") (lit "0055") 55 ltac:(discriminate) ltac:(text))). vm_compute. reflexivity.
Qed.
Theorem C132_halves_refuted : ~ halves (fun k => k + 1) /\ ~ halves (fun k => if Z.even k then k else k + 1) /\ ~ halves (fun k => k).
Proof.
  split; [|split]; intro H.
  - pose proof (halves_four _ (lit "0055") 5 H ltac:(auto)) as E. vm_compute in E. discriminate.
  - pose proof (halves_four _ (lit "0055") 5 H ltac:(auto)) as E. vm_compute in E. discriminate.
  - pose proof (halves_four _ (lit "0005") 0 H ltac:(auto)) as E. vm_compute in E. discriminate.
Qed.
Print Assumptions C132_halves_refuted.

(** ** the lines of the update file *)
(** A line with such figures gives the order exactly them, at whatever point it fails. *)
Theorem C132_line_partial : forall dig ptime l i i' e qa Na qp Np, digits_ok dig ->
  update_makes ptime (figure dig 3) (figure dig 4) l i i' e ->
  is_float dig (col 13 l) (VNum qa) -> units_of 4 qa Na -> (Qabs qa < inject_Z (2 ^ 39))%Q ->
  is_float dig (col 12 l) (VNum qp) -> units_of 3 qp Np -> (Qabs qp < inject_Z (2 ^ 39))%Q ->
  (i_deal i' = i_deal i \/ i_deal i' = Some Na) /\ (i_avg i' = i_avg i \/ i_avg i' = Some Np) /\
  (e = None -> i_deal i' = Some Na /\ i_avg i' = Some Np).
Proof.
  intros dig ptime l i i' e qa Na qp Np D H Fa Ua Ba Fp Up Bp.
  pose proof (C132_figure_partial dig _ qa 4 Na D Fa ltac:(lia) Ua Ba) as Ea. pose proof (C132_figure_partial dig _ qp 3 Np D Fp ltac:(lia) Up Bp) as Ep.
  destruct H; cbn [figures i_deal i_avg]; repeat split; auto; try discriminate; try (right; congruence); congruence.
Qed.
Print Assumptions C132_line_partial.

Example C132_demo :
  figure ascii_dig 3 (decimal_text false (lit "12") (lit "345")) = Some 12345 /\
  figure ascii_dig 4 (decimal_text true (lit "1234567") (lit "8")) = Some (-12345678000) /\
  figure ascii_dig 4 (lit " 1_000.5e1 ") = Some 100050000 /\
  figure ascii_dig 4 (lit "1__0") = None /\ figure ascii_dig 4 (lit "") = None /\ figure ascii_dig 4 (lit "1,000") = None /\
  figure ascii_dig 3 (lit "0.0005") = Some 1 /\ figure ascii_dig 3 (lit "0.0055") = Some 5 /\
  py_float ascii_dig (lit "-Infinity") = Some (Inf true) /\ py_float ascii_dig (lit "nan") = Some NaN /\
  figure ascii_dig 4 (lit "1000000000000.0003") = Some 10000000000000002 /\
  (forall x y, py_float ascii_dig (lit "0.3") = Some (Fin x) -> py_float ascii_dig (lit "0.1") = Some (Fin y) -> units 4 (f_sub x y) = 2000).
Proof.
  repeat (split; [vm_compute; reflexivity|]). intros x y Ex Ey. vm_compute in Ex, Ey. injection Ex as <-. injection Ey as <-. vm_compute. reflexivity.
Qed.
(** a digit of another script *)
Definition wide_dig (c : N) : option Z := if is_digit c then Some (Z.of_N c - 48) else if ((65296 <=? c) && (c <=? 65305))%N then Some (Z.of_N c - 65296) else None.
Example C132_demo_wide : figure wide_dig 3 [65297%N; 46%N; 65298%N] = Some 1200 /\ figure ascii_dig 3 [65297%N; 46%N; 65298%N] = None.
Proof. vm_compute. split; reflexivity. Qed.
