(** Lemmas about strings: splitting, decimal numbers. *)
From Coq Require Import DecimalString DecimalFacts DecimalN.
From Verif Require Import PyBase PyStr.

Lemma has_char_In c s : has_char c s = true <-> In c s.
Proof.
  unfold has_char. rewrite existsb_exists. split.
  - intros (x & Hx & E). apply N.eqb_eq in E. subst; exact Hx.
  - intros H. exists c. split; [exact H|apply N.eqb_refl].
Qed.
Lemma has_char_app c a b : has_char c (a ++ b) = has_char c a || has_char c b.
Proof. unfold has_char. apply existsb_app. Qed.

Lemma split_on_none c s : has_char c s = false -> split_on c s = [s].
Proof.
  induction s as [|a s IH]; cbn [split_on]; [reflexivity|].
  cbn [has_char existsb]. intros H. apply orb_false_iff in H as [H1 H2].
  rewrite N.eqb_sym in H1. rewrite H1. rewrite (IH H2). reflexivity.
Qed.
Lemma split_on_app c w rest : has_char c w = false -> split_on c (w ++ c :: rest) = w :: split_on c rest.
Proof.
  induction w as [|a w IH]; cbn [split_on app].
  - intros _. rewrite N.eqb_refl. reflexivity.
  - cbn [has_char existsb]. intros H. apply orb_false_iff in H as [H1 H2].
    rewrite N.eqb_sym in H1. rewrite H1. rewrite (IH H2). reflexivity.
Qed.
Lemma split_on_nonempty c s : split_on c s <> [].
Proof. destruct s as [|a s]; cbn [split_on]; [discriminate|]. destruct (a =? c)%N; [discriminate|]. destruct (split_on c s); discriminate. Qed.

(** splitting a join of separator-free words gives the words back *)
Lemma split_join c ws : ws <> [] -> Forall (fun w => has_char c w = false) ws -> split_on c (join_with c ws) = ws.
Proof.
  induction ws as [|w ws IH]; [congruence|]. intros _ HF. inversion HF as [|? ? Hw Hws]; subst.
  destruct ws as [|w2 ws]; cbn [join_with]; [apply split_on_none; exact Hw|].
  rewrite split_on_app by exact Hw. f_equal. apply IH; [discriminate|exact Hws].
Qed.
Lemma join_split c s : join_with c (split_on c s) = s.
Proof.
  induction s as [|a s IH]; cbn [split_on]; [reflexivity|].
  destruct (N.eqb_spec a c) as [->|Hne].
  - destruct (split_on c s) as [|w ws] eqn:E; [destruct (split_on_nonempty _ _ E)|]. cbn [join_with app]. rewrite <- IH. reflexivity.
  - destruct (split_on c s) as [|w ws] eqn:E; [destruct (split_on_nonempty _ _ E)|].
    destruct ws; cbn [join_with] in *; rewrite <- IH; reflexivity.
Qed.
Lemma split_on_words c s : Forall (fun w => has_char c w = false) (split_on c s).
Proof.
  induction s as [|a s IH]; cbn [split_on]; [repeat constructor|].
  destruct (N.eqb_spec a c) as [->|Hne]; [constructor; [reflexivity|exact IH]|].
  destruct (split_on c s) as [|w ws].
  - constructor; [|constructor]. cbn. rewrite orb_false_r. apply N.eqb_neq. congruence.
  - inversion IH; subst. constructor; [|assumption]. cbn [has_char existsb]. apply orb_false_iff. split; [apply N.eqb_neq; congruence|assumption].
Qed.

(** cutting at the last separator *)
Lemma app_sep_last c a b a' b' : has_char c b = false -> has_char c b' = false ->
  a ++ c :: b = a' ++ c :: b' -> a = a' /\ b = b'.
Proof.
  revert a'. induction a as [|x a IH]; intros [|y a'] Hb Hb' E; cbn [app] in E.
  - injection E as E. auto.
  - injection E as E1 E2. exfalso. rewrite E2 in Hb. rewrite has_char_app in Hb. apply orb_false_iff in Hb as [_ H]. cbn in H. rewrite N.eqb_refl in H. discriminate.
  - injection E as E1 E2. exfalso. rewrite <- E2 in Hb'. rewrite has_char_app in Hb'. apply orb_false_iff in Hb' as [_ H]. cbn in H. rewrite N.eqb_refl in H. discriminate.
  - injection E as -> E2. destruct (IH a' Hb Hb' E2) as [-> ->]. auto.
Qed.
(** cutting at the first separator *)
Lemma app_sep_first c a b a' b' : has_char c a = false -> has_char c a' = false ->
  a ++ c :: b = a' ++ c :: b' -> a = a' /\ b = b'.
Proof.
  revert a'. induction a as [|x a IH]; intros [|y a'] Ha Ha' E; cbn [app] in E.
  - injection E as E. auto.
  - injection E as E1 E2. exfalso. cbn [has_char existsb] in Ha'. rewrite E1, N.eqb_refl in Ha'. discriminate.
  - injection E as E1 E2. exfalso. cbn [has_char existsb] in Ha. rewrite E1, N.eqb_refl in Ha. discriminate.
  - injection E as -> E2. cbn [has_char existsb] in Ha, Ha'. apply orb_false_iff in Ha as [_ Ha]. apply orb_false_iff in Ha' as [_ Ha'].
    destruct (IH a' Ha Ha' E2) as [-> ->]. auto.
Qed.

(** ** decimal numbers *)
Fixpoint uint_digits (d : Decimal.uint) : str :=
  match d with
  | Decimal.Nil => []
  | Decimal.D0 d => 48%N :: uint_digits d
  | Decimal.D1 d => 49%N :: uint_digits d
  | Decimal.D2 d => 50%N :: uint_digits d
  | Decimal.D3 d => 51%N :: uint_digits d
  | Decimal.D4 d => 52%N :: uint_digits d
  | Decimal.D5 d => 53%N :: uint_digits d
  | Decimal.D6 d => 54%N :: uint_digits d
  | Decimal.D7 d => 55%N :: uint_digits d
  | Decimal.D8 d => 56%N :: uint_digits d
  | Decimal.D9 d => 57%N :: uint_digits d
  end.
Lemma lit_uint d : lit (NilEmpty.string_of_uint d) = uint_digits d.
Proof. unfold lit. induction d; cbn; [reflexivity|..]; f_equal; exact IHd. Qed.
Lemma uint_digits_inj a b : uint_digits a = uint_digits b -> a = b.
Proof. revert b; induction a; intros []; cbn; intros E; try discriminate; try reflexivity; f_equal; apply IHa; congruence. Qed.
Lemma uint_digits_digit d : Forall (fun c => is_digit c = true) (uint_digits d).
Proof. induction d; cbn; constructor; auto. Qed.

Lemma str_of_N_digits n : Forall (fun c => is_digit c = true) (str_of_N n).
Proof. unfold str_of_N. rewrite lit_uint. apply uint_digits_digit. Qed.
Lemma str_of_N_inj a b : str_of_N a = str_of_N b -> a = b.
Proof.
  unfold str_of_N. rewrite !lit_uint. intros E. apply uint_digits_inj in E.
  rewrite <- (DecimalN.Unsigned.of_to a), <- (DecimalN.Unsigned.of_to b), E. reflexivity.
Qed.
Lemma digits_no_char c s : is_digit c = false -> Forall (fun c => is_digit c = true) s -> has_char c s = false.
Proof.
  intros Hc HF. destruct (has_char c s) eqn:E; [|reflexivity]. apply has_char_In in E.
  rewrite Forall_forall in HF. apply HF in E. congruence.
Qed.
Lemma str_of_N_no_char c n : is_digit c = false -> has_char c (str_of_N n) = false.
Proof. intros H. apply digits_no_char; [exact H|apply str_of_N_digits]. Qed.
Lemma str_of_N_nonempty n : str_of_N n <> [].
Proof.
  unfold str_of_N. rewrite lit_uint. intros E.
  assert (E0 : N.to_uint n = Decimal.Nil) by (apply uint_digits_inj; exact E).
  destruct n as [|p]; [discriminate|]. cbn in E0. exact (DecimalPos.Unsigned.to_uint_nonnil p E0).
Qed.

(** int(str(n)) = n *)
Open Scope Z_scope.
Lemma int_body_uint d : forall acc us, int_body acc us (uint_digits d) =
  match d with Decimal.Nil => if us then Some acc else None | _ => int_body acc true (uint_digits d) end.
Proof. destruct d; intros; cbn; reflexivity. Qed.
Lemma is_digit_val c : is_digit c = true -> 0 <= digit_val c <= 9.
Proof. unfold is_digit, digit_val. intros H. apply andb_prop in H as [H1 H2]. apply N.leb_le in H1, H2. lia. Qed.
Lemma digit_not_space c : is_digit c = true -> is_space c = false.
Proof.
  unfold is_digit, is_space. intros H. apply andb_prop in H as [H1 H2]. apply N.leb_le in H1, H2.
  repeat (apply orb_false_iff; split); try apply andb_false_iff; rewrite ?N.leb_gt, ?N.eqb_neq; lia.
Qed.
Definition dec_value (acc : Z) (s : str) : Z := fold_left (fun a c => a * 10 + digit_val c) s acc.
Lemma int_body_digits s : forall acc us, s <> [] -> Forall (fun c => is_digit c = true) s -> int_body acc us s = Some (dec_value acc s).
Proof.
  induction s as [|c s IH]; intros acc us Hne HF; [congruence|]. inversion HF as [|? ? Hc Hs]; subst.
  cbn [int_body dec_value fold_left]. rewrite Hc. destruct s as [|d s]; [reflexivity|]. apply IH; [discriminate|exact Hs].
Qed.
Lemma drop_while_head f c s : f c = false -> drop_while f (c :: s) = c :: s.
Proof. intros H. cbn. rewrite H. reflexivity. Qed.
Lemma strip_id s : (forall c, hd_error s = Some c -> is_space c = false) -> (forall c, hd_error (rev s) = Some c -> is_space c = false) -> strip s = s.
Proof.
  intros H1 H2. unfold strip.
  assert (E1 : drop_while is_space s = s). { destruct s as [|c s]; [reflexivity|]. apply drop_while_head. apply H1. reflexivity. }
  rewrite E1. destruct (rev s) as [|c r] eqn:E. { cbn. rewrite <- (rev_involutive s), E. reflexivity. }
  rewrite drop_while_head by (apply H2; reflexivity). rewrite <- E. apply rev_involutive.
Qed.
Lemma strip_digits s : Forall (fun c => is_digit c = true) s -> strip s = s.
Proof.
  intros HF. apply strip_id; intros c H.
  - apply digit_not_space. rewrite Forall_forall in HF. apply HF. destruct s; [discriminate|]. injection H as ->. left; reflexivity.
  - apply digit_not_space. rewrite Forall_forall in HF. apply HF. apply in_rev. destruct (rev s); [discriminate|]. injection H as ->. left; reflexivity.
Qed.
Lemma digit_not_int_space c : is_digit c = true -> is_int_space c = false.
Proof. intros H. unfold is_int_space. rewrite (digit_not_space c H). reflexivity. Qed.
Lemma int_strip_digits s : Forall (fun c => is_digit c = true) s -> int_strip s = s.
Proof.
  assert (D : forall s, Forall (fun c => is_digit c = true) s -> drop_while is_int_space s = s).
  { intros l HF. destruct HF as [|c l Hc _]; [reflexivity|]. apply drop_while_head, digit_not_int_space, Hc. }
  intros HF. unfold int_strip. rewrite (D s HF), (D (rev s) (Forall_rev HF)). apply rev_involutive.
Qed.
Lemma py_int_digits s : s <> [] -> Forall (fun c => is_digit c = true) s -> py_int s = Some (dec_value 0 s).
Proof.
  intros Hne HF. unfold py_int. rewrite int_strip_digits by exact HF. destruct s as [|c s]; [congruence|].
  assert (Hc : is_digit c = true) by (inversion HF; assumption).
  assert (E43 : (c =? 43)%N = false). { destruct (N.eqb_spec c 43) as [->|]; [discriminate|reflexivity]. }
  assert (E45 : (c =? 45)%N = false). { destruct (N.eqb_spec c 45) as [->|]; [discriminate|reflexivity]. }
  rewrite E43, E45. apply int_body_digits; assumption.
Qed.
Lemma dec_value_acc d : forall p, dec_value (Zpos p) (uint_digits d) = Zpos (Pos.of_uint_acc d p).
Proof.
  induction d; intros p; cbn [uint_digits dec_value fold_left Pos.of_uint_acc]; [reflexivity|..];
    match goal with |- fold_left ?f (uint_digits d) ?a = _ => change (fold_left f (uint_digits d) a) with (dec_value a (uint_digits d)) end;
    rewrite <- IHd; f_equal; unfold digit_val; lia.
Qed.
Lemma dec_value_uint d : dec_value 0 (uint_digits d) = Z.of_N (Pos.of_uint d).
Proof.
  induction d; cbn [uint_digits dec_value fold_left Pos.of_uint]; [reflexivity|exact IHd|..];
    match goal with |- fold_left ?f (uint_digits d) ?a = _ => change (fold_left f (uint_digits d) a) with (dec_value a (uint_digits d)) end;
    unfold digit_val; cbn [Z.of_N Z.mul Z.add]; cbn -[uint_digits dec_value Pos.of_uint_acc]; apply dec_value_acc.
Qed.
Lemma py_int_str_of_N n : py_int (str_of_N n) = Some (Z.of_N n).
Proof.
  rewrite py_int_digits by (apply str_of_N_nonempty || apply str_of_N_digits). f_equal.
  unfold str_of_N. rewrite lit_uint, dec_value_uint. f_equal. exact (DecimalN.Unsigned.of_to n).
Qed.
