(** C133: whole numbers and clock times written with digits of other scripts. *)
From Verif Require Import PyBase PyStr MTime MTimeExpr MWide SExpr SWhen LWhen LStr SStrptime TWhen.
Open Scope Z_scope.

Section W.
  Context (dig : N -> option Z) (Hd : digits_ok dig).

  (** the text with the digits of other scripts written as 0 to 9 *)
  Definition in_ascii (c d : N) : Prop :=
    match dig c with Some v => d = Z.to_N (48 + v) | None => d = c end.
  Definition plainly (s t : str) : Prop := Forall2 in_ascii s t.
  Definition to_ascii (c : N) : N := match dig c with Some v => Z.to_N (48 + v) | None => c end.
  Lemma plainly_map s t : plainly s t <-> t = map to_ascii s.
  Proof.
    split.
    - induction 1 as [|c d s t E H ->]; [reflexivity|]. cbn. f_equal. unfold in_ascii, to_ascii in *. destruct (dig c); exact E.
    - intros ->. induction s as [|c s I]; constructor; [|exact I]. unfold in_ascii, to_ascii. destruct (dig c); reflexivity.
  Qed.
  Lemma dig_some c v : dig c = Some v -> is_digit (to_ascii c) = true /\ digit_val (to_ascii c) = v /\ is_space c = false.
  Proof.
    intro E. destruct Hd as [_ D]. destruct (D c v E) as [R S]. unfold to_ascii. rewrite E. split; [|split; [|exact S]].
    - unfold is_digit. apply andb_true_iff. rewrite !N.leb_le. lia.
    - unfold digit_val. rewrite Z2N.id; lia.
  Qed.
  Lemma dig_none c : dig c = None -> is_digit c = false /\ to_ascii c = c.
  Proof.
    intro E. split; [|unfold to_ascii; rewrite E; reflexivity]. destruct (is_digit c) eqn:I; [|reflexivity]. destruct Hd as [A _]. rewrite A, I in E; [discriminate|].
    unfold is_digit in I. apply andb_prop in I. rewrite !N.leb_le in I. lia.
  Qed.
  Lemma not_digit_char c k : (k < 48 \/ 57 < k)%N -> (k < 128)%N -> (to_ascii c =? k)%N = (c =? k)%N.
  Proof.
    intros K K8. destruct (dig c) as [v|] eqn:E.
    - destruct (dig_some c v E) as (A & _ & _). assert (to_ascii c <> k) by (intro Ek; rewrite Ek in A; unfold is_digit in A; apply andb_prop in A; rewrite !N.leb_le in A; lia).
      assert (c <> k). { intros ->. destruct Hd as [D _]. rewrite (D k K8) in E. destruct (is_digit k) eqn:I; [|discriminate]. unfold is_digit in I. apply andb_prop in I. rewrite !N.leb_le in I. lia. }
      rewrite (proj2 (N.eqb_neq _ _)) by assumption. symmetry. apply N.eqb_neq. assumption.
    - destruct (dig_none c E) as [_ ->]. reflexivity.
  Qed.
  Lemma space_same c : is_int_space (to_ascii c) = is_int_space c.
  Proof.
    destruct (dig c) as [v|] eqn:E; [|destruct (dig_none c E) as [_ ->]; reflexivity]. destruct (dig_some c v E) as (A & _ & S).
    rewrite (digit_not_int_space _ A). unfold is_int_space. rewrite S. reflexivity.
  Qed.
  Lemma drop_same s : drop_while is_int_space (map to_ascii s) = map to_ascii (drop_while is_int_space s).
  Proof. induction s as [|c s I]; [reflexivity|]. cbn [map drop_while]. rewrite space_same. destruct (is_int_space c); [exact I|reflexivity]. Qed.
  Lemma strip_same s : int_strip (map to_ascii s) = map to_ascii (int_strip s).
  Proof. unfold int_strip. rewrite drop_same, <- map_rev, drop_same, <- map_rev. reflexivity. Qed.
  Lemma body_same s : forall acc us, int_body_u dig acc us s = int_body acc us (map to_ascii s).
  Proof.
    induction s as [|c s I]; intros acc us; [reflexivity|]. cbn [int_body_u int_body map]. destruct (dig c) as [v|] eqn:E.
    - destruct (dig_some c v E) as (-> & -> & _). apply I.
    - destruct (dig_none c E) as [A1 A2]. rewrite A2, A1. destruct ((c =? 95)%N && us) eqn:U; [|reflexivity]. destruct s as [|d s]; [reflexivity|]. cbn [map].
      assert (X : digit_here dig d = is_digit (to_ascii d)).
      { unfold digit_here. destruct (dig d) as [v|] eqn:F; [destruct (dig_some d v F) as (-> & _); reflexivity|]. destruct (dig_none d F) as [A ->]. symmetry. exact A. }
      rewrite X. destruct (is_digit (to_ascii d)); [apply I|reflexivity].
  Qed.
  Lemma int_same s : py_int_u dig s = py_int (map to_ascii s).
  Proof.
    unfold py_int_u, py_int. rewrite strip_same. destruct (int_strip s) as [|c r]; [reflexivity|]. cbn [map]. rewrite !not_digit_char by lia. rewrite !body_same. reflexivity.
  Qed.
  Lemma split_same s : split_on 58%N (map to_ascii s) = map (map to_ascii) (split_on 58%N s).
  Proof.
    induction s as [|c s I]; [reflexivity|]. cbn [map split_on]. rewrite not_digit_char by lia. rewrite I. destruct (c =? 58)%N; [reflexivity|].
    destruct (split_on 58%N s); reflexivity.
  Qed.
  Lemma clock_same s : clock_time_u dig s = clock_time (map to_ascii s).
  Proof.
    unfold clock_time_u, clock_time. rewrite split_same. destruct (split_on 58%N s) as [|h [|m rest]]; cbn [map]; try reflexivity. rewrite !int_same. destruct rest; cbn [map]; [reflexivity|]. rewrite int_same. reflexivity.
  Qed.
  Lemma colon_same s : has_char 58%N (map to_ascii s) = has_char 58%N s.
  Proof. unfold has_char. induction s as [|c s I]; [reflexivity|]. cbn [map existsb]. rewrite I. f_equal. rewrite !(N.eqb_sym 58). apply not_digit_char; lia. Qed.

  (** int() takes exactly the texts that are whole numbers once their digits are written as
      0 to 9. *)
  Theorem C133_int : forall s v, py_int_u dig s = Some v <-> exists t, plainly s t /\ int_text t v.
  Proof.
    intros s v. rewrite int_same, C126_int. split.
    - intro H. exists (map to_ascii s). split; [apply plainly_map; reflexivity|exact H].
    - intros (t & P & H). apply plainly_map in P. subst t. exact H.
  Qed.
  (** So do the clock times of schedules, but not the offsets of relative times. *)
  Theorem C133_clock : forall ps t v, ps <> [] -> In 58%N t ->
    (expr_offset_u dig ps t = Ok v <-> exists t', plainly t t' /\ means (opening ps) (closing ps) t' v).
  Proof.
    intros ps t v Hp Hc. unfold expr_offset_u. assert (C : has_char 58%N t = true) by (apply has_char_In; exact Hc). rewrite C, clock_same.
    assert (E : clock_time (map to_ascii t) = expr_offset ps (map to_ascii t)) by (unfold expr_offset; rewrite colon_same, C; reflexivity).
    rewrite E, (C126_exact ps _ v Hp). split.
    - intro H. exists (map to_ascii t). split; [apply plainly_map; reflexivity|exact H].
    - intros (t' & P & H). apply plainly_map in P. subst t'. exact H.
  Qed.
  Theorem C133_relative : forall ps t v, ps <> [] -> ~ In 58%N t -> (expr_offset_u dig ps t = Ok v <-> means (opening ps) (closing ps) t v).
  Proof.
    intros ps t v Hp Hc. rewrite <- (C126_exact ps t v Hp). unfold expr_offset_u, expr_offset. assert (C : has_char 58%N t = false) by (apply not_true_iff_false; rewrite has_char_In; exact Hc). rewrite C. reflexivity.
  Qed.
  (** Without digits of other scripts it is the int() of the rest of the model. *)
  Definition no_foreign (s : str) : Prop := Forall (fun c => (c < 128)%N \/ dig c = None) s.
  Lemma no_foreign_same s : no_foreign s -> map to_ascii s = s.
  Proof.
    induction 1 as [|c s H _ I]; [reflexivity|]. cbn. rewrite I. f_equal. destruct (dig c) as [v|] eqn:E; [|apply dig_none; exact E].
    destruct H as [H|H]; [|discriminate]. unfold to_ascii. rewrite E. destruct Hd as [D _]. rewrite (D c H) in E. destruct (is_digit c) eqn:I'; [|discriminate]. injection E as <-.
    unfold is_digit in I'. apply andb_prop in I'. rewrite !N.leb_le in I'. lia.
  Qed.
  Theorem C133_same : forall s, no_foreign s -> py_int_u dig s = py_int s /\ forall ps, expr_offset_u dig ps s = expr_offset ps s.
  Proof.
    intros s H. pose proof (no_foreign_same s H) as E. split; [rewrite int_same, E; reflexivity|]. intro ps. unfold expr_offset_u, expr_offset. rewrite clock_same, E. reflexivity.
  Qed.
End W.
Print Assumptions C133_int.
Print Assumptions C133_clock.
Print Assumptions C133_relative.
Print Assumptions C133_same.

Definition full_width (c : N) : option Z :=
  if is_digit c then Some (Z.of_N c - 48) else if ((65296 <=? c) && (c <=? 65305))%N then Some (Z.of_N c - 65296) else None.
Lemma full_width_ok : digits_ok full_width.
Proof.
  unfold full_width. split.
  - intros c L. destruct (is_digit c); [reflexivity|]. destruct (N.leb_spec 65296 c); [lia|reflexivity].
  - intros c v. destruct (is_digit c) eqn:E.
    + intro H. injection H as <-. split; [|apply digit_not_space; exact E]. unfold is_digit in E. apply andb_prop in E. rewrite !N.leb_le in E. lia.
    + destruct ((65296 <=? c) && (c <=? 65305))%N eqn:F; [|discriminate]. intro H. injection H as <-. apply andb_prop in F. rewrite !N.leb_le in F. split; [lia|].
      unfold is_space. repeat (apply orb_false_iff; split); try (apply andb_false_iff; rewrite !N.leb_gt; lia); apply N.eqb_neq; lia.
Qed.
(** nine thirty with full-width digits, and an offset with one *)
Example C133_demo :
  let w k := Z.to_N (65296 + k) in
  py_int_u full_width [w 9] = Some 9 /\ py_int [w 9] = None /\
  expr_offset_u full_width [(34200 * US, 54000 * US)] ([w 9] ++ lit ":" ++ [w 3; w 0]) = Ok (34200 * US) /\
  expr_offset_u full_width [(34200 * US, 54000 * US)] (lit "open+" ++ [w 3] ++ lit "m") = Err InvalidParam /\
  expr_offset_u full_width [(34200 * US, 54000 * US)] ([w 9] ++ [65306%N] ++ [w 3; w 0]) = Err InvalidParam.
Proof. vm_compute. repeat split. Qed.
