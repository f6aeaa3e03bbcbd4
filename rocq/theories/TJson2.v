(** C160: what json.load refuses. *)
From Coq Require Import String.
From Verif Require Import PyBase PyStr MOrder MJson SJson SJson2 LStr LJson LJson2 TJson.
Open Scope list_scope.
Open Scope N_scope.

(** After the orders nothing but white space may follow. *)
Lemma ws_iff r : skip_ws r = [] <-> Forall blank r.
Proof.
  induction r as [|c r IH]; [split; [constructor|reflexivity]|]. cbn [skip_ws]. unfold blank in *.
  destruct (N.eqb_spec c 32), (N.eqb_spec c 9), (N.eqb_spec c 10), (N.eqb_spec c 13); cbn [orb]; try (rewrite IH; split; [intro; constructor; [tauto|assumption]|intro X; inversion X; assumption]).
  split; [discriminate|]. intro X. inversion X as [|? ? Y _]; subst. tauto.
Qed.
Theorem C160_after : forall sh4 sh3 rd4 rd3, (forall z, number (sh4 z)) -> (forall z, number (sh3 z)) -> (forall z, rd4 (sh4 z) = Some z) -> (forall z, rd3 (sh3 z) = Some z) ->
  forall o : dict str oinfo, NoDup (map fst o) -> Forall (fun kv => text (fst kv) /\ fine (snd kv)) o ->
  forall t r, save_text sh4 sh3 o = Some t ->
    (Forall blank r -> load_text rd4 rd3 (t ++ r) = Some o) /\ (~ Forall blank r -> load_text rd4 rd3 (t ++ r) = None).
Proof.
  intros sh4 sh3 rd4 rd3 N4 N3 R4 R3 o Hn F t r Hs. destruct (all_ok sh4 sh3 rd4 rd3 N4 N3 R4 R3 o F) as (j & E1 & E2 & E3 & E4).
  unfold save_text in Hs. rewrite E1 in Hs. cbn [option_map] in Hs. injection Hs as <-.
  assert (K : ok_file j) by (split; [rewrite E2; exact Hn|exact E3]). unfold load_text, loads.
  rewrite ws_solid by (apply solid_app, obj_head). rewrite (file_ok j r K). split; intro H.
  - rewrite (proj2 (ws_iff r) H). exact E4.
  - destruct (skip_ws r) eqn:Q; [destruct H; apply ws_iff, Q|reflexivity].
Qed.
Print Assumptions C160_after.

(** Just the numbers of JSON's grammar are taken for numbers. *)
Lemma span_inv p s : forall a b, span p s = (a, b) -> s = a ++ b /\ Forall (fun c => p c = true) a.
Proof.
  induction s as [|c s IH]; intros a b; cbn [span]; [intros [= <- <-]; split; [reflexivity|constructor]|].
  destruct (p c) eqn:P; [|intros [= <- <-]; split; [reflexivity|constructor]]. destruct (span p s) as [a' b']. intros [= <- <-].
  destruct (IH a' b' eq_refl) as [-> H]. split; [reflexivity|constructor; assumption].
Qed.
Lemma is_dig ds : Forall (fun c => is_digit c = true) ds -> Forall dig ds.
Proof.
  apply Forall_impl. intros c H. unfold is_digit in H. apply andb_prop in H as [X Y]. apply N.leb_le in X. apply N.leb_le in Y. split; assumption.
Qed.
Lemma exp_only s : is_exp s = true -> exp_part s.
Proof.
  destruct s as [|e s1]; [left; reflexivity|]. unfold is_exp. intro H. right. destruct ((e =? 101) || (e =? 69)) eqn:Ee; [|discriminate].
  assert (He : e = 101 \/ e = 69) by (rewrite orb_true_iff, !N.eqb_eq in Ee; exact Ee).
  assert (G : exists sg s2, s1 = sg ++ s2 /\ (sg = [] \/ sg = [45] \/ sg = [43]) /\ (let '(a, b) := span is_digit s2 in some_digits a && negb (some_digits b)) = true).
  { destruct s1 as [|c s2]; [exists [], []; repeat split; [left; reflexivity|exact H]|]. destruct ((c =? 45) || (c =? 43)) eqn:Ec.
    - exists [c], s2. rewrite orb_true_iff, !N.eqb_eq in Ec. repeat split; [right; destruct Ec; subst; [left|right]; reflexivity|exact H].
    - exists [], (c :: s2). repeat split; [left; reflexivity|exact H]. }
  destruct G as (sg & s2 & -> & Hsg & G). destruct (span is_digit s2) as [a b] eqn:Es. apply span_inv in Es as [-> Ha]. apply andb_prop in G as [G1 G2].
  destruct b; [|discriminate]. rewrite app_nil_r. exists e, sg, a. repeat split; try assumption; [destruct a; [discriminate|discriminate]|apply is_dig, Ha].
Qed.
Lemma frac_only s : is_frac s = true -> exists f e, s = f ++ e /\ frac_part f /\ exp_part e.
Proof.
  destruct s as [|c s1]; [exists [], []; repeat split; left; reflexivity|]. unfold is_frac. destruct (N.eqb_spec c 46) as [->|N].
  - destruct (span is_digit s1) as [a b] eqn:Es. apply span_inv in Es as [-> Ha]. intro H. apply andb_prop in H as [H1 H2].
    exists (46 :: a), b. split; [reflexivity|]. split; [right; exists a; repeat split; [destruct a; discriminate|apply is_dig, Ha]|apply exp_only, H2].
  - intro H. exists [], (c :: s1). split; [reflexivity|]. split; [left; reflexivity|apply exp_only, H].
Qed.
Theorem C160_numbers : forall s, is_num s = true <-> number s.
Proof.
  intro s. split; [|apply num_ok]. intro H. unfold is_num in H. cbn zeta in H.
  assert (G : exists sg s1, s = sg ++ s1 /\ (sg = [] \/ sg = [45]) /\
    (let '(a, b) := span is_digit s1 in match a with [] => false | [_] => is_frac b | d :: _ => negb (d =? 48) && is_frac b end) = true).
  { destruct s as [|c s1]; [exists [], []; repeat split; [left; reflexivity|exact H]|]. destruct (N.eqb_spec c 45) as [->|N].
    - exists [45], s1. repeat split; [right; reflexivity|exact H].
    - exists [], (c :: s1). repeat split; [left; reflexivity|exact H]. }
  clear H. destruct G as (sg & s1 & -> & Hsg & G). destruct (span is_digit s1) as [a b] eqn:Es. apply span_inv in Es as [-> Ha]. apply is_dig in Ha.
  assert (I : int_part a /\ is_frac b = true).
  { destruct a as [|d [|d' a]]; [discriminate| |].
    - split; [|exact G]. inversion Ha as [|? ? [D1 D2] _]; subst. destruct (N.eq_dec d 48) as [->|N]; [left; reflexivity|]. right. exists d, []. repeat split; [lia|exact D2|constructor].
    - apply andb_prop in G as [G1 G2]. split; [|exact G2]. inversion Ha as [|? ? [D1 D2] Hd]; subst. right. exists d, (d' :: a). apply negb_true_iff, N.eqb_neq in G1. repeat split; [lia|exact D2|exact Hd]. }
  destruct I as [I B]. destruct (frac_only b B) as (f & e & -> & Hf & He). exists sg, a, f, e. repeat split; assumption.
Qed.
Print Assumptions C160_numbers.

(** The digits of \uXXXX may be of either case. *)
Theorem C160_hex : forall c v, unhex c = Some v <->
  nth_error (lit "0123456789abcdef") (N.to_nat v) = Some c \/ nth_error (lit "0123456789ABCDEF") (N.to_nat v) = Some c.
Proof.
  intros c v. split.
  - intro H. assert (G : exists k : nat, (k < 16)%nat /\ N.to_nat v = k) by
      (exists (N.to_nat v); split; [|reflexivity]; unfold unhex in H; destruct (N.leb_spec 48 c), (N.leb_spec c 57), (N.leb_spec 97 c), (N.leb_spec c 102), (N.leb_spec 65 c), (N.leb_spec c 70); cbn [andb] in H; try discriminate H; injection H as <-; lia).
    destruct G as (k & Hk & Ev). rewrite Ev. assert (v = N.of_nat k) as -> by lia.
    unfold unhex in H. destruct (N.leb_spec 48 c), (N.leb_spec c 57), (N.leb_spec 97 c), (N.leb_spec c 102), (N.leb_spec 65 c), (N.leb_spec c 70); cbn [andb] in H; try discriminate H; injection H as H;
      (do 16 (destruct k as [|k]; [try lia;
        first [left; cbn; f_equal; lia|right; cbn; f_equal; lia]|]); lia).
  - assert (G : forall l : str, l = lit "0123456789abcdef" \/ l = lit "0123456789ABCDEF" -> nth_error l (N.to_nat v) = Some c -> unhex c = Some v).
    { intros l Hl H. assert (L : (N.to_nat v < 16)%nat) by (rewrite <- (ltac:(destruct Hl; subst; reflexivity) : List.length l = 16%nat); apply nth_error_Some; congruence).
      remember (N.to_nat v) as k eqn:Ek. assert (v = N.of_nat k) as -> by lia. clear Ek. destruct Hl as [->| ->];
        (do 16 (destruct k as [|k]; [cbn in H; injection H as <-; reflexivity|])); lia. }
    intros [H|H]; [apply (G _ (or_introl eq_refl) H)|apply (G _ (or_intror eq_refl) H)].
Qed.
Print Assumptions C160_hex.
Example C160_demo_strict :
  is_num (lit "-12.50e+3") = true /\ is_num (lit "1.") = false /\ is_num (lit "012") = false /\ unhex 70 = Some 15 /\
  loads (lit "{} ") = Some [] /\ loads (lit "{}x") = None.
Proof. repeat split. Qed.
