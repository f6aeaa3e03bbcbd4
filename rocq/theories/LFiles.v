(** Lemmas for C71 and C72. *)
From Verif Require Import PyBase PyStr MTime MDate LStr LDate MFiles SFiles.
Open Scope list_scope.
Open Scope Z_scope.

Lemma split_on_cat c a b : split_on c (a ++ c :: b) = split_on c a ++ split_on c b.
Proof.
  rewrite <- (join_split c a) at 1. pose proof (split_on_words c a) as W. pose proof (split_on_nonempty c a) as N.
  induction (split_on c a) as [|w ws IH]; [contradiction|]. inversion W as [|? ? W1 W2]; subst. destruct ws as [|w' ws].
  - cbn [join_with]. rewrite split_on_app by exact W1. reflexivity.
  - change (join_with c (w :: w' :: ws)) with (w ++ c :: join_with c (w' :: ws)). rewrite <- app_assoc. cbn [app].
    rewrite split_on_app by exact W1. rewrite IH by (assumption || discriminate). reflexivity.
Qed.

(** a name that can be a file in a directory *)
Definition plain (b : str) : Prop := has_char 47 b = false /\ b <> [] /\ b <> lit "." /\ b <> lit "..".
Lemma enter_plain l b : plain b -> enter l b = l ++ [b].
Proof.
  intros (_ & H1 & H2 & H3). unfold enter. destruct (eqb_spec b []); [contradiction|]. destruct (eqb_spec b (lit ".")); [contradiction|].
  destruct (eqb_spec b (lit "..")); [contradiction|]. reflexivity.
Qed.
Lemma plain_rel b : plain b -> startswith (lit "/") b = false.
Proof.
  intros (H & H1 & _). destruct b as [|c b]; [contradiction|]. cbn [has_char existsb] in H. apply orb_false_elim in H as [H _].
  change (lit "/") with [47%N]. cbn [startswith]. rewrite H. reflexivity.
Qed.
Lemma starts_app a b : a <> [] -> startswith (lit "/") (a ++ b) = startswith (lit "/") a.
Proof. destruct a as [|c a]; [contradiction|]. intros _. change (lit "/") with [47%N]. cbn [app startswith]. reflexivity. Qed.
Lemma ends_slash a : endswith (lit "/") a = true -> exists a', a = a' ++ [47%N].
Proof.
  unfold endswith. intros H. destruct (rev a) as [|c r] eqn:E; [discriminate|]. exists (rev r).
  rewrite <- (rev_involutive a), E. cbn [rev]. change (rev (lit "/")) with [47%N] in H. cbn [startswith] in H. f_equal. f_equal. destruct (N.eqb_spec 47 c); [congruence|discriminate].
Qed.
Lemma place_rel cwd a b : startswith (lit "/") b = false -> place cwd (os_join a b) = fold_left enter (split_on 47 b) (place cwd a).
Proof.
  intros P. unfold os_join. rewrite P. destruct (eqb_spec a []) as [->|Na].
  - cbn [orb app]. unfold place. rewrite P. reflexivity.
  - cbn [orb]. destruct (endswith (lit "/") a) eqn:Es.
    + destruct (ends_slash a Es) as [a' ->]. rewrite <- app_assoc. cbn [app]. unfold place.
      rewrite !split_on_cat, !fold_left_app. cbn [split_on fold_left].
      replace (startswith (lit "/") (a' ++ 47%N :: b)) with (startswith (lit "/") (a' ++ [47%N])); [reflexivity|]. destruct a' as [|c a']; [destruct b; reflexivity|].
      rewrite !(starts_app (c :: a')) by discriminate. reflexivity.
    + unfold place. change (lit "/" ++ b) with (47%N :: b). rewrite split_on_cat, fold_left_app.
      rewrite starts_app by exact Na. reflexivity.
Qed.
Lemma place_join cwd a b : plain b -> place cwd (os_join a b) = place cwd a ++ [b].
Proof.
  intros P. rewrite place_rel by exact (plain_rel b P). rewrite (split_on_none 47 b) by apply P. apply enter_plain, P.
Qed.

(** ** names *)
Lemma len_app_inj {A} (a b c d : list A) : a ++ b = c ++ d -> length b = length d -> a = c /\ b = d.
Proof.
  revert c. induction a as [|x a IH]; intros [|y c] E L; cbn in E.
  - auto.
  - exfalso. apply (f_equal (@length A)) in E. cbn in E. rewrite app_length in E. lia.
  - exfalso. apply (f_equal (@length A)) in E. cbn in E. rewrite app_length in E. lia.
  - injection E as -> E. destruct (IH c E L) as [-> ->]. auto.
Qed.
Lemma ymd_length n : length (ymd n) = 8%nat.
Proof. unfold ymd. destruct (civil_of_days n) as [[y m] d]. rewrite !app_length, !digits_length. reflexivity. Qed.
Lemma ymd_no c n : is_digit c = false -> has_char c (ymd n) = false.
Proof. intros H. unfold ymd. destruct (civil_of_days n) as [[y m] d]. rewrite !has_char_app, !digits_no by exact H. reflexivity. Qed.
Lemma ymd_inj n n' : date_ok n -> date_ok n' -> ymd n = ymd n' -> n = n'.
Proof.
  unfold date_ok, year_of, ymd. pose proof (civil_ok n) as H. pose proof (civil_ok n') as H'.
  destruct (civil_of_days n) as [[y m] d]. destruct (civil_of_days n') as [[y' m'] d']. cbn [fst]. intros Y Y' E.
  destruct (len_app_inj _ _ _ _ E ltac:(rewrite !app_length, !digits_length; reflexivity)) as [E1 E2].
  destruct (len_app_inj _ _ _ _ E2 ltac:(rewrite !digits_length; reflexivity)) as [E3 E4].
  apply (f_equal num_value) in E1, E3, E4. rewrite !num_value_digits in E1, E3, E4.
  change (10 ^ Z.of_nat 4) with 10000 in *. change (10 ^ Z.of_nat 2) with 100 in *.
  assert (D : forall y m d, d <= month_days y m -> d <= 31).
  { clear. intros y m d. unfold month_days. destruct (m =? 2), (leap y), ((m =? 4) || (m =? 6) || (m =? 9) || (m =? 11)); lia. }
  destruct H as (H1 & H2 & H3), H' as (H1' & H2' & H3'). pose proof (D y m d). pose proof (D y' m' d').
  rewrite !Z.mod_small in E1, E3, E4 by lia. congruence.
Qed.

Lemma plain_ends a b c : has_char 47 (a ++ b) = false -> b = c :: tl b -> (2 <= length (tl b))%nat -> plain (a ++ b).
Proof.
  intros H E L. split; [exact H|]. assert (3 <= length (a ++ b))%nat by (rewrite app_length; rewrite E; cbn [length]; lia).
  repeat split; intro X; rewrite X in *; cbn in *; lia.
Qed.
Lemma data_plain t d x : has_char 47 t = false -> has_char 47 x = false -> (2 <= length x)%nat -> plain (t ++ lit "_" ++ ymd d ++ x).
Proof.
  intros H Hx L. apply plain_ends with (c := 95%N); [|reflexivity|change (2 <= length (ymd d ++ x))%nat; rewrite app_length; lia].
  rewrite !has_char_app, H, Hx, ymd_no by reflexivity. reflexivity.
Qed.
Lemma data_dir_place cwd r : place cwd (data_dir r) = place cwd r ++ [lit "data"].
Proof. apply place_join. repeat split; discriminate. Qed.
Lemma data_place cwd r t d : has_char 47 t = false ->
  place cwd (data_file r t d) = place cwd r ++ [lit "data"; t ++ lit "_" ++ ymd d ++ lit ".json"].
Proof.
  intros H. unfold data_file. rewrite place_join by (apply data_plain; [exact H|reflexivity|cbn; lia]). rewrite data_dir_place, <- app_assoc. reflexivity.
Qed.
Lemma join_app a b x : plain b -> os_join a b ++ x = os_join a (b ++ x).
Proof.
  intros P. unfold os_join. rewrite starts_app by apply P. rewrite (plain_rel b P). destruct (_ || _); rewrite ?app_assoc; reflexivity.
Qed.
Lemma tmp_place cwd r t d : has_char 47 t = false ->
  place cwd (tmp_file r t d) = place cwd r ++ [lit "data"; t ++ lit "_" ++ ymd d ++ lit ".json.tmp"].
Proof.
  intros H. unfold tmp_file, data_file. rewrite join_app by (apply data_plain; [exact H|reflexivity|cbn; lia]).
  rewrite <- !app_assoc. change (lit ".json" ++ lit ".tmp") with (lit ".json.tmp").
  rewrite place_join by (apply data_plain; [exact H|reflexivity|cbn; lia]). rewrite data_dir_place, <- app_assoc. reflexivity.
Qed.
Lemma csv_place cwd dir k d : place cwd (csv_file dir k d) = place cwd dir ++ [csv_prefix k ++ lit "_" ++ ymd d ++ lit ".csv"].
Proof. apply place_join. apply data_plain; [destruct k; reflexivity|reflexivity|cbn; lia]. Qed.

Lemma two_eq (a b : list str) x y u v : a ++ [x; u] = b ++ [y; v] -> a = b /\ u = v.
Proof.
  intros E. change [x; u] with ([x] ++ [u]) in E. change [y; v] with ([y] ++ [v]) in E. rewrite !app_assoc in E.
  apply app_inj_tail in E as [E ->]. apply app_inj_tail in E as [-> _]. auto.
Qed.
Lemma two_one (a b : list str) x u v : a ++ [x; u] = b ++ [v] -> u = v.
Proof. change [x; u] with ([x] ++ [u]). rewrite app_assoc. intros E. apply app_inj_tail in E as [_ E]. exact E. Qed.
Lemma name_eq t t' d d' x : date_ok d -> date_ok d' -> t ++ lit "_" ++ ymd d ++ x = t' ++ lit "_" ++ ymd d' ++ x -> t = t' /\ d = d'.
Proof.
  intros D D' E. destruct (len_app_inj _ _ _ _ E ltac:(rewrite !app_length, !ymd_length; reflexivity)) as [-> E2]. split; [reflexivity|].
  apply app_inv_head in E2. apply app_inv_tail in E2. exact (ymd_inj d d' D D' E2).
Qed.
Lemma kind_neq t t' d d' (a b : str) x y : x <> y -> t ++ lit "_" ++ ymd d ++ a ++ [x : N] <> t' ++ lit "_" ++ ymd d' ++ b ++ [y].
Proof. intros N E. rewrite !app_assoc in E. apply app_inj_tail in E as [_ E]. exact (N E). Qed.
