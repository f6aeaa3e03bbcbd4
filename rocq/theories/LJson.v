(** Lemmas for C160: what json.dump writes, json.load reads. *)
From Coq Require Import String DecimalFacts DecimalN DecimalPos.
From Verif Require Import PyBase PyStr MOrder MJson SJson LStr.
Open Scope list_scope.
Open Scope N_scope.

(** ** strings *)
Lemma unhex_hexd n : n < 16 -> unhex (hexd n) = Some n.
Proof.
  intro H. unfold hexd, unhex. destruct (N.ltb_spec n 10).
  - destruct (N.leb_spec 48 (48 + n)), (N.leb_spec (48 + n) 57); try lia. cbn [andb]. f_equal. lia.
  - destruct (N.leb_spec (87 + n) 57); [lia|]. rewrite andb_false_r. destruct (N.leb_spec 97 (87 + n)), (N.leb_spec (87 + n) 102); try lia. cbn [andb]. f_equal. lia.
Qed.
Lemma hex4_u4 u : u < 65536 -> hex4 (hexd (u / 4096)) (hexd (u / 256 mod 16)) (hexd (u / 16 mod 16)) (hexd (u mod 16)) = Some u.
Proof.
  intro H. unfold hex4. rewrite !unhex_hexd; try (apply N.mod_lt; discriminate); [|apply N.div_lt_upper_bound; [discriminate|exact H]].
  f_equal. zify. Z.to_euclidean_division_equations. lia.
Qed.
Lemma addc_some c x t r : x = Some (t, r) -> addc c x = Some (c :: t, r).
Proof. intros ->. reflexivity. Qed.
Lemma scan_u4 u s : u < 65536 -> (high u = true -> next_low s = FNo) -> scan (u4 u ++ s) = addc u (scan s).
Proof.
  intros Hu Hn. unfold u4. cbn [app scan]. change (92 =? 34) with false. change (92 =? 92) with true. change (117 =? 117) with true. cbn iota.
  rewrite (hex4_u4 u Hu). destruct (high u); [|reflexivity]. specialize (Hn eq_refl). destruct s as [|? [|? [|? [|? [|? [|? s]]]]]]; try reflexivity. rewrite Hn. reflexivity.
Qed.
Lemma next_u4 v s : v < 65536 -> next_low (u4 v ++ s) = if low v then FLow v else FNo.
Proof.
  intro Hv. unfold u4. cbn [app next_low]. change (92 =? 92) with true. change (117 =? 117) with true. cbn [andb]. rewrite (hex4_u4 v Hv). reflexivity.
Qed.
Lemma scan_pair u v s : u < 65536 -> v < 65536 -> high u = true -> low v = true ->
  scan (u4 u ++ u4 v ++ s) = addc (65536 + (u - 55296) * 1024 + (v - 56320)) (scan s).
Proof.
  intros Hu Hv Hh Hl. pose proof (next_u4 v s Hv) as N. rewrite Hl in N. unfold u4 in *. cbn [app] in *. cbn [scan].
  change (92 =? 34) with false. change (92 =? 92) with true. change (117 =? 117) with true. cbn iota. rewrite (hex4_u4 u Hu), Hh, N. reflexivity.
Qed.
Lemma next_other p s : p <> 92 -> next_low (p :: s) = FNo.
Proof.
  intro H. destruct s as [|? [|? [|? [|? [|? s]]]]]; try reflexivity. cbn [next_low]. rewrite (proj2 (N.eqb_neq p 92) H). reflexivity.
Qed.
Lemma next_esc q s : q <> 117 -> next_low (92 :: q :: s) = FNo.
Proof.
  intro H. destruct s as [|? [|? [|? [|? s]]]]; try reflexivity. cbn [next_low]. rewrite (proj2 (N.eqb_neq q 117) H). rewrite andb_false_r. reflexivity.
Qed.
Ltac eqs := repeat match goal with |- context [?a =? ?b] => destruct (N.eqb_spec a b); [subst|] end.
Lemma next_chars c s : c <= 1114111 -> low c = false -> next_low (esc c ++ s) = FNo.
Proof.
  intros Hc Hl. unfold esc. eqs; try (apply next_esc; discriminate).
  destruct ((32 <=? c) && (c <=? 126)); [apply next_other; assumption|]. destruct (N.ltb_spec c 65536) as [H|H].
  - rewrite next_u4 by exact H. rewrite Hl. reflexivity.
  - rewrite <- app_assoc, next_u4.
    + unfold low. destruct (N.leb_spec 56320 (55296 + (c - 65536) / 1024)) as [X|X]; [|reflexivity]. exfalso. zify. Z.to_euclidean_division_equations. lia.
    + zify. Z.to_euclidean_division_equations. lia.
Qed.
Lemma scan_esc c rest t r : c <= 1114111 -> (high c = true -> next_low rest = FNo) -> scan rest = Some (t, r) -> scan (esc c ++ rest) = Some (c :: t, r).
Proof.
  intros Hc Hn Hs. unfold esc.
  destruct (N.eqb_spec c 34) as [->|N1]; [cbn [app scan]; exact (addc_some _ _ _ _ Hs)|].
  destruct (N.eqb_spec c 92) as [->|N2]; [cbn [app scan]; exact (addc_some _ _ _ _ Hs)|].
  destruct (N.eqb_spec c 10) as [->|N3]; [cbn [app scan]; exact (addc_some _ _ _ _ Hs)|].
  destruct (N.eqb_spec c 13) as [->|N4]; [cbn [app scan]; exact (addc_some _ _ _ _ Hs)|].
  destruct (N.eqb_spec c 9) as [->|N5]; [cbn [app scan]; exact (addc_some _ _ _ _ Hs)|].
  destruct (N.eqb_spec c 12) as [->|N6]; [cbn [app scan]; exact (addc_some _ _ _ _ Hs)|].
  destruct (N.eqb_spec c 8) as [->|N7]; [cbn [app scan]; exact (addc_some _ _ _ _ Hs)|].
  destruct ((32 <=? c) && (c <=? 126)) eqn:P.
  - cbn [app scan]. rewrite (proj2 (N.eqb_neq _ _) N1), (proj2 (N.eqb_neq _ _) N2). apply andb_prop in P as [P _]. apply N.leb_le in P.
    destruct (N.ltb_spec c 32); [lia|]. apply addc_some, Hs.
  - destruct (N.ltb_spec c 65536) as [H|H]; [rewrite scan_u4 by assumption; apply addc_some, Hs|].
    rewrite <- app_assoc, scan_pair.
    + rewrite (addc_some _ _ _ _ Hs). do 3 f_equal. zify. Z.to_euclidean_division_equations. lia.
    + zify. Z.to_euclidean_division_equations. lia.
    + zify. Z.to_euclidean_division_equations. lia.
    + unfold high. apply andb_true_intro. split; apply N.leb_le; zify; Z.to_euclidean_division_equations; lia.
    + unfold low. apply andb_true_intro. split; apply N.leb_le; zify; Z.to_euclidean_division_equations; lia.
Qed.
Lemma scan_text s r : text s -> scan (flat_map esc s ++ 34 :: r) = Some (s, r).
Proof.
  intros [Hc Ha]. induction Hc as [|c s Hc Hs IH]; [reflexivity|]. cbn [flat_map]. rewrite <- app_assoc. apply scan_esc; [exact Hc| |apply IH].
  - intro Hh. destruct s as [|c' s]; [apply next_other; discriminate|]. cbn [flat_map]. rewrite <- app_assoc. apply next_chars; [inversion Hs; assumption|].
    specialize (Ha [] c c' s eq_refl). unfold high, low in *. apply andb_prop in Hh as [H1 H2]. apply N.leb_le in H1. apply N.leb_le in H2.
    destruct (N.leb_spec 56320 c'), (N.leb_spec c' 57343); try reflexivity. destruct Ha. lia.
  - intros a x x' b E. apply (Ha (c :: a) x x' b). rewrite E. reflexivity.
Qed.

(** ** numbers *)
Lemma span_all p a : forall r, Forall (fun c => p c = true) a -> match r with c :: _ => p c = false | [] => True end -> span p (a ++ r) = (a, r).
Proof.
  induction a as [|c a IH]; intros r Ha Hr.
  - destruct r; [reflexivity|]. cbn [app span]. rewrite Hr. reflexivity.
  - inversion Ha as [|? ? E Ha']; subst. cbn [app span]. rewrite E, (IH r Ha' Hr). reflexivity.
Qed.
Lemma dig_is c : dig c -> is_digit c = true.
Proof. unfold dig, is_digit. intros [H1 H2]. apply andb_true_intro. split; apply N.leb_le; assumption. Qed.
Lemma digs_are ds : Forall dig ds -> Forall (fun c => is_digit c = true) ds.
Proof. apply Forall_impl, dig_is. Qed.
Lemma exp_ok e : exp_part e -> is_exp e = true.
Proof.
  intros [->|(x & sg & ds & -> & Hx & Hsg & Hn & Hd)]; [reflexivity|]. unfold is_exp. assert ((x =? 101) || (x =? 69) = true) as -> by (destruct Hx; subst; reflexivity).
  assert (E : match sg ++ ds with c :: s2 => if (c =? 45) || (c =? 43) then s2 else sg ++ ds | [] => sg ++ ds end = ds).
  { destruct Hsg as [->|[->| ->]]; [|reflexivity|reflexivity]. cbn [app]. destruct ds as [|c ds]; [reflexivity|]. inversion Hd as [|? ? [D1 D2] _]; subst.
    destruct (N.eqb_spec c 45); [lia|]. destruct (N.eqb_spec c 43); [lia|]. reflexivity. }
  rewrite E. pose proof (span_all is_digit ds [] (digs_are _ Hd) I) as S. rewrite app_nil_r in S. rewrite S. destruct ds; [congruence|reflexivity].
Qed.
Lemma exp_head e : exp_part e -> match e with c :: _ => is_digit c = false /\ c <> 46 | [] => True end.
Proof. intros [->|(x & sg & ds & -> & [->| ->] & _)]; [exact I|split; [reflexivity|discriminate]|split; [reflexivity|discriminate]]. Qed.
Lemma frac_ok f e : frac_part f -> exp_part e -> is_frac (f ++ e) = true.
Proof.
  intros Hf He. pose proof (exp_head _ He) as Hh. destruct Hf as [->|(ds & -> & Hn & Hd)].
  - cbn [app]. unfold is_frac. destruct e as [|c e]; [reflexivity|]. destruct (N.eqb_spec c 46); [destruct Hh; congruence|apply exp_ok, He].
  - cbn [app]. unfold is_frac. change (46 =? 46) with true. cbn iota. rewrite (span_all is_digit ds e (digs_are _ Hd)) by (destruct e; [exact I|apply Hh]).
    rewrite (exp_ok _ He). destruct ds; [congruence|reflexivity].
Qed.
Lemma frac_head f e : frac_part f -> exp_part e -> match f ++ e with c :: _ => is_digit c = false | [] => True end.
Proof. intros [->|(ds & -> & _)] He; [cbn [app]; pose proof (exp_head _ He); destruct e; tauto|reflexivity]. Qed.
Lemma num_ok s : number s -> is_num s = true.
Proof.
  intros (sg & i & f & e & -> & Hsg & Hi & Hf & He). unfold is_num. cbn zeta.
  assert (Hd : Forall dig i /\ match i with [] => False | [_] => True | d :: _ => d <> 48 end).
  { destruct Hi as [->|(d & ds & -> & Hd & Hds)]; [split; [repeat constructor; discriminate|exact I]|]. split; [constructor; [unfold dig; lia|exact Hds]|]. destruct ds; [exact I|lia]. }
  assert (E : match sg ++ i ++ f ++ e with c :: s1 => if c =? 45 then s1 else sg ++ i ++ f ++ e | [] => sg ++ i ++ f ++ e end = i ++ f ++ e).
  { destruct Hsg as [->| ->]; [|reflexivity]. cbn [app]. destruct Hd as [Hd _]. destruct i as [|c i]; [destruct Hi as [X|(? & ? & X & _)]; discriminate|].
    inversion Hd as [|? ? [D1 D2] _]; subst. cbn [app]. destruct (N.eqb_spec c 45); [lia|reflexivity]. }
  match goal with |- context [span is_digit ?x] => replace x with (i ++ f ++ e) by (symmetry; exact E) end. rewrite (span_all is_digit i (f ++ e) (digs_are _ (proj1 Hd))) by (apply frac_head; assumption).
  destruct i as [|d [|d' i]]; [destruct Hd; contradiction|apply frac_ok; assumption|]. rewrite (frac_ok _ _ Hf He).
  rewrite (proj2 (N.eqb_neq _ _) (proj2 Hd)). reflexivity.
Qed.
Lemma num_chars s : number s -> Forall (fun c => num_char c = true) s.
Proof.
  assert (D : forall ds, Forall dig ds -> Forall (fun c => num_char c = true) ds).
  { intros ds. apply Forall_impl. intros c Hc. unfold num_char. rewrite (dig_is _ Hc). reflexivity. }
  intros (sg & i & f & e & -> & Hsg & Hi & Hf & He). rewrite !Forall_app. repeat split.
  - destruct Hsg as [->| ->]; repeat constructor.
  - destruct Hi as [->|(d & ds & -> & Hd & Hds)]; [repeat constructor|]. apply D. constructor; [unfold dig; lia|exact Hds].
  - destruct Hf as [->|(ds & -> & _ & Hd)]; [constructor|]. constructor; [reflexivity|apply D, Hd].
  - destruct He as [->|(x & g & ds & -> & Hx & Hg & _ & Hd)]; [constructor|]. constructor; [destruct Hx as [->| ->]; reflexivity|]. apply Forall_app. split; [|apply D, Hd].
    destruct Hg as [->|[->| ->]]; repeat constructor.
Qed.
Lemma num_first s : number s -> exists c s', s = c :: s' /\ (c = 45 \/ dig c).
Proof.
  intros (sg & i & f & e & -> & [->| ->] & Hi & _); [|cbn; eauto]. destruct Hi as [->|(d & ds & -> & Hd & _)]; cbn; eexists _, _; (split; [reflexivity|right; unfold dig; lia]).
Qed.
Lemma str_of_N_int n : int_part (str_of_N n).
Proof.
  unfold str_of_N. rewrite lit_uint. pose proof (DecimalN.Unsigned.to_of (N.to_uint n)) as E. rewrite DecimalN.Unsigned.of_to in E.
  assert (G : forall d, (forall d', d <> Decimal.D0 d') -> d <> Decimal.Nil -> int_part (uint_digits d)).
  { intros d H0 Hn. right. pose proof (uint_digits_digit d) as F. assert (F' : Forall dig (uint_digits d)).
    { eapply Forall_impl; [|exact F]. intros c Hc. unfold is_digit in Hc. apply andb_prop in Hc as [X Y]. apply N.leb_le in X. apply N.leb_le in Y. split; assumption. }
    destruct d; cbn [uint_digits] in *; try congruence; try (destruct (H0 d eq_refl));
      (inversion F' as [|? ? Q Q']; subst; eexists _, _; split; [reflexivity|split; [lia|exact Q']]). }
  rewrite E. unfold Decimal.unorm. destruct (Decimal.nzhead (N.to_uint n)) eqn:Z; [left; reflexivity| |..];
    try (destruct (DecimalFacts.nzhead_nonzero _ _ Z)); apply G; intros; discriminate.
Qed.
Lemma int_number z : number (str_of_Z z).
Proof.
  destruct z as [|p|p]; cbn [str_of_Z].
  - exists [], (lit "0"), [], []. repeat split; try (left; reflexivity).
  - exists [], (str_of_N (N.pos p)), [], []. rewrite !app_nil_r. repeat split; try (left; reflexivity). apply str_of_N_int.
  - exists [45], (str_of_N (N.pos p)), [], []. rewrite !app_nil_r. repeat split; try (left; reflexivity); [right; reflexivity|apply str_of_N_int].
Qed.

(** ** objects *)
Definition ender (r : str) : Prop := exists c r', r = c :: r' /\ (c = 44 \/ c = 125).
Definition solid_head (s : str) : Prop := exists c s', s = c :: s' /\ c <> 32 /\ c <> 9 /\ c <> 10 /\ c <> 13.
Lemma ws_solid s : solid_head s -> skip_ws s = s.
Proof.
  intros (c & s' & -> & N1 & N2 & N3 & N4). cbn [skip_ws]. rewrite (proj2 (N.eqb_neq _ _) N1), (proj2 (N.eqb_neq _ _) N2), (proj2 (N.eqb_neq _ _) N3), (proj2 (N.eqb_neq _ _) N4). reflexivity.
Qed.
Lemma solid_c c s : c <> 32 -> c <> 9 -> c <> 10 -> c <> 13 -> skip_ws (c :: s) = c :: s.
Proof. intros. apply ws_solid. exists c, s. auto. Qed.
Lemma solid_app s r : solid_head s -> solid_head (s ++ r).
Proof. intros (c & s' & -> & H). exists c, (s' ++ r). split; [reflexivity|exact H]. Qed.

Section Obj.
  Context {V : Type} (show : V -> str) (read : str -> option (V * str)) (okv : V -> Prop).
  Context (Hread : forall v r, okv v -> ender r -> read (show v ++ r) = Some (v, r)) (Hhead : forall v, okv v -> solid_head (show v)).
  Definition ok_kv (kv : str * V) : Prop := text (fst kv) /\ okv (snd kv).
  Lemma member_cons kv r : member show kv ++ r = 34 :: flat_map esc (fst kv) ++ 34 :: 58 :: 32 :: show (snd kv) ++ r.
  Proof. unfold member, jstring. cbn [app]. rewrite <- !app_assoc. cbn [app]. reflexivity. Qed.
  Lemma pairs_ok d : forall fuel r X, Forall ok_kv d -> d <> [] -> (length d <= fuel)%nat -> members show d ++ 125 :: r = 34 :: X -> pairs read fuel X = Some (d, r).
  Proof.
    induction d as [|[k v] d IH]; intros fuel r X F Hne Hf E; [congruence|]. destruct fuel as [|fuel]; [cbn in Hf; lia|].
    inversion F as [|? ? [Hk Hv] F']; subst. cbn [fst snd] in *. cbn [pairs].
    assert (G : exists z, X = flat_map esc k ++ 34 :: 58 :: 32 :: show v ++ z /\ ender z /\
      (d = [] /\ z = 125 :: r \/ d <> [] /\ z = 44 :: 32 :: members show d ++ 125 :: r)).
    { destruct d as [|kv' d'].
      - cbn [members] in E. rewrite member_cons in E. injection E as <-. exists (125 :: r). split; [reflexivity|]. split; [eexists _, _; split; [reflexivity|right; reflexivity]|left; split; reflexivity].
      - cbn [members] in E. rewrite <- !app_assoc in E. rewrite member_cons in E. injection E as <-. eexists. split; [reflexivity|]. split; [eexists _, _; split; [reflexivity|left; reflexivity]|].
        right. split; [discriminate|reflexivity]. }
    destruct G as (z & -> & Hz & Hcase). rewrite (scan_text k _ Hk). rewrite solid_c by discriminate. change (58 =? 58) with true. cbn iota.
    change (skip_ws (32 :: show v ++ z)) with (skip_ws (show v ++ z)). rewrite (ws_solid (show v ++ z)) by (apply solid_app, Hhead, Hv).
    rewrite (Hread v z Hv Hz). destruct Hcase as [[-> ->]|[Hd ->]].
    - rewrite solid_c by discriminate. reflexivity.
    - rewrite solid_c by discriminate. change (44 =? 125) with false. change (44 =? 44) with true. cbn iota.
      change (skip_ws (32 :: members show d ++ 125 :: r)) with (skip_ws (members show d ++ 125 :: r)).
      assert (Q : exists Y, members show d ++ 125 :: r = 34 :: Y).
      { destruct d as [|kv' [|kv'' d']]; [congruence| |]; cbn [members]; rewrite <- ?app_assoc, member_cons; eauto. }
      destruct Q as (Y & Q). rewrite Q. rewrite solid_c by discriminate. change (34 =? 34) with true. cbn iota.
      rewrite (IH fuel r Y F' Hd ltac:(cbn in Hf; lia) Q). reflexivity.
  Qed.
  Lemma members_length d : (length d <= length (members show d))%nat.
  Proof.
    induction d as [|kv [|kv' d] IH]; [cbn; lia|cbn; lia|]. cbn [members length] in *. rewrite !app_length. cbn [length]. lia.
  Qed.
  Lemma as_dict_same : forall (d d0 : list (str * V)), NoDup (map fst (d0 ++ d)) -> fold_left (fun x kv => dset (fst kv) (snd kv) x) d d0 = d0 ++ d.
  Proof.
    induction d as [|[k v] d IH]; intros d0 H; [rewrite app_nil_r; reflexivity|]. cbn [fold_left fst snd].
    assert (E : dset k v d0 = d0 ++ [(k, v)]).
    { rewrite map_app in H. cbn [map fst] in H. apply NoDup_remove_2 in H. assert (H' : ~ In k (map fst d0)) by (intro X; apply H, in_or_app; left; exact X). clear - H'.
      induction d0 as [|[k' v'] d0 IH]; [reflexivity|]. cbn [dset app]. destruct (eqb k k') eqn:Q; [apply eqb_true in Q; subst; destruct H'; left; reflexivity|].
      f_equal. apply IH. intro X. apply H'. right. exact X. }
    rewrite E, IH; [rewrite <- app_assoc; reflexivity|]. rewrite <- app_assoc. exact H.
  Qed.
  Definition ok_obj (d : list (str * V)) : Prop := NoDup (map fst d) /\ Forall ok_kv d.
  Lemma obj_ok d r : ok_obj d -> read_obj read (show_obj show d ++ r) = Some (d, r).
  Proof.
    intros [Hn F]. unfold show_obj. rewrite <- app_comm_cons, <- app_assoc. unfold read_obj. change (123 =? 123) with true. cbn iota. destruct d as [|kv d].
    - cbn [members app]. rewrite solid_c by discriminate. reflexivity.
    - set (s := 123 :: _). assert (Q : exists Y, members show (kv :: d) ++ [125] ++ r = 34 :: Y).
      { destruct d as [|kv'' d']; cbn [members]; rewrite <- ?app_assoc, member_cons; eauto. }
      destruct Q as (Y & Q). rewrite Q. rewrite solid_c by discriminate. change (34 =? 125) with false. change (34 =? 34) with true. cbn iota.
      rewrite (pairs_ok (kv :: d) _ r Y F); [|discriminate| |exact Q].
      + unfold as_dict. rewrite (as_dict_same (kv :: d) []) by exact Hn. reflexivity.
      + unfold s. cbn [length]. rewrite app_length. pose proof (members_length (kv :: d)) as L. cbn [length] in L. lia.
  Qed.
  Lemma obj_head d : solid_head (show_obj show d).
  Proof. unfold show_obj. eexists _, _. split; [reflexivity|]. repeat split; discriminate. Qed.
End Obj.

Definition ok_v (v : scalar_v) : Prop := match v with JNull => True | JStr s => text s | JNum s => number s end.
Lemma ender_num r : ender r -> match r with c :: _ => num_char c = false | [] => True end.
Proof. intros (c & r' & -> & [->| ->]); reflexivity. Qed.
Lemma value_ok v r : ok_v v -> ender r -> value (show_v v ++ r) = Some (v, r).
Proof.
  intros Hv Hr. destruct v as [|s|s]; cbn [show_v ok_v] in *.
  - cbn. reflexivity.
  - unfold jstring. rewrite <- app_comm_cons, <- app_assoc. unfold value. change (34 =? 34) with true. cbn iota. cbn [app]. rewrite (scan_text s r Hv). reflexivity.
  - destruct (num_first s Hv) as (c & s' & E & Hc). pose proof (span_all num_char s r (num_chars s Hv) (ender_num r Hr)) as S. pose proof (num_ok s Hv) as K.
    rewrite E in *. rewrite <- app_comm_cons in *. unfold value.
    assert (X : (c =? 34) = false /\ startswith (lit "null") (c :: s' ++ r) = false).
    { split; [apply N.eqb_neq; unfold dig in Hc; lia|]. unfold startswith, lit. cbn -[N.eqb]. destruct (N.eqb_spec 110 c); [unfold dig in Hc; lia|reflexivity]. }
    destruct X as [-> ->]. rewrite S, K. reflexivity.
Qed.
Lemma value_head v : ok_v v -> solid_head (show_v v).
Proof.
  destruct v as [|s|s]; cbn [show_v ok_v]; intro H.
  - eexists _, _. split; [reflexivity|]. repeat split; discriminate.
  - eexists _, _. split; [reflexivity|]. repeat split; discriminate.
  - destruct (num_first s H) as (c & s' & -> & Hc). eexists _, _. split; [reflexivity|]. unfold dig in Hc. lia.
Qed.
Definition ok_file : list (str * list (str * scalar_v)) -> Prop := ok_obj (ok_obj ok_v).
Lemma file_ok o r : ok_file o -> read_obj (read_obj value) (dumps o ++ r) = Some (o, r).
Proof.
  intro H. unfold dumps. apply (obj_ok (show_obj show_v) (read_obj value) (ok_obj ok_v)); [| |exact H].
  - intros d r' Hd _. apply (obj_ok show_v value ok_v); [exact value_ok|exact value_head|exact Hd].
  - intros d _. apply obj_head.
Qed.
Lemma loads_ok o : ok_file o -> loads (dumps o) = Some o.
Proof.
  intro H. unfold loads. rewrite ws_solid by apply obj_head. pose proof (file_ok o [] H) as E. rewrite app_nil_r in E. rewrite E. reflexivity.
Qed.

(** ** ASCII *)
Definition asc (s : str) : Prop := Forall (fun c => c < 128) s.
Lemma hexd_asc n : n < 16 -> hexd n < 128.
Proof. unfold hexd. destruct (n <? 10); lia. Qed.
Lemma u4_asc u : u < 65536 -> asc (u4 u).
Proof.
  intro H. unfold u4. repeat constructor; try (apply hexd_asc, N.mod_lt; discriminate). apply hexd_asc, N.div_lt_upper_bound; [discriminate|exact H].
Qed.
Lemma esc_asc c : c <= 1114111 -> asc (esc c).
Proof.
  intro H. unfold esc. eqs; try (repeat constructor; fail). destruct (N.leb_spec 32 c), (N.leb_spec c 126); cbn [andb]; try (repeat constructor; lia);
    (destruct (N.ltb_spec c 65536); [apply u4_asc; assumption|]; apply Forall_app; split; apply u4_asc; zify; Z.to_euclidean_division_equations; lia).
Qed.
Lemma jstring_asc s : text s -> asc (jstring s).
Proof.
  intros [H _]. unfold jstring. constructor; [reflexivity|]. apply Forall_app. split; [|repeat constructor].
  induction H as [|c s Hc _ IH]; [constructor|]. cbn [flat_map]. apply Forall_app. split; [apply esc_asc, Hc|exact IH].
Qed.
Lemma obj_asc {V} (show : V -> str) (okv : V -> Prop) d : (forall v, okv v -> asc (show v)) -> Forall (ok_kv okv) d -> asc (show_obj show d).
Proof.
  intros Hs F. unfold show_obj. constructor; [reflexivity|]. apply Forall_app. split; [|repeat constructor].
  assert (M : forall kv, ok_kv okv kv -> asc (member show kv)).
  { intros kv [Hk Hv]. unfold member. apply Forall_app. split; [apply jstring_asc, Hk|]. apply Forall_app. split; [repeat constructor|apply Hs, Hv]. }
  induction F as [|kv d Hkv F IH]; [constructor|]. cbn [members]. destruct d; [apply M, Hkv|]. apply Forall_app. split; [apply M, Hkv|].
  apply Forall_app. split; [repeat constructor|exact IH].
Qed.
Lemma value_asc v : ok_v v -> asc (show_v v).
Proof.
  destruct v as [|s|s]; cbn [show_v ok_v]; intro H; [repeat constructor|apply jstring_asc, H|]. eapply Forall_impl; [|apply num_chars, H].
  intros c Hc. unfold num_char, is_digit in Hc. repeat rewrite orb_true_iff in Hc. rewrite andb_true_iff, !N.leb_le, !N.eqb_eq in Hc. cbn beta. lia.
Qed.
Lemma file_asc o : ok_file o -> asc (dumps o).
Proof.
  intros [_ F]. unfold dumps. apply (obj_asc _ (ok_obj ok_v)); [|exact F]. intros d [_ F']. apply (obj_asc _ ok_v); [exact value_asc|exact F'].
Qed.
