(** Lemmas for C160: what was read stays read if the text goes on. *)
From Coq Require Import String.
From Verif Require Import PyBase PyStr MOrder MJson SJson LStr LJson.
Open Scope list_scope.
Open Scope N_scope.

Lemma scan_u a b c d u s : hex4 a b c d = Some u ->
  scan (92 :: 117 :: a :: b :: c :: d :: s) =
    if high u then match next_low s with
                   | FBad => None
                   | FLow v => addc (65536 + (u - 55296) * 1024 + (v - 56320)) (scan (skipn 6 s))
                   | FNo => addc u (scan s)
                   end
    else addc u (scan s).
Proof.
  intro H. cbn [scan]. change (92 =? 34) with false. change (92 =? 92) with true. change (117 =? 117) with true. cbn iota. rewrite H.
  destruct (high u); [|reflexivity]. destruct s as [|? [|? [|? [|? [|? [|? s]]]]]]; try reflexivity.
Qed.
Lemma next_more s x y : scan s = Some y -> next_low (s ++ x) = next_low s.
Proof.
  intro H. destruct s as [|p s]; [discriminate|]. destruct (N.eqb_spec p 92) as [->|N]; [|cbn [app]; rewrite !next_other by exact N; reflexivity].
  destruct s as [|q s]; [discriminate|]. destruct (N.eqb_spec q 117) as [->|N]; [|cbn [app]; rewrite !next_esc by exact N; reflexivity].
  destruct s as [|a [|b [|c [|d s]]]]; try discriminate. reflexivity.
Qed.
Lemma next_far s x v : next_low s = v -> v <> FNo -> next_low (s ++ x) = v /\ exists p6 s4, s = p6 ++ s4 /\ List.length p6 = 6%nat.
Proof.
  intros H Hn. destruct s as [|a [|b [|c [|d [|e [|f s]]]]]]; try (cbn in H; congruence). split; [exact H|]. exists [a; b; c; d; e; f], s. split; reflexivity.
Qed.
Lemma addc_inv c y t r : addc c y = Some (t, r) -> exists t', y = Some (t', r) /\ t = c :: t'.
Proof. destruct y as [[t' r']|]; [|discriminate]. intros [= <- <-]. eauto. Qed.
Lemma scan_more n : forall s, (List.length s <= n)%nat -> forall t r x, scan s = Some (t, r) -> scan (s ++ x) = Some (t, r ++ x).
Proof.
  induction n as [|n IH]; intros s Hl t r x H; [destruct s; [discriminate|cbn in Hl; lia]|]. destruct s as [|c s1]; [discriminate|]. cbn [List.length] in Hl.
  assert (A : forall s' y, (List.length s' <= n)%nat -> addc y (scan s') = Some (t, r) -> addc y (scan (s' ++ x)) = Some (t, r ++ x)).
  { intros s' y Hs E. apply addc_inv in E as (t' & E & ->). rewrite (IH s' Hs _ _ x E). reflexivity. }
  destruct (N.eqb_spec c 34) as [->|N1].
  { cbn [scan app] in *. change (34 =? 34) with true in *. cbn iota in *. injection H as <- <-. reflexivity. }
  destruct (N.eqb_spec c 92) as [->|N2].
  - destruct s1 as [|q s2]; [discriminate|]. cbn [List.length] in Hl. destruct (N.eqb_spec q 117) as [->|N3].
    + destruct s2 as [|a [|b [|c' [|d s3]]]]; try discriminate. cbn [List.length] in Hl. destruct (hex4 a b c' d) as [u|] eqn:Hx.
      * cbn [app]. rewrite (scan_u _ _ _ _ _ _ Hx) in H. rewrite (scan_u _ _ _ _ _ _ Hx). destruct (high u); [|apply A; [lia|exact H]].
        destruct (next_low s3) as [| |v] eqn:En; [|discriminate|].
        -- assert (E : exists y, scan s3 = Some y) by (destruct (scan s3) as [y|]; [eauto|discriminate]). destruct E as (y & E).
           rewrite (next_more s3 x y E), En. apply A; [lia|exact H].
        -- destruct (next_far s3 x _ En ltac:(discriminate)) as (-> & p6 & s4 & -> & L6). rewrite <- app_assoc.
           assert (Sk : forall z, skipn 6 (p6 ++ z) = z) by (intro z; rewrite skipn_app, L6, (skipn_all2 p6) by lia; reflexivity).
           rewrite Sk in *. rewrite app_length in Hl. apply A; [lia|exact H].
      * cbn [scan app] in *. change (92 =? 34) with false in *. change (92 =? 92) with true in *. change (117 =? 117) with true in *. cbn iota in *. rewrite Hx in H. discriminate.
    + cbn [scan app] in *. change (92 =? 34) with false in *. change (92 =? 92) with true in *. cbn iota in *. rewrite (proj2 (N.eqb_neq _ _) N3) in *.
      destruct (unesc q); [|discriminate]. apply A; [lia|exact H].
  - cbn [scan app] in *. rewrite (proj2 (N.eqb_neq _ _) N1), (proj2 (N.eqb_neq _ _) N2) in *. destruct (c <? 32); [discriminate|]. apply A; [lia|exact H].
Qed.
Lemma scan_on s t r x : scan s = Some (t, r) -> scan (s ++ x) = Some (t, r ++ x).
Proof. apply (scan_more (List.length s)). lia. Qed.
Lemma ws_on s x c s' : skip_ws s = c :: s' -> skip_ws (s ++ x) = c :: s' ++ x.
Proof.
  induction s as [|a s IH]; [discriminate|]. cbn [skip_ws app]. destruct (_ || _); [exact IH|]. intros [= <- <-]. reflexivity.
Qed.
Lemma ws_nil s : skip_ws s <> [] -> s <> [].
Proof. intros H ->. apply H. reflexivity. Qed.
Lemma span_on p s : forall a b x, span p s = (a, b) -> b <> [] -> span p (s ++ x) = (a, b ++ x).
Proof.
  induction s as [|c s IH]; intros a b x H Hb; cbn [span app] in *; [injection H as <- <-; congruence|].
  destruct (p c); [|injection H as <- <-; reflexivity]. destruct (span p s) as [a' b'] eqn:E. injection H as <- <-. rewrite (IH a' b' x eq_refl Hb). reflexivity.
Qed.
Lemma null_split s : startswith (lit "null") s = true -> exists y, s = lit "null" ++ y.
Proof.
  unfold lit. cbn -[N.eqb]. intro H. destruct s as [|a [|b [|c [|d s]]]]; cbn -[N.eqb] in H; rewrite ?andb_false_r in H; try discriminate.
  repeat (apply andb_prop in H as [?H H]). repeat match goal with X : (_ =? _) = true |- _ => apply N.eqb_eq in X end. subst. exists s. reflexivity.
Qed.
Definition goes_on {V} (read : str -> option (V * str)) : Prop := forall s v r x, read s = Some (v, r) -> r <> [] -> read (s ++ x) = Some (v, r ++ x).
Lemma value_on : goes_on value.
Proof.
  intros s v r x H Hr. destruct s as [|c s1]; [discriminate|]. unfold value in *. cbn [app]. destruct (c =? 34).
  { destruct (scan s1) as [[t r']|] eqn:E; [|discriminate]. injection H as <- <-. rewrite (scan_on _ _ _ x E). reflexivity. }
  destruct (startswith (lit "null") (c :: s1)) eqn:Sn.
  - destruct (null_split _ Sn) as (y & Ey). injection H as <- <-. cbn in Ey. injection Ey as -> ->. reflexivity.
  - destruct (span num_char (c :: s1)) as [a b] eqn:Es. destruct (is_num a) eqn:K; [|discriminate]. injection H as <- <-.
    change (c :: s1 ++ x) with ((c :: s1) ++ x). rewrite (span_on _ _ _ _ x Es Hr), K.
    assert (startswith (lit "null") ((c :: s1) ++ x) = false) as ->; [|reflexivity].
    destruct (startswith (lit "null") ((c :: s1) ++ x)) eqn:Q; [|reflexivity]. destruct (null_split _ Q) as (y & Ey). injection Ey as -> _.
    cbn [span] in Es. change (num_char 110) with false in Es. injection Es as <- <-. discriminate.
Qed.
Section ObjOn.
  Context {V : Type} (read : str -> option (V * str)) (Hon : goes_on read) (Hnil : read [] = None).
  Lemma pairs_on fuel : forall fuel' s l r x, (fuel <= fuel')%nat -> pairs read fuel s = Some (l, r) -> pairs read fuel' (s ++ x) = Some (l, r ++ x).
  Proof.
    induction fuel as [|fuel IH]; intros fuel' s l r x Hf H; [discriminate|]. destruct fuel' as [|fuel']; [lia|]. cbn [pairs] in *.
    destruct (scan s) as [[k s1]|] eqn:E; [|discriminate]. rewrite (scan_on _ _ _ x E). destruct (skip_ws s1) as [|c s2] eqn:E1; [discriminate|]. rewrite (ws_on _ x _ _ E1).
    destruct (c =? 58); [|discriminate]. destruct (read (skip_ws s2)) as [[v s3]|] eqn:E2; [|discriminate]. destruct (skip_ws s3) as [|d s4] eqn:E3; [discriminate|].
    assert (R : read (skip_ws (s2 ++ x)) = Some (v, s3 ++ x)).
    { assert (N3 : s3 <> []) by (apply ws_nil; congruence). destruct (skip_ws s2) as [|c2 s2'] eqn:E4; [congruence|].
      rewrite (ws_on _ x _ _ E4). apply (Hon _ _ _ x E2 N3). }
    rewrite R, (ws_on _ x _ _ E3). destruct (d =? 125); [injection H as <- <-; reflexivity|]. destruct (d =? 44); [|discriminate].
    destruct (skip_ws s4) as [|q s5] eqn:E5; [discriminate|]. rewrite (ws_on _ x _ _ E5). destruct (q =? 34); [|discriminate].
    destruct (pairs read fuel s5) as [[l' r']|] eqn:E6; [|discriminate]. injection H as <- <-. rewrite (IH fuel' s5 l' r' x ltac:(lia) E6). reflexivity.
  Qed.
  Lemma obj_on s v r x : read_obj read s = Some (v, r) -> read_obj read (s ++ x) = Some (v, r ++ x).
  Proof.
    intro H. destruct s as [|c s1]; [discriminate|]. unfold read_obj in *. cbn [app]. destruct (c =? 123); [|discriminate].
    destruct (skip_ws s1) as [|d s2] eqn:E; [discriminate|]. rewrite (ws_on _ x _ _ E). destruct (d =? 125); [injection H as <- <-; reflexivity|].
    destruct (d =? 34); [|discriminate]. destruct (pairs read (S (length (c :: s1))) s2) as [[l r']|] eqn:E1; [|discriminate]. injection H as <- <-.
    assert (L : (S (List.length (c :: s1)) <= S (List.length (c :: s1 ++ x)))%nat) by (cbn [List.length]; rewrite app_length; lia).
    rewrite (pairs_on _ _ _ _ _ x L E1). reflexivity.
  Qed.
End ObjOn.
(** a file cut short is not read *)
Lemma cut_short j p x : ok_file j -> dumps j = p ++ x -> x <> [] -> loads p = None.
Proof.
  intros K E Hx. destruct p as [|c p]; [reflexivity|]. unfold loads.
  assert (Hc : skip_ws (c :: p) = c :: p) by (injection E as <- _; apply solid_c; discriminate). rewrite Hc.
  destruct (read_obj (read_obj value) (c :: p)) as [[o r]|] eqn:R; [|reflexivity]. exfalso.
  assert (I : goes_on (read_obj value)) by (intros s v r' y H _; apply (obj_on value value_on eq_refl), H).
  pose proof (obj_on (read_obj value) I eq_refl _ _ _ x R) as R'. rewrite <- E in R'. pose proof (file_ok j [] K) as F. rewrite app_nil_r in F. rewrite F in R'.
  injection R' as _ R'. symmetry in R'. apply app_eq_nil in R' as [_ R']. congruence.
Qed.
