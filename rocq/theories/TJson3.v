(** C160: exactly which strings json.load takes and what it makes of them. *)
From Coq Require Import String.
From Verif Require Import PyBase PyStr MOrder MJson SJson SJson2 LStr LJson LJson2 TJson2.
Open Scope list_scope.
Open Scope N_scope.

Lemma hex4_iff a b c d u : hex4 a b c d = Some u <->
  exists va vb vc vd, hexdigit a va /\ hexdigit b vb /\ hexdigit c vc /\ hexdigit d vd /\ u = va * 4096 + vb * 256 + vc * 16 + vd.
Proof.
  unfold hex4. split.
  - destruct (unhex a) as [va|] eqn:Ea; [|discriminate]. destruct (unhex b) as [vb|] eqn:Eb; [|discriminate]. destruct (unhex c) as [vc|] eqn:Ec; [|discriminate].
    destruct (unhex d) as [vd|] eqn:Ed; [|discriminate]. intros [= <-]. exists va, vb, vc, vd. apply C160_hex in Ea, Eb, Ec, Ed. repeat (split; [assumption|]). reflexivity.
  - intros (va & vb & vc & vd & Ha & Hb & Hc & Hd & ->). apply C160_hex in Ha, Hb, Hc, Hd. rewrite Ha, Hb, Hc, Hd. reflexivity.
Qed.
Lemma high_iff u : high u = true <-> is_high u.
Proof. unfold high, is_high. rewrite andb_true_iff, !N.leb_le. reflexivity. Qed.
Lemma low_iff u : low u = true <-> is_low u.
Proof. unfold low, is_low. rewrite andb_true_iff, !N.leb_le. reflexivity. Qed.
Lemma unesc_iff x y : unesc x = Some y <-> In (x, y) [(34, 34); (92, 92); (47, 47); (98, 8); (102, 12); (110, 10); (114, 13); (116, 9)].
Proof.
  split.
  - unfold unesc. destruct (N.eqb_spec x 34), (N.eqb_spec x 92), (N.eqb_spec x 47), (N.eqb_spec x 98), (N.eqb_spec x 102), (N.eqb_spec x 110), (N.eqb_spec x 114), (N.eqb_spec x 116);
      try discriminate; intros [= <-]; subst; cbn; tauto.
  - cbn [In]. intros H. repeat (destruct H as [H|H]; [injection H as <- <-; reflexivity|]). contradiction.
Qed.
Lemma next_hex a b c d v s : hex4 a b c d = Some v -> next_low (92 :: 117 :: a :: b :: c :: d :: s) = if low v then FLow v else FNo.
Proof. intro H. unfold next_low. change ((92 =? 92) && (117 =? 117)) with true. cbn iota. rewrite H. reflexivity. Qed.
Lemma spelt_u i s : spelt i s -> forall u, i = IU u -> exists a b c d, s = [92; 117; a; b; c; d] /\ hex4 a b c d = Some u.
Proof.
  intros H u E. destruct H as [| |a b c d va vb vc vd Ha Hb Hc Hd]; try discriminate. injection E as <-. exists a, b, c, d. split; [reflexivity|].
  apply hex4_iff. exists va, vb, vc, vd. tauto.
Qed.
Lemma next_items l q r : spells l q -> (forall w l', l = IU w :: l' -> ~ is_low w) -> next_low (q ++ 34 :: r) = FNo.
Proof.
  intros H Hn. destruct H as [|i s l q Hi Hl]; [apply next_other; discriminate|]. rewrite <- app_assoc. destruct i as [c|w].
  - inversion Hi as [c' H1 H2 H3|x y Hx|]; subst; cbn [app]; [apply next_other, H3|]. apply next_esc. intros ->. cbn in Hx. intuition congruence.
  - destruct (spelt_u _ _ Hi w eq_refl) as (a & b & c & d & -> & Hx). cbn [app]. rewrite (next_hex _ _ _ _ _ _ Hx). destruct (low w) eqn:E; [|reflexivity].
    destruct (Hn w l eq_refl). apply low_iff, E.
Qed.
Lemma scan_items l t : means l t -> forall q r, spells l q -> scan (q ++ 34 :: r) = Some (t, r).
Proof.
  induction 1 as [|c l t _ IH|h w l t Hh Hw _ IH|u l t Hn _ IH]; intros q r Hq.
  - inversion Hq; subst. reflexivity.
  - inversion Hq as [|i s l' q' Hi Hl]; subst. rewrite <- app_assoc. specialize (IH q' r Hl). inversion Hi as [c' H1 H2 H3|x y Hx|]; subst; cbn [app].
    + cbn [scan]. rewrite (proj2 (N.eqb_neq _ _) H2), (proj2 (N.eqb_neq _ _) H3), (proj2 (N.ltb_ge _ _) H1), IH. reflexivity.
    + cbn [scan]. change (92 =? 34) with false. change (92 =? 92) with true. cbn iota. assert (N : x =? 117 = false) by (apply N.eqb_neq; intros ->; cbn in Hx; intuition congruence).
      rewrite N. apply unesc_iff in Hx. rewrite Hx, IH. reflexivity.
  - inversion Hq as [|i s l' q' Hi Hl]; subst. inversion Hl as [|i s' l'' q'' Hi' Hl']; subst. rewrite <- !app_assoc.
    destruct (spelt_u _ _ Hi h eq_refl) as (a & b & c & d & -> & Hx). destruct (spelt_u _ _ Hi' w eq_refl) as (a' & b' & c' & d' & -> & Hx').
    cbn [app]. rewrite (scan_u _ _ _ _ _ _ Hx), (proj2 (high_iff h) Hh), (next_hex _ _ _ _ _ _ Hx'), (proj2 (low_iff w) Hw). cbn [skipn]. rewrite (IH _ r Hl'). reflexivity.
  - inversion Hq as [|i s l' q' Hi Hl]; subst. rewrite <- app_assoc. destruct (spelt_u _ _ Hi u eq_refl) as (a & b & c & d & -> & Hx).
    cbn [app]. rewrite (scan_u _ _ _ _ _ _ Hx). destruct (high u) eqn:E; [|rewrite (IH _ r Hl); reflexivity].
    rewrite (next_items l q' r Hl), (IH _ r Hl); [reflexivity|]. intros w l' El Hw. apply (Hn w l' El). split; [apply high_iff, E|exact Hw].
Qed.
Lemma items_scan n : forall s, (List.length s <= n)%nat -> forall t r, scan s = Some (t, r) -> exists l q, spells l q /\ s = q ++ 34 :: r /\ means l t.
Proof.
  induction n as [|n IH]; intros s Hl t r H; [destruct s; [discriminate|cbn in Hl; lia]|]. destruct s as [|c s1]; [discriminate|]. cbn [List.length] in Hl.
  destruct (N.eqb_spec c 34) as [->|N1].
  { cbn [scan] in H. change (34 =? 34) with true in H. cbn iota in H. injection H as <- <-. exists [], []. repeat split; constructor. }
  destruct (N.eqb_spec c 92) as [->|N2].
  - destruct s1 as [|x s2]; [discriminate|]. cbn [List.length] in Hl. destruct (N.eqb_spec x 117) as [->|N3].
    + destruct s2 as [|a [|b [|c' [|d s3]]]]; try discriminate. cbn [List.length] in Hl. destruct (hex4 a b c' d) as [u|] eqn:Hx.
      2:{ cbn [scan] in H. change (92 =? 34) with false in H. change (92 =? 92) with true in H. change (117 =? 117) with true in H. cbn iota in H. rewrite Hx in H. discriminate. }
      assert (Su : spelt (IU u) [92; 117; a; b; c'; d]) by (pose proof Hx as Hx'; apply hex4_iff in Hx' as (va & vb & vc & vd & Ha & Hb & Hc & Hd & ->); constructor; assumption).
      rewrite (scan_u _ _ _ _ _ _ Hx) in H.
      assert (One : forall t', scan s3 = Some (t', r) -> t = u :: t' -> (is_high u -> next_low s3 = FNo) -> exists l q, spells l q /\ 92 :: 117 :: a :: b :: c' :: d :: s3 = q ++ 34 :: r /\ means l t).
      { intros t' E -> Hf. destruct (IH s3 ltac:(lia) _ _ E) as (l & q & Hq & -> & Hm). exists (IU u :: l), ([92; 117; a; b; c'; d] ++ q). split; [constructor; assumption|]. split; [reflexivity|].
        constructor; [|exact Hm]. intros w l' -> [Hh Hw]. specialize (Hf Hh). inversion Hq as [|i s l'' q' Hi Hl']; subst.
        destruct (spelt_u _ _ Hi w eq_refl) as (a1 & b1 & c1 & d1 & -> & Hx'). cbn [app] in Hf. rewrite (next_hex _ _ _ _ _ _ Hx'), (proj2 (low_iff w) Hw) in Hf. discriminate. }
      destruct (high u) eqn:Eh.
      2:{ apply addc_inv in H as (t' & E & Et). apply (One t' E Et). intro Hh. apply high_iff in Hh. congruence. }
      destruct (next_low s3) as [| |v] eqn:En; [|discriminate|].
      * apply addc_inv in H as (t' & E & Et). apply (One t' E Et). reflexivity.
      * destruct s3 as [|p [|p' [|a1 [|b1 [|c1 [|d1 s4]]]]]]; try discriminate. cbn [skipn List.length] in *. unfold next_low in En.
        destruct (N.eqb_spec p 92) as [->|]; [|discriminate]. destruct (N.eqb_spec p' 117) as [->|]; [|discriminate]. cbn [andb] in En.
        destruct (hex4 a1 b1 c1 d1) as [v'|] eqn:Hx'; [|discriminate]. destruct (low v') eqn:El; [|discriminate]. injection En as ->.
        apply addc_inv in H as (t' & E & ->). destruct (IH s4 ltac:(lia) _ _ E) as (l & q & Hq & -> & Hm).
        assert (Sv : spelt (IU v) [92; 117; a1; b1; c1; d1]) by (pose proof Hx' as Hy; apply hex4_iff in Hy as (va & vb & vc & vd & Ha & Hb & Hc & Hd & ->); constructor; assumption).
        exists (IU u :: IU v :: l), ([92; 117; a; b; c'; d] ++ [92; 117; a1; b1; c1; d1] ++ q). split; [constructor; [exact Su|constructor; assumption]|]. split; [reflexivity|].
        apply m_pair; [apply high_iff, Eh|apply low_iff, El|exact Hm].
    + cbn [scan] in H. change (92 =? 34) with false in H. change (92 =? 92) with true in H. cbn iota in H. rewrite (proj2 (N.eqb_neq _ _) N3) in H.
      destruct (unesc x) as [y|] eqn:Ex; [|discriminate]. apply addc_inv in H as (t' & E & ->). destruct (IH s2 ltac:(lia) _ _ E) as (l & q & Hq & -> & Hm).
      exists (IC y :: l), ([92; x] ++ q). split; [constructor; [apply s_esc, unesc_iff, Ex|exact Hq]|]. split; [reflexivity|constructor; exact Hm].
  - cbn [scan] in H. rewrite (proj2 (N.eqb_neq _ _) N1), (proj2 (N.eqb_neq _ _) N2) in H. destruct (N.ltb_spec c 32) as [|N3]; [discriminate|].
    apply addc_inv in H as (t' & E & ->). destruct (IH s1 ltac:(lia) _ _ E) as (l & q & Hq & -> & Hm).
    exists (IC c :: l), ([c] ++ q). split; [constructor; [constructor; assumption|exact Hq]|]. split; [reflexivity|constructor; exact Hm].
Qed.
(** The text behind an opening quote is read as [t], up to [r], just if it is written so. *)
Theorem C160_strings : forall s t r, scan s = Some (t, r) <-> exists l q, spells l q /\ s = q ++ 34 :: r /\ means l t.
Proof.
  intros s t r. split; [apply (items_scan (List.length s)); lia|]. intros (l & q & Hq & -> & Hm). apply (scan_items l t Hm q r Hq).
Qed.
Print Assumptions C160_strings.
Definition bu : str := [92; 117].
Example C160_demo_strings :
  scan (lit "a\/" ++ bu ++ lit "004A" ++ bu ++ lit "D83d" ++ bu ++ lit "de00" ++ bu ++ lit "d83d\n"", 1") = Some ([97; 47; 74; 128512; 55357; 10], lit ", 1") /\
  scan (lit "\x"" ") = None /\ scan (bu ++ lit "12g4"" ") = None /\ scan [97; 10; 34] = None /\ scan (lit "a") = None.
Proof. repeat split. Qed.
