(** strptime as a regular expression reads exactly the texts of SStrptime (C129). *)
From Verif Require Import PyBase PyStr LStr MTime MDate LDate LDate2 SDate MStrptime SStrptime.
Open Scope Z_scope.

(** ** lists of ways to match *)
Lemma hd_flat {A B} (f : A -> list B) (x : A) : forall l, In x l -> (forall y, In y l -> f y <> [] -> y = x) ->
  hd_error (flat_map f l) = hd_error (f x).
Proof.
  assert (none : forall l, f x = [] -> (forall y, In y l -> f y <> [] -> y = x) -> flat_map f l = []).
  { induction l as [|a l IH]; intros E H; [reflexivity|]. cbn [flat_map].
    rewrite IH by (auto || (intros y Hy; apply H; right; exact Hy)).
    destruct (f a) as [|b fa] eqn:Ea; [reflexivity|]. exfalso.
    assert (a = x) by (apply H; [left; reflexivity|congruence]). subst. congruence. }
  induction l as [|a l IH]; intros Hin H; [destruct Hin|]. cbn [flat_map].
  destruct (f a) as [|b fa] eqn:Ea.
  - cbn [app]. destruct Hin as [->|Hin].
    + rewrite Ea, none; auto. intros y Hy. apply H. right. exact Hy.
    + apply IH; [exact Hin|]. intros y Hy. apply H. right. exact Hy.
  - cbn [app hd_error]. assert (a = x) by (apply H; [left; reflexivity|congruence]). subst. rewrite Ea. reflexivity.
Qed.
Lemma hd_in {A} (l : list A) x : hd_error l = Some x -> In x l.
Proof. destruct l; [discriminate|]. intros [= ->]. left. reflexivity. Qed.

Definition matches (l : list (list cls)) (g : str) : Prop := exists p, In p l /\ Forall2 (fun c x => c x = true) p g.
Lemma eat_iff p : forall s g r, eat p s = Some (g, r) <-> s = g ++ r /\ Forall2 (fun c x => c x = true) p g.
Proof.
  induction p as [|c p IH]; intros s g r; cbn [eat].
  - split; [intros [= <- <-]; split; [reflexivity|constructor]|]. intros [-> H]. inversion H; subst. reflexivity.
  - destruct s as [|x s]; [split; [discriminate|intros [E H]; inversion H; subst; discriminate]|].
    destruct (c x) eqn:Ec.
    + destruct (eat p s) as [[g' r']|] eqn:Ee.
      * apply IH in Ee as [-> Hf]. split.
        -- intros [= <- <-]. split; [reflexivity|]. constructor; assumption.
        -- intros [E H]. inversion H as [|? y ? g2 Hy Hg]; subst. cbn in E. injection E as <- E.
           assert (X : eat p (g' ++ r') = Some (g2, r)) by (apply IH; split; assumption).
           rewrite (proj2 (IH _ g' r') (conj eq_refl Hf)) in X. injection X as <- <-. reflexivity.
      * split; [discriminate|]. intros [E H]. inversion H as [|? y ? g2 Hy Hg]; subst. cbn in E. injection E as <- E.
        rewrite (proj2 (IH s g2 r) (conj E Hg)) in Ee. discriminate.
    + split; [discriminate|]. intros [E H]. inversion H as [|? y ? g2 Hy Hg]; subst. cbn in E. injection E as <- E. congruence.
Qed.
Lemma in_alts l s g r : In (g, r) (alts l s) <-> s = g ++ r /\ matches l g.
Proof.
  unfold alts. rewrite in_flat_map. split.
  - intros (p & Hp & Hin). destruct (eat p s) as [gr|] eqn:E; [|destruct Hin]. destruct Hin as [->|[]].
    apply eat_iff in E as [-> Hf]. split; [reflexivity|]. exists p. auto.
  - intros [-> (p & Hp & Hf)]. exists p. split; [exact Hp|]. rewrite (proj2 (eat_iff p _ g r)) by auto. left. reflexivity.
Qed.
Lemma in_fld l d s g r : In (g, r) (fld l d s) <-> s = g ++ d :: r /\ matches l g.
Proof.
  unfold fld. rewrite in_flat_map. split.
  - intros ([g' r'] & Hin & H). apply in_alts in Hin as [-> Hm]. cbn [fst snd] in H.
    destruct r' as [|x r']; [destruct H|]. destruct (N.eqb_spec x d) as [->|]; [|destruct H].
    destruct H as [[= -> ->]|[]]. auto.
  - intros [-> Hm]. exists (g, d :: r). split; [apply in_alts; auto|]. cbn [fst snd]. rewrite N.eqb_refl. left. reflexivity.
Qed.
Lemma in_spaces s r : In r (spaces s) <-> exists ws, ws <> [] /\ Forall (fun c => is_space c = true) ws /\ s = ws ++ r.
Proof.
  revert r. induction s as [|c s IH]; intros r; cbn [spaces].
  - split; [intros []|]. intros (ws & Hn & _ & E). destruct ws; [congruence|discriminate].
  - destruct (is_space c) eqn:Ec.
    + rewrite in_app_iff, IH. split.
      * intros [(ws & Hn & Hf & ->)|[->|[]]]; [exists (c :: ws)|exists [c]]; repeat split; try discriminate; repeat (constructor; auto).
      * intros (ws & Hn & Hf & E). destruct ws as [|x ws]; [congruence|]. cbn in E. injection E as <- E.
        destruct ws as [|y ws]; [right; left; exact E|]. left. exists (y :: ws). inversion Hf; subst. repeat split; auto; discriminate.
    + split; [intros []|]. intros (ws & Hn & Hf & E). destruct ws as [|x ws]; [congruence|]. cbn in E. injection E as <- E.
      inversion Hf; subst. congruence.
Qed.
Lemma in_reps n : forall s g r, In (g, r) (reps n s) <->
  s = g ++ r /\ (1 <= length g <= n)%nat /\ forallb is_digit g = true.
Proof.
  induction n as [|n IH]; intros s g r; cbn [reps].
  - destruct s; (split; [intros []|intros (_ & H & _); lia]).
  - destruct s as [|c s]; [split; [intros []|]; intros (E & H & _); destruct g; [cbn in H; lia|discriminate]|].
    destruct (is_digit c) eqn:Ec.
    + rewrite in_app_iff, in_map_iff. split.
      * intros [([g' r'] & [= <- <-] & Hin)|[[= <- <-]|[]]].
        -- apply IH in Hin as (-> & Hl & Hd). cbn [fst snd length forallb]. rewrite Ec, Hd. repeat split; cbn; lia.
        -- cbn. rewrite Ec. repeat split; lia.
      * intros (E & Hl & Hd). destruct g as [|x g]; [cbn in Hl; lia|]. cbn in E. injection E as <- E.
        cbn [forallb] in Hd. apply andb_prop in Hd as [_ Hd]. cbn [length] in Hl.
        destruct g as [|y g]; [right; left; cbn in E; subst; reflexivity|]. left. exists (y :: g, r). split; [reflexivity|].
        apply IH. split; [exact E|]. split; [cbn [length] in *; lia|exact Hd].
    + split; [intros []|]. intros (E & Hl & Hd). destruct g as [|x g]; [cbn in Hl; lia|]. cbn in E. injection E as <- E.
      cbn [forallb] in Hd. rewrite Ec in Hd. discriminate.
Qed.
(** greedy: if the whole text is such digits it is taken whole *)
Lemma reps_all n : forall s, (1 <= length s <= n)%nat -> forallb is_digit s = true -> hd_error (reps n s) = Some (s, []).
Proof.
  induction n as [|n IH]; intros s Hl Hd; [lia|]. destruct s as [|c s]; [cbn in Hl; lia|].
  cbn [forallb] in Hd. apply andb_prop in Hd as [Hc Hd]. cbn [reps]. rewrite Hc. destruct s as [|y s].
  - destruct n; reflexivity.
  - cbn [length] in Hl. assert (X : hd_error (reps n (y :: s)) = Some (y :: s, [])) by (apply IH; [cbn [length]; lia|exact Hd]).
    destruct (reps n (y :: s)) as [|z l]; [discriminate|]. cbn in X. injection X as ->. reflexivity.
Qed.

Section D.
  Variable dig : N -> option Z.
  Hypothesis Hdig : digits_ok dig.
  Notation any := (any dig).

  Lemma asc_any c v : asc c v -> any c v.
  Proof.
    intros [H ->]. unfold SStrptime.any. rewrite (proj1 Hdig) by lia.
    destruct (digit_char v H) as [-> E]. f_equal. unfold digit_val in E. exact E.
  Qed.
  Lemma any_dd c : dd dig c = true <-> exists v, any c v.
  Proof. unfold dd, SStrptime.any. destruct (dig c) as [v|]; split; try discriminate; eauto; intros [v H]; discriminate. Qed.
  Lemma any_dval c v : any c v -> dval dig c = v.
  Proof. unfold SStrptime.any, dval. intros ->. reflexivity. Qed.
  Lemma any_space c v : any c v -> is_space c = false.
  Proof. intros H. apply (proj2 Hdig c v H). Qed.
  Lemma any_range c v : any c v -> 0 <= v <= 9.
  Proof. intros H. apply (proj2 Hdig c v H). Qed.
  Lemma rng_asc a b c : (48 <= a)%N -> (b <= 57)%N -> rng a b c = true ->
    exists v, asc c v /\ Z.of_N a - 48 <= v <= Z.of_N b - 48.
  Proof.
    intros Ha Hb H. unfold rng in H. apply andb_prop in H as [H1 H2]. apply N.leb_le in H1, H2.
    exists (Z.of_N c - 48). split; [|lia]. split; [lia|]. lia.
  Qed.
  Lemma asc_rng a b c v : asc c v -> Z.of_N a - 48 <= v <= Z.of_N b - 48 -> rng a b c = true.
  Proof. intros [H ->] Hv. unfold rng. apply andb_true_intro. split; apply N.leb_le; lia. Qed.
  Lemma chr_asc a c : (48 <= a <= 57)%N -> chr a c = true -> asc c (Z.of_N a - 48).
  Proof. intros Ha H. apply N.eqb_eq in H. subst. split; lia. Qed.
  Lemma asc_chr a c v : asc c v -> v = Z.of_N a - 48 -> chr a c = true.
  Proof. intros [H ->] ->. apply N.eqb_eq. lia. Qed.

  Lemma uval1 c v : any c v -> uval dig [c] = v.
  Proof. intros H. unfold uval. cbn [drop_while]. rewrite (any_space c v H). cbn. rewrite (any_dval c v H). lia. Qed.
  Lemma uval2 a c x v : any a x -> any c v -> uval dig [a; c] = 10 * x + v.
  Proof.
    intros Ha Hc. unfold uval. cbn [drop_while]. rewrite (any_space a x Ha). cbn [fold_left].
    rewrite (any_dval a x Ha), (any_dval c v Hc). lia.
  Qed.
  Lemma uval_blank c v : any c v -> uval dig [32%N; c] = v.
  Proof.
    intros H. unfold uval. cbn [drop_while]. change (is_space 32) with true. cbv iota. cbn [drop_while].
    rewrite (any_space c v H). cbn [fold_left]. rewrite (any_dval c v H). lia.
  Qed.

  (** ** the fields *)
  Lemma year_iff g y : matches (re_Y dig) g /\ y = uval dig g <-> year_text dig g y.
  Proof.
    split.
    - intros [(p & [<-|[]] & Hf) ->].
      inversion Hf as [|? a ? g1 Ha F1]; subst. inversion F1 as [|? b ? g2 Hb F2]; subst.
      inversion F2 as [|? c ? g3 Hc F3]; subst. inversion F3 as [|? d ? g4 Hd F4]; subst. inversion F4; subst.
      apply any_dd in Ha as [x1 H1], Hb as [x2 H2], Hc as [x3 H3], Hd as [x4 H4].
      exists a, b, c, d, x1, x2, x3, x4. repeat (split; [assumption || reflexivity|]).
      unfold uval. cbn [drop_while]. rewrite (any_space a x1 H1). cbn [fold_left].
      rewrite (any_dval _ _ H1), (any_dval _ _ H2), (any_dval _ _ H3), (any_dval _ _ H4). lia.
    - intros (a & b & c & d & x1 & x2 & x3 & x4 & -> & H1 & H2 & H3 & H4 & ->). split.
      + exists [dd dig; dd dig; dd dig; dd dig]. split; [left; reflexivity|]. repeat constructor; apply any_dd; eauto.
      + unfold uval. cbn [drop_while]. rewrite (any_space a x1 H1). cbn [fold_left].
        rewrite (any_dval _ _ H1), (any_dval _ _ H2), (any_dval _ _ H3), (any_dval _ _ H4). lia.
  Qed.

  Ltac two Hf := inversion Hf as [|? ?a ? ?g1 ?Ha ?F1]; subst;
    match goal with F : Forall2 _ _ ?g |- _ => inversion F as [|? ?c ? ?g2 ?Hc ?F2]; subst end;
    match goal with F : Forall2 _ [] ?g |- _ => inversion F; subst end.
  Ltac one Hf := inversion Hf as [|? ?c ? ?g1 ?Hc ?F1]; subst;
    match goal with F : Forall2 _ [] ?g |- _ => inversion F; subst end.

  Lemma asc_field1 c v : asc c v -> field 1 2 [c] v.
  Proof.
    intros [H ->]. split; [cbn; lia|]. replace v with (10 * 0 + v) at 2 by lia. apply (dec_snoc [] 0 v); [constructor|exact H].
  Qed.
  Lemma asc_field2 a c x v : asc a x -> asc c v -> field 1 2 [a; c] (10 * x + v).
  Proof.
    intros [H ->] [H' ->]. split; [cbn; lia|]. apply (dec_snoc [Z.to_N (48 + x)] x v); [|exact H'].
    replace x with (10 * 0 + x) at 2 by lia. apply (dec_snoc [] 0 x); [constructor|exact H].
  Qed.
  Lemma field_asc g v : field 1 2 g v -> (exists c, g = [c] /\ asc c v) \/
    (exists a c x w, g = [a; c] /\ asc a x /\ asc c w /\ v = 10 * x + w).
  Proof.
    intros [Hl H]. inversion H as [|s w d Hs Hd]; subst; [cbn in Hl; lia|]. inversion Hs as [|s' w' d' Hs' Hd']; subst.
    - left. eexists. split; [reflexivity|]. split; [lia|]. f_equal; lia.
    - inversion Hs' as [|s'' w'' d'' Hs'' Hd'']; subst; [|rewrite !app_length in Hl; cbn in Hl; lia].
      right. eexists. eexists. exists d', d. split; [reflexivity|]. split; [split; [lia|reflexivity]|]. split; [split; [lia|reflexivity]|]. lia.
  Qed.

  Lemma month_sound g : matches re_m g -> field 1 2 g (uval dig g).
  Proof.
    intros (p & Hp & Hf). cbn [re_m In] in Hp. destruct Hp as [<-|[<-|[<-|[]]]].
    - two Hf. apply chr_asc in Ha; [|lia]. apply rng_asc in Hc as (v & Hc & _); [|lia|lia].
      rewrite (uval2 _ _ _ _ (asc_any _ _ Ha) (asc_any _ _ Hc)). apply asc_field2; assumption.
    - two Hf. apply chr_asc in Ha; [|lia]. apply rng_asc in Hc as (v & Hc & _); [|lia|lia].
      rewrite (uval2 _ _ _ _ (asc_any _ _ Ha) (asc_any _ _ Hc)). apply asc_field2; assumption.
    - one Hf. apply rng_asc in Hc as (v & Hc & _); [|lia|lia]. rewrite (uval1 _ _ (asc_any _ _ Hc)). apply asc_field1; assumption.
  Qed.
  Lemma month_complete g v : field 1 2 g v -> 1 <= v <= 12 -> matches re_m g /\ uval dig g = v.
  Proof.
    intros H Hv. apply field_asc in H as [(c & -> & Hc)|(a & c & x & w & -> & Ha & Hc & ->)].
    - split; [|apply uval1, asc_any, Hc]. exists [rng 49 57]. split; [right; right; left; reflexivity|].
      constructor; [|constructor]. eapply asc_rng; [exact Hc|]. destruct Hc; lia.
    - split; [|apply uval2; apply asc_any; assumption]. pose proof (proj1 Ha). pose proof (proj1 Hc).
      assert (X : x = 0 \/ x = 1) by lia. destruct X as [->| ->].
      + exists [chr 48; rng 49 57]. split; [right; left; reflexivity|]. constructor; [eapply asc_chr; [exact Ha|lia]|].
        constructor; [|constructor]. eapply asc_rng; [exact Hc|]. lia.
      + exists [chr 49; rng 48 50]. split; [left; reflexivity|]. constructor; [eapply asc_chr; [exact Ha|lia]|].
        constructor; [|constructor]. eapply asc_rng; [exact Hc|]. lia.
  Qed.

  Lemma day_sound g : matches (re_d dig) g -> day_text dig g (uval dig g).
  Proof.
    intros (p & Hp & Hf). cbn [re_d In] in Hp. destruct Hp as [<-|[<-|[<-|[<-|[<-|[]]]]]].
    - two Hf. apply chr_asc in Ha; [|lia]. apply rng_asc in Hc as (v & Hc & _); [|lia|lia].
      rewrite (uval2 _ _ _ _ (asc_any _ _ Ha) (asc_any _ _ Hc)). apply day_two; auto using asc_any.
    - two Hf. apply rng_asc in Ha as (x & Ha & Hx); [|lia|lia]. apply any_dd in Hc as [v Hc].
      rewrite (uval2 _ _ _ _ (asc_any _ _ Ha) Hc). apply day_two; auto. lia.
    - two Hf. apply chr_asc in Ha; [|lia]. apply rng_asc in Hc as (v & Hc & _); [|lia|lia].
      rewrite (uval2 _ _ _ _ (asc_any _ _ Ha) (asc_any _ _ Hc)). apply day_two; auto using asc_any.
    - one Hf. apply rng_asc in Hc as (v & Hc & _); [|lia|lia]. rewrite (uval1 _ _ (asc_any _ _ Hc)). apply day_one; assumption.
    - two Hf. apply N.eqb_eq in Ha. subst. apply rng_asc in Hc as (v & Hc & _); [|lia|lia].
      rewrite (uval_blank _ _ (asc_any _ _ Hc)). apply day_blank; assumption.
  Qed.
  Lemma day_complete g v : day_text dig g v -> 1 <= v <= 31 -> matches (re_d dig) g /\ uval dig g = v.
  Proof.
    intros H Hv. destruct H as [c v Hc|c v Hc|a c x v Ha Hc Hor].
    - split; [|apply uval1, asc_any, Hc]. exists [rng 49 57]. split; [cbn; auto|].
      constructor; [|constructor]. eapply asc_rng; [exact Hc|]. destruct Hc; lia.
    - split; [|apply uval_blank, asc_any, Hc]. exists [chr 32; rng 49 57]. split; [cbn; auto 6|].
      constructor; [reflexivity|]. constructor; [|constructor]. eapply asc_rng; [exact Hc|]. destruct Hc; lia.
    - split; [|apply uval2; [apply asc_any|]; assumption]. pose proof (proj1 Ha) as Hx. pose proof (any_range _ _ Hc) as Hr.
      destruct (Z.eq_dec x 1) as [E1|N1]; [|destruct (Z.eq_dec x 2) as [E2|N2]].
      1,2: (exists [rng 49 50; dd dig]; split; [cbn; auto|]; constructor; [eapply asc_rng; [exact Ha|lia]|];
            constructor; [apply any_dd; eauto|constructor]).
      assert (Ac : asc c v) by tauto. assert (X : x = 0 \/ x = 3) by lia. destruct X as [->| ->].
      + exists [chr 48; rng 49 57]. split; [cbn; auto|]. constructor; [eapply asc_chr; [exact Ha|lia]|].
        constructor; [|constructor]. eapply asc_rng; [exact Ac|]. lia.
      + exists [chr 51; rng 48 49]. split; [cbn; auto|]. constructor; [eapply asc_chr; [exact Ha|lia]|].
        constructor; [|constructor]. eapply asc_rng; [exact Ac|]. lia.
  Qed.

  Lemma hour_sound g : matches (re_H dig) g -> unit_text dig 23 g (uval dig g).
  Proof.
    intros (p & Hp & Hf). cbn [re_H In] in Hp. destruct Hp as [<-|[<-|[<-|[]]]].
    - two Hf. apply chr_asc in Ha; [|lia]. apply rng_asc in Hc as (v & Hc & Hv); [|lia|lia].
      rewrite (uval2 _ _ _ _ (asc_any _ _ Ha) (asc_any _ _ Hc)). apply clock_two; auto using asc_any. lia.
    - two Hf. apply rng_asc in Ha as (x & Ha & Hx); [|lia|lia]. apply any_dd in Hc as [v Hc]. pose proof (any_range _ _ Hc).
      rewrite (uval2 _ _ _ _ (asc_any _ _ Ha) Hc). apply clock_two; auto; lia.
    - one Hf. apply any_dd in Hc as [v Hc]. rewrite (uval1 _ _ Hc). apply clock_one; assumption.
  Qed.
  Lemma hour_complete g v : unit_text dig 23 g v -> matches (re_H dig) g /\ uval dig g = v.
  Proof.
    intros [c w Hc|a c x w Ha Hc Hor Hle].
    - split; [|apply uval1, Hc]. exists [dd dig]. split; [cbn; auto|]. constructor; [apply any_dd; eauto|constructor].
    - split; [|apply uval2; [apply asc_any|]; assumption]. pose proof (proj1 Ha) as Hx. pose proof (any_range _ _ Hc) as Hr.
      destruct (Z.eq_dec x 2) as [->|N2].
      + destruct Hor as [Hor|Ac]; [lia|]. exists [chr 50; rng 48 51]. split; [cbn; auto|].
        constructor; [eapply asc_chr; [exact Ha|lia]|]. constructor; [|constructor]. eapply asc_rng; [exact Ac|]. lia.
      + exists [rng 48 49; dd dig]. split; [cbn; auto|]. constructor; [eapply asc_rng; [exact Ha|lia]|].
        constructor; [apply any_dd; eauto|constructor].
  Qed.
  Lemma minute_sound g : matches (re_M dig) g -> unit_text dig 59 g (uval dig g).
  Proof.
    intros (p & Hp & Hf). cbn [re_M In] in Hp. destruct Hp as [<-|[<-|[]]].
    - two Hf. apply rng_asc in Ha as (x & Ha & Hx); [|lia|lia]. apply any_dd in Hc as [v Hc]. pose proof (any_range _ _ Hc).
      rewrite (uval2 _ _ _ _ (asc_any _ _ Ha) Hc). apply clock_two; auto; lia.
    - one Hf. apply any_dd in Hc as [v Hc]. rewrite (uval1 _ _ Hc). apply clock_one; assumption.
  Qed.
  Lemma minute_complete g v : unit_text dig 59 g v -> matches (re_M dig) g /\ uval dig g = v.
  Proof.
    intros [c w Hc|a c x w Ha Hc Hor Hle].
    - split; [|apply uval1, Hc]. exists [dd dig]. split; [cbn; auto|]. constructor; [apply any_dd; eauto|constructor].
    - split; [|apply uval2; [apply asc_any|]; assumption]. pose proof (proj1 Ha) as Hx. pose proof (any_range _ _ Hc) as Hr.
      exists [rng 48 53; dd dig]. split; [cbn; auto|]. constructor; [eapply asc_rng; [exact Ha|lia]|].
      constructor; [apply any_dd; eauto|constructor].
  Qed.
  Lemma second_sound g : matches (re_S dig) g -> uval dig g <= 59 -> unit_text dig 59 g (uval dig g).
  Proof.
    intros (p & Hp & Hf) Hle. cbn [re_S In] in Hp. destruct Hp as [<-|[<-|[<-|[]]]].
    - two Hf. apply chr_asc in Ha; [|lia]. apply rng_asc in Hc as (v & Hc & Hv); [|lia|lia].
      rewrite (uval2 _ _ _ _ (asc_any _ _ Ha) (asc_any _ _ Hc)) in Hle. lia.
    - two Hf. apply rng_asc in Ha as (x & Ha & Hx); [|lia|lia]. apply any_dd in Hc as [v Hc]. pose proof (any_range _ _ Hc).
      rewrite (uval2 _ _ _ _ (asc_any _ _ Ha) Hc). apply clock_two; auto; lia.
    - one Hf. apply any_dd in Hc as [v Hc]. rewrite (uval1 _ _ Hc). apply clock_one; assumption.
  Qed.
  Lemma second_complete g v : unit_text dig 59 g v ->
    matches (re_S dig) g /\ uval dig g = v /\ hd_error (alts (re_S dig) g) = Some (g, []).
  Proof.
    intros [c w Hc|a c x w Ha Hc Hor Hle].
    - split; [|split; [apply uval1, Hc|]].
      + exists [dd dig]. split; [cbn; auto|]. constructor; [apply any_dd; eauto|constructor].
      + assert (E : dd dig c = true) by (apply any_dd; eauto). unfold alts, re_S. cbn [flat_map eat].
        destruct (chr 54 c), (rng 48 53 c); rewrite E; reflexivity.
    - pose proof (proj1 Ha) as Hx. pose proof (any_range _ _ Hc) as Hr.
      assert (Er : rng 48 53 a = true) by (eapply asc_rng; [exact Ha|lia]). assert (Ed : dd dig c = true) by (apply any_dd; eauto).
      split; [|split; [apply uval2; [apply asc_any|]; assumption|]].
      + exists [rng 48 53; dd dig]. split; [cbn; auto|]. repeat constructor; assumption.
      + assert (En : chr 54 a = false) by (destruct Ha as [_ ->]; apply N.eqb_neq; lia).
        unfold alts, re_S. cbn [flat_map eat]. rewrite En, Er, Ed. reflexivity.
  Qed.

  (** ** digits only *)
  Definition good (g : str) : Prop := Forall (fun c => exists v, any c v) g.
  Lemma any_not c v k : any c v -> (k < 128)%N -> is_digit k = false -> c <> k.
  Proof. intros H Hk Hd ->. unfold SStrptime.any in H. rewrite (proj1 Hdig) in H by exact Hk. rewrite Hd in H. discriminate. Qed.
  Lemma good_no g k : good g -> (k < 128)%N -> is_digit k = false -> has_char k g = false.
  Proof.
    intros H Hk Hd. destruct (has_char k g) eqn:E; [|reflexivity]. apply has_char_In in E.
    unfold good in H. rewrite Forall_forall in H. destruct (H k E) as [v Hv]. destruct (any_not k v k Hv Hk Hd eq_refl).
  Qed.
  Lemma year_good g y : year_text dig g y -> good g.
  Proof. intros (a & b & c & d & x1 & x2 & x3 & x4 & -> & H1 & H2 & H3 & H4 & _). repeat constructor; eauto. Qed.
  Lemma field_good lo hi g v : field lo hi g v -> good g.
  Proof.
    intros [_ H]. apply dec_value in H as [H _]. apply Forall_forall. intros c Hc. rewrite forallb_forall in H. specialize (H c Hc).
    exists (Z.of_N c - 48). unfold SStrptime.any. rewrite (proj1 Hdig), H; [reflexivity|]. unfold is_digit in H. apply andb_prop in H as [_ H]. apply N.leb_le in H. lia.
  Qed.
  Lemma unit_good top g v : unit_text dig top g v -> good g.
  Proof. intros [c w Hc|a c x w Ha Hc _ _]; repeat constructor; eauto using asc_any. Qed.
  Lemma second_good g : matches (re_S dig) g -> good g.
  Proof.
    intros (p & Hp & Hf). cbn [re_S In] in Hp. destruct Hp as [<-|[<-|[<-|[]]]].
    - two Hf. apply chr_asc in Ha; [|lia]. apply rng_asc in Hc as (v & Hc & Hv); [|lia|lia]. repeat constructor; eauto using asc_any.
    - two Hf. apply rng_asc in Ha as (x & Ha & Hx); [|lia|lia]. apply any_dd in Hc as [v Hc]. repeat constructor; eauto using asc_any.
    - one Hf. apply any_dd in Hc as [v Hc]. repeat constructor; eauto.
  Qed.
  Lemma fld_hd {B} l k (f : str * str -> list B) g r : (k < 128)%N -> is_digit k = false ->
    (forall g', matches l g' -> good g') -> matches l g ->
    hd_error (flat_map f (fld l k (g ++ k :: r))) = hd_error (f (g, r)).
  Proof.
    intros Hk Hd Hl Hg. apply hd_flat; [apply in_fld; auto|]. intros [g' r'] Hin _. apply in_fld in Hin as [E Hm].
    apply app_sep_first in E as [-> ->]; [reflexivity|apply good_no; auto|apply good_no; auto].
  Qed.
  Lemma hd_map {A B} (f : A -> B) l : hd_error (map f l) = option_map f (hd_error l).
  Proof. destruct l; reflexivity. Qed.

  (** ** the time *)
  Lemma time_hd hs h ms m ss x : unit_text dig 23 hs h -> unit_text dig 59 ms m -> unit_text dig 59 ss x ->
    hd_error (re_time dig (hs ++ 58%N :: ms ++ 58%N :: ss)) = Some (hs, ms, ss, [], []).
  Proof.
    intros H1 H2 H3. apply hour_complete in H1 as [M1 _]. apply minute_complete in H2 as [M2 _]. apply second_complete in H3 as (M3 & _ & E).
    unfold re_time. rewrite fld_hd; auto; [|lia|intros g' Hg; eapply unit_good, hour_sound, Hg]. cbn [fst snd].
    rewrite fld_hd; auto; [|lia|intros g' Hg; eapply unit_good, minute_sound, Hg]. cbn [fst snd].
    rewrite hd_map, E. reflexivity.
  Qed.
  Lemma timef_hd hs h ms m ss x f v : unit_text dig 23 hs h -> unit_text dig 59 ms m -> unit_text dig 59 ss x -> field 1 6 f v ->
    hd_error (re_timef dig (hs ++ 58%N :: ms ++ 58%N :: ss ++ 46%N :: f)) = Some (hs, ms, ss, f, []).
  Proof.
    intros H1 H2 H3 [Hl Hf]. apply dec_value in Hf as [Hf _].
    apply hour_complete in H1 as [M1 _]. apply minute_complete in H2 as [M2 _]. apply second_complete in H3 as (M3 & _ & _).
    unfold re_timef. rewrite fld_hd; auto; [|lia|intros g' Hg; eapply unit_good, hour_sound, Hg]. cbn [fst snd].
    rewrite fld_hd; auto; [|lia|intros g' Hg; eapply unit_good, minute_sound, Hg]. cbn [fst snd].
    rewrite fld_hd; auto; [|lia|apply second_good]. cbn [fst snd].
    rewrite hd_map, (reps_all 6 f Hl Hf). reflexivity.
  Qed.
  Lemma in_time s hs ms ss f r : In (hs, ms, ss, f, r) (re_time dig s) ->
    s = hs ++ 58%N :: ms ++ 58%N :: ss ++ r /\ f = [] /\
    matches (re_H dig) hs /\ matches (re_M dig) ms /\ matches (re_S dig) ss.
  Proof.
    unfold re_time. rewrite in_flat_map. intros ([h1 r1] & H1 & H). apply in_flat_map in H as ([m1 r2] & H2 & H).
    apply in_map_iff in H as ([s1 r3] & E & H3). cbn [fst snd] in *. injection E as <- <- <- <- <-.
    apply in_fld in H1 as [-> M1]. apply in_fld in H2 as [-> M2]. apply in_alts in H3 as [-> M3]. auto.
  Qed.
  Lemma in_timef s hs ms ss f r : In (hs, ms, ss, f, r) (re_timef dig s) ->
    s = hs ++ 58%N :: ms ++ 58%N :: ss ++ 46%N :: f ++ r /\ (1 <= length f <= 6)%nat /\ forallb is_digit f = true /\
    matches (re_H dig) hs /\ matches (re_M dig) ms /\ matches (re_S dig) ss.
  Proof.
    unfold re_timef. rewrite in_flat_map. intros ([h1 r1] & H1 & H). apply in_flat_map in H as ([m1 r2] & H2 & H).
    apply in_flat_map in H as ([s1 r3] & H3 & H). apply in_map_iff in H as ([f1 r4] & E & H4). cbn [fst snd] in *.
    injection E as <- <- <- <- <-.
    apply in_fld in H1 as [-> M1]. apply in_fld in H2 as [-> M2]. apply in_fld in H3 as [-> M3]. apply in_reps in H4 as (-> & L & D). auto 10.
  Qed.
  Lemma unit_range top g v : 9 <= top -> unit_text dig top g v -> 0 <= v <= top.
  Proof.
    intros Ht [c w Hc|a c x w Ha Hc _ Hle]; pose proof (any_range _ _ Hc); [lia|]. destruct Ha; lia.
  Qed.
  Lemma clock_of hs ms ss h m x : unit_text dig 23 hs h -> unit_text dig 59 ms m -> unit_text dig 59 ss x ->
    mk_time (uval dig hs) (uval dig ms) (uval dig ss) = Ok (((h * 60 + m) * 60 + x) * 1000000).
  Proof.
    intros H1 H2 H3. pose proof (unit_range 23 hs h ltac:(lia) H1). pose proof (unit_range 59 ms m ltac:(lia) H2).
    pose proof (unit_range 59 ss x ltac:(lia) H3).
    destruct (hour_complete _ _ H1) as [_ ->], (minute_complete _ _ H2) as [_ ->], (second_complete _ _ H3) as (_ & -> & _).
    apply time_iff. unfold clock. lia.
  Qed.
  Lemma strptime_time_iff s t : strptime_time dig s = Ok t <-> exists sec, hms_text dig s sec /\ t = sec * 1000000.
  Proof.
    unfold strptime_time. split.
    - destruct (hd_error (re_time dig s)) as [[[[[hs ms] ss] f] [|c r]]|] eqn:E; try discriminate.
      apply hd_in, in_time in E as (-> & _ & M1 & M2 & M3). intros H. apply time_iff in H as [(C1 & C2 & C3) ->].
      exists ((uval dig hs * 60 + uval dig ms) * 60 + uval dig ss). split; [|reflexivity].
      exists hs, (uval dig hs), ms, (uval dig ms), ss, (uval dig ss). rewrite app_nil_r.
      split; [reflexivity|]. split; [apply hour_sound, M1|]. split; [apply minute_sound, M2|]. split; [|reflexivity].
      apply second_sound; [exact M3|lia].
    - intros (sec & (hs & h & ms & m & ss & x & -> & H1 & H2 & H3 & ->) & ->).
      change (lit ":") with [58%N]. cbn [app]. rewrite (time_hd hs h ms m ss x H1 H2 H3). apply clock_of; assumption.
  Qed.
  Lemma strptime_time_err s e : strptime_time dig s = Err e -> e = ValueError.
  Proof.
    unfold strptime_time. destruct (hd_error (re_time dig s)) as [[[[[hs ms] ss] f] [|c r]]|]; intros H; try congruence.
    eapply mk_time_err, H.
  Qed.

  (** ** the date *)
  Lemma day_last g v : day_text dig g v -> exists c w, any c w /\ (g = [c] \/ exists a, g = [a; c]).
  Proof. intros [c w Hc|c w Hc|a c x w Ha Hc _]; exists c, w; split; eauto using asc_any. Qed.
  Lemma day_sep g v g' v' c r c' r' : day_text dig g v -> day_text dig g' v' -> is_space c = true -> is_space c' = true ->
    g ++ c :: r = g' ++ c' :: r' -> g = g' /\ c :: r = c' :: r'.
  Proof.
    intros H H' Hc Hc' E. apply day_last in H as (a & w & Ha & H), H' as (a' & w' & Ha' & H').
    apply any_space in Ha, Ha'. destruct H as [->|[b ->]], H' as [->|[b' ->]]; cbn [app] in E; injection E; intros; subst; auto; congruence.
  Qed.
  Lemma blanks_sep ws c r ws' c' r' : Forall (fun c => is_space c = true) ws -> Forall (fun c => is_space c = true) ws' ->
    is_space c = false -> is_space c' = false -> ws ++ c :: r = ws' ++ c' :: r' -> c :: r = c' :: r'.
  Proof.
    revert ws'. induction ws as [|a ws IH]; intros ws' F F' Hc Hc' E; destruct ws' as [|a' ws']; cbn [app] in E.
    - exact E.
    - injection E as -> _. inversion F'; subst. congruence.
    - injection E as -> _. inversion F; subst. congruence.
    - injection E as _ E. inversion F; inversion F'; subst. eapply IH; eauto.
  Qed.
  (** [k] only takes texts that start with no blank *)
  Definition starts {A} (k : str -> list A) : Prop := forall r, k r <> [] -> exists c r', r = c :: r' /\ is_space c = false.
  Lemma hour_start g r : matches (re_H dig) g -> exists c r', g ++ r = c :: r' /\ is_space c = false.
  Proof.
    intros H. apply hour_sound in H. destruct H as [c w Hc|a c x w Ha Hc _ _]; cbn [app]; do 2 eexists; (split; [reflexivity|]);
    [eapply any_space, Hc|eapply any_space, asc_any, Ha].
  Qed.
  Lemma flat_nonempty {A B} (f : A -> list B) l : flat_map f l <> [] -> exists x, In x l.
  Proof. destruct l as [|x l]; [intros H; destruct (H eq_refl)|]. intros _. exists x. left. reflexivity. Qed.
  Lemma time_starts : starts (re_time dig).
  Proof. intros r H. apply flat_nonempty in H as [[g r'] H]. apply in_fld in H as [-> M]. apply hour_start, M. Qed.
  Lemma timef_starts : starts (re_timef dig).
  Proof. intros r H. apply flat_nonempty in H as [[g r'] H]. apply in_fld in H as [-> M]. apply hour_start, M. Qed.

  Lemma date_hd {A} (k : str -> list A) x ys y ms m ds d ws r : starts k -> year_text dig ys y ->
    field 1 2 ms m -> 1 <= m <= 12 -> day_text dig ds d -> 1 <= d <= 31 ->
    ws <> [] -> Forall (fun c => is_space c = true) ws -> hd_error (k r) = Some x ->
    hd_error (re_date dig k (ys ++ 45%N :: ms ++ 45%N :: ds ++ ws ++ r)) = Some (ys, ms, ds, x).
  Proof.
    intros Hk Hy Hm Vm Hd Vd Hn Hw Hr. unfold re_date.
    rewrite fld_hd; [|lia|reflexivity|intros g' Hg; eapply year_good, year_iff; eauto|apply year_iff with (y := y), Hy]. cbn [fst snd].
    rewrite fld_hd; [|lia|reflexivity|intros g' Hg; eapply field_good, month_sound, Hg|eapply month_complete; eauto]. cbn [fst snd].
    assert (Hkr : k r <> []) by (intros E; rewrite E in Hr; discriminate).
    destruct (Hk r Hkr) as (c & r0 & -> & Hc). destruct ws as [|w ws]; [congruence|].
    rewrite (hd_flat _ (ds, (w :: ws) ++ c :: r0)).
    - cbn [fst snd]. rewrite (hd_flat _ (c :: r0)).
      + rewrite hd_map, Hr. reflexivity.
      + apply in_spaces. exists (w :: ws). auto.
      + intros r' Hin Hne. apply in_spaces in Hin as (ws' & Hn' & Hw' & E).
        assert (Hk' : k r' <> []) by (intros E'; rewrite E' in Hne; apply Hne; reflexivity).
        destruct (Hk r' Hk') as (c' & r1 & -> & Hc'). symmetry. eapply blanks_sep; [exact Hw|exact Hw'|exact Hc|exact Hc'|exact E].
    - apply in_alts. split; [reflexivity|eapply day_complete; eauto].
    - intros [g r'] Hin Hne. cbn [fst snd] in Hne. apply in_alts in Hin as [E M]. apply day_sound in M.
      assert (X : exists z, In z (spaces r')) by (eapply flat_nonempty, Hne). destruct X as [z X]. apply in_spaces in X as (ws' & Hn' & Hw' & ->).
      destruct ws' as [|w' ws']; [congruence|]. cbn [app] in E. apply Forall_inv in Hw, Hw'.
      destruct (day_sep _ _ _ _ _ _ _ _ Hd M Hw Hw' E) as [<- E2]. cbn [app]. rewrite E2. reflexivity.
  Qed.
  Lemma in_date {A} (k : str -> list A) s ys ms ds x : In (ys, ms, ds, x) (re_date dig k s) ->
    exists ws r, s = ys ++ 45%N :: ms ++ 45%N :: ds ++ ws ++ r /\ ws <> [] /\ Forall (fun c => is_space c = true) ws /\
      matches (re_Y dig) ys /\ matches re_m ms /\ matches (re_d dig) ds /\ In x (k r).
  Proof.
    unfold re_date. rewrite in_flat_map. intros ([y1 r1] & H1 & H). apply in_flat_map in H as ([m1 r2] & H2 & H).
    apply in_flat_map in H as ([d1 r3] & H3 & H). apply in_flat_map in H as (r4 & H4 & H). apply in_map_iff in H as (x' & E & H5).
    cbn [fst snd] in *. injection E as <- <- <- <-.
    apply in_fld in H1 as [-> M1]. apply in_fld in H2 as [-> M2]. apply in_alts in H3 as [-> M3].
    apply in_spaces in H4 as (ws & Hn & Hw & ->). exists ws, r4. auto 10.
  Qed.
  Lemma valid_ranges y m d : date_valid y m d -> 1 <= m <= 12 /\ 1 <= d <= 31.
  Proof.
    intros [_ (n & Hn & Hd)]. apply days_in_iff in Hn as [Hm ->]. split; [exact Hm|]. split; [lia|].
    transitivity (month_days y m); [lia|]. unfold month_days. repeat match goal with |- context [if ?b then _ else _] => destruct b end; lia.
  Qed.
  Lemma blanks_no ws k : Forall (fun c => is_space c = true) ws -> is_space k = false -> has_char k ws = false.
  Proof.
    intros H Hk. destruct (has_char k ws) eqn:E; [|reflexivity]. apply has_char_In in E. rewrite Forall_forall in H. rewrite (H k E) in Hk. discriminate.
  Qed.
  Lemma day_no_char g v : day_text dig g v -> has_char 46 g = false.
  Proof.
    intros [c w Hc|c w Hc|a c x w Ha Hc _]; cbn [has_char existsb]; repeat (apply orb_false_intro);
    try reflexivity; apply N.eqb_neq; eauto using any_not, asc_any; try (eapply not_eq_sym, any_not; eauto using asc_any; (lia || reflexivity)).
  Qed.

  Lemma fval_field f v us : field 1 6 f v -> us * 10 ^ Z.of_nat (length f) = v * 1000000 -> fval f = us.
  Proof.
    intros [Hl Hf] E. pose proof Hf as Hf'. apply dec_value in Hf' as [_ Hv]. apply scale_unique in E; [|lia].
    unfold fval. destruct f; [cbn in Hl; lia|]. rewrite Hv. symmetry. exact E.
  Qed.
  Lemma field_fval f : (1 <= length f <= 6)%nat -> forallb is_digit f = true -> exists v, field 1 6 f v /\ fval f * 10 ^ Z.of_nat (length f) = v * 1000000.
  Proof.
    intros Hl Hd. exists (num_value f). split; [split; [exact Hl|apply value_dec, Hd]|]. apply scale_unique; [lia|].
    unfold fval. destruct f; [cbn in Hl; lia|reflexivity].
  Qed.

  Lemma strptime_dt_iff s t : strptime_dt dig s = Ok t <-> any_dt dig s t.
  Proof.
    unfold strptime_dt. split.
    - destruct (hd_error _) as [[[[ys ms] ds] [[[[hs mis] ss] f] [|c0 r0]]]|] eqn:E; try discriminate.
      apply hd_in, in_date in E as (ws & r & -> & Hn & Hw & M1 & M2 & M3 & Hin).
      destruct (mk_date _ _ _) as [n|] eqn:Ed; cbn [rbind]; [|discriminate]. apply date_iff in Ed as [V D].
      destruct (mk_time _ _ _) as [tod|] eqn:Et; cbn [rbind]; [|discriminate]. apply time_iff in Et as [(C1 & C2 & C3) ->].
      intros H. apply Ok_inj in H.
      assert (X : exists x, r = (hs ++ 58%N :: mis ++ 58%N :: ss) ++ x /\ fraction x (fval f) /\
                  matches (re_H dig) hs /\ matches (re_M dig) mis /\ matches (re_S dig) ss).
      { destruct (has_char 46 _).
        - apply in_timef in Hin as (-> & Hl & Hd & X1 & X2 & X3). exists (46%N :: f). rewrite app_nil_r.
          split; [repeat (rewrite <- app_assoc; cbn [app]); reflexivity|]. split; [|auto].
          right. destruct (field_fval f Hl Hd) as (v & Fv & Ev). exists f, v. auto.
        - apply in_time in Hin as (-> & -> & X1 & X2 & X3). exists []. rewrite !app_nil_r. split; [reflexivity|]. split; [left; auto|auto]. }
      destruct X as (x & -> & Fx & X1 & X2 & X3).
      exists ys, (uval dig ys), ms, (uval dig ms), ds, (uval dig ds), ws, (hs ++ 58%N :: mis ++ 58%N :: ss),
        ((uval dig hs * 60 + uval dig mis) * 60 + uval dig ss), x, (fval f), n.
      split; [reflexivity|]. split; [apply year_iff; auto|]. split; [apply month_sound, M2|]. split; [apply day_sound, M3|].
      split; [exact Hn|]. split; [exact Hw|]. split.
      { exists hs, (uval dig hs), mis, (uval dig mis), ss, (uval dig ss). split; [reflexivity|].
        split; [apply hour_sound, X1|]. split; [apply minute_sound, X2|]. split; [apply second_sound; [exact X3|lia]|reflexivity]. }
      split; [exact Fx|]. split; [exact V|]. split; [exact D|]. rewrite <- H. unfold combine, DAY. lia.
    - intros (ys & y & ms & m & ds & d & ws & cs & sec & x & us & n & -> & Hy & Hm & Hd & Hn & Hw &
              (hs & h & mis & mi & ss & se & -> & H1 & H2 & H3 & ->) & Fx & V & D & ->).
      destruct (valid_ranges _ _ _ V) as [Vm Vd]. change (lit ":") with [58%N]. change (lit "-") with [45%N]. cbn [app].
      assert (Hc : has_char 46 (ys ++ 45%N :: ms ++ 45%N :: ds ++ ws ++ (hs ++ 58%N :: mis ++ 58%N :: ss) ++ x) = has_char 46 x).
      { repeat (rewrite has_char_app || match goal with |- context [has_char 46 (?c :: ?r)] =>
          lazymatch r with [] => fail | _ => change (c :: r) with ([c] ++ r) end end).
        rewrite (good_no ys), (good_no ms), (day_no_char ds d Hd), (blanks_no ws), (good_no hs), (good_no mis), (good_no ss);
          try (lia || reflexivity || eassumption); eauto using year_good, field_good, unit_good. }
      rewrite Hc. clear Hc.
      assert (Hdate : forall A (k : str -> list A) r z, starts k -> hd_error (k r) = Some z ->
        hd_error (re_date dig k (ys ++ 45%N :: ms ++ 45%N :: ds ++ ws ++ r)) = Some (ys, ms, ds, z))
        by (intros; eapply date_hd; eauto).
      destruct Fx as [[-> ->]|(f & v & -> & Fv & Ev)].
      + rewrite app_nil_r. change (has_char 46 []) with false. cbv iota.
        rewrite (Hdate _ _ _ _ time_starts (time_hd _ _ _ _ _ _ H1 H2 H3)).
        replace (uval dig ys) with y by (apply year_iff, Hy).
        destruct (month_complete _ _ Hm Vm) as [_ ->], (day_complete _ _ Hd Vd) as [_ ->].
        rewrite (proj2 (date_iff y m d n)) by auto. cbn [rbind]. rewrite (clock_of _ _ _ _ _ _ H1 H2 H3). cbn [rbind fval].
        f_equal. unfold combine, DAY. lia.
      + change (lit "." ++ f) with (46%N :: f). change (has_char 46 (46%N :: f)) with true. cbv iota.
        replace ((hs ++ 58%N :: mis ++ 58%N :: ss) ++ 46%N :: f) with (hs ++ 58%N :: mis ++ 58%N :: ss ++ 46%N :: f)
          by (repeat (rewrite <- app_assoc; cbn [app]); reflexivity).
        rewrite (Hdate _ _ _ _ timef_starts (timef_hd _ _ _ _ _ _ _ _ H1 H2 H3 Fv)).
        replace (uval dig ys) with y by (apply year_iff, Hy).
        destruct (month_complete _ _ Hm Vm) as [_ ->], (day_complete _ _ Hd Vd) as [_ ->].
        rewrite (proj2 (date_iff y m d n)) by auto. cbn [rbind]. rewrite (clock_of _ _ _ _ _ _ H1 H2 H3). cbn [rbind].
        rewrite (fval_field f v us Fv Ev). f_equal. unfold combine, DAY. lia.
  Qed.
  Lemma strptime_dt_err s e : strptime_dt dig s = Err e -> e = ValueError.
  Proof.
    unfold strptime_dt. destruct (hd_error _) as [[[[ys ms] ds] [[[[hs mis] ss] f] [|c0 r0]]]|]; intros H; try congruence.
    destruct (mk_date _ _ _) eqn:Ed; cbn [rbind] in H; [|apply mk_date_err in Ed; congruence].
    destruct (mk_time _ _ _) eqn:Et; cbn [rbind] in H; [discriminate|apply mk_time_err in Et; congruence].
  Qed.
End D.
