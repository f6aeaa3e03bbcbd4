(** Lemmas about deliveries during which callbacks change the bus (C76). *)
From Coq Require Import Permutation Sorted.
From Verif Require Import PyBase MBus SBus LSort LBus MEmit SEmit.
Open Scope Z_scope.

(** subsequences *)
Lemma subseq_refl {A} (l : list A) : subseq l l.
Proof. induction l; constructor; assumption. Qed.
Lemma subseq_nil {A} (l : list A) : subseq [] l.
Proof. induction l; constructor; assumption. Qed.
Lemma subseq_trans {A} (b c : list A) : subseq b c -> forall a, subseq a b -> subseq a c.
Proof.
  induction 1 as [|x b c Hbc IH|x b c Hbc IH]; intros a Ha.
  - exact Ha.
  - constructor. apply IH, Ha.
  - inversion Ha; subst; constructor; apply IH; assumption.
Qed.
Lemma subseq_app {A} (a b c d : list A) : subseq a b -> subseq c d -> subseq (a ++ c) (b ++ d).
Proof. intros Hab Hcd. induction Hab; cbn [app]; [exact Hcd|constructor; assumption|constructor; assumption]. Qed.
Lemma subseq_length {A} (a b : list A) : subseq a b -> (length a <= length b)%nat.
Proof. induction 1; cbn [length]; lia. Qed.
Lemma subseq_tail {A} (l : list A) n : subseq (skipn (S n) l) (skipn n l).
Proof.
  revert n. induction l as [|x l IH]; intros n; [destruct n; constructor|]. destruct n as [|n].
  - cbn. constructor. apply subseq_refl.
  - cbn [skipn]. exact (IH n).
Qed.
Lemma subseq_flat_map {A B} (f g : A -> list B) l :
  (forall a, In a l -> subseq (f a) (g a)) -> subseq (flat_map f l) (flat_map g l).
Proof.
  induction l as [|a l IH]; intros Hf; cbn [flat_map]; [constructor|].
  apply subseq_app; [apply Hf; left; reflexivity|apply IH; intros b Hb; apply Hf; right; exact Hb].
Qed.
Lemma subseq_flat_map_l {A B} (f : A -> list B) l1 l2 : subseq l1 l2 -> subseq (flat_map f l1) (flat_map f l2).
Proof.
  induction 1 as [|x a b _ IH|x a b _ IH]; cbn [flat_map]; [constructor| |].
  - apply (subseq_app [] (f x)); [apply subseq_nil|exact IH].
  - apply subseq_app; [apply subseq_refl|exact IH].
Qed.
Lemma skipn_nth {A} (l : list A) i x : nth_error l i = Some x -> skipn i l = x :: skipn (S i) l.
Proof.
  revert i. induction l as [|y l IH]; intros [|i]; cbn [nth_error]; intros Hx; try discriminate.
  - injection Hx as ->. reflexivity.
  - cbn [skipn]. rewrite (IH i Hx). reflexivity.
Qed.
Lemma skipn_nth_none {A} (l : list A) i : nth_error l i = None -> skipn i l = [].
Proof. intros Hn. apply skipn_all2, nth_error_None, Hn. Qed.

(** sorting one more element *)
Lemma subseq_insert {A} (key : A -> Z) y a b : StronglySorted (kle key) b -> subseq a b ->
  subseq (insert_by key y a) (insert_by key y b).
Proof.
  intros Hb Hs. induction Hs as [|x a b Hs IH|x a b Hs IH].
  - apply subseq_refl.
  - inversion Hb as [|? ? Hb' Hx]; subst. cbn [insert_by]. destruct (Z.leb_spec (key y) (key x)) as [Hle|Hgt].
    + replace (insert_by key y a) with (y :: a); [constructor; constructor; exact Hs|].
      destruct a as [|z a]; [reflexivity|]. cbn [insert_by]. replace (key y <=? key z) with true; [reflexivity|].
      symmetry. apply Z.leb_le. assert (Hz : In z b).
      { clear - Hs. remember (z :: a) as u. induction Hs; [discriminate|right; auto|injection Hequ as -> ->; left; reflexivity]. }
      rewrite Forall_forall in Hx. specialize (Hx z Hz). unfold kle in Hx. lia.
    + apply ss_skip. apply IH, Hb'.
  - inversion Hb as [|? ? Hb' Hx]; subst. cbn [insert_by]. destruct (key y <=? key x).
    + do 2 apply ss_keep. exact Hs.
    + apply ss_keep. apply IH, Hb'.
Qed.
Lemma subseq_sort {A} (key : A -> Z) l t : subseq (sort_by key l) (sort_by key (l ++ t)).
Proof.
  induction l as [|y l IH]; [apply subseq_nil|]. cbn [app sort_by].
  apply subseq_insert; [apply sort_sorted|exact IH].
Qed.

Section S.
  Context {K C E W V : Type} {HK : Eqb K} {HC : Eqb C} (inst : E -> K -> bool)
          (act : C -> E -> W -> list (bop K C) * W * res V).
  Notation bus := (bus K C).
  Notation est := (est K C W V).
  Implicit Types (b : bus) (x : est) (h : list (bop K C)) (k : K) (c : C) (ks : list K) (ops : list (bop K C)).

  (** ** every call is of a registered callback *)
  Lemma now_live h k p : now_at k p (b_run h) = map en_cb (at_kp k p (live h)).
  Proof. apply (bi_cbs _ _ _ (binv_ops h)). Qed.

  Definition good (e : E) (h0 : list (bop K C)) x : Prop :=
    (exists h, e_bus x = b_run (h0 ++ h)) /\
    Forall (fun bc => exists h, fst bc = b_run (h0 ++ h) /\ registered inst e (h0 ++ h) (snd bc)) (e_calls x).

  Lemma call1_good e h0 k p i c x x' r : inst e k = true -> good e h0 x ->
    nth_error (now_at k p (e_bus x)) i = Some c -> call1 act e c x = (x', r) -> good e h0 x'.
  Proof.
    intros Hk [[h Hb] Hc] Hn. unfold call1. destruct (act c e (e_rest x)) as [[ops s'] rv].
    intros Hx. assert (Hg : good e h0 (Est (fold_left b_step ops (e_bus x)) s' (e_calls x ++ [(e_bus x, c)]) (e_ret x')) /\
      e_bus x' = fold_left b_step ops (e_bus x) /\ e_calls x' = e_calls x ++ [(e_bus x, c)]).
    { split; [|destruct rv; injection Hx as <- <-; split; reflexivity]. split.
      - exists (h ++ ops). cbn [e_bus]. rewrite Hb. unfold b_run. rewrite app_assoc, (fold_left_app _ (h0 ++ h)). reflexivity.
      - cbn [e_calls]. apply Forall_app. split; [exact Hc|]. constructor; [|constructor].
        exists h. cbn [fst snd]. split; [exact Hb|]. rewrite Hb, now_live in Hn. apply nth_error_In in Hn.
        apply in_map_iff in Hn. destruct Hn as (en & <- & Hin). unfold at_kp in Hin. apply filter_In in Hin.
        destruct Hin as [Hin Hen]. apply andb_prop in Hen. destruct Hen as [He1 He2].
        apply eqb_true in He1. apply Z.eqb_eq in He2. exists k, p. split; [exact Hk|].
        rewrite He1, <- He2. destruct en; exact Hin. }
    destruct Hg as ([G1 G2] & G3 & G4). cbn [e_bus e_calls] in G1, G2. split; [rewrite G3; exact G1|rewrite G4; exact G2].
  Qed.

  Lemma iter_list_good e h0 k p : inst e k = true -> forall fuel i x x' r, good e h0 x ->
    iter_list act fuel e k p i x = (x', r) -> good e h0 x'.
  Proof.
    intros Hk. induction fuel as [|n IH]; intros i x x' r Hg; cbn [iter_list];
      destruct (nth_error (now_at k p (e_bus x)) i) as [c|] eqn:En; try (intros Hx; injection Hx as <- <-; exact Hg).
    destruct (call1 act e c x) as [y [er|]] eqn:Ec; [intros Hx; injection Hx as <- <-|].
    - eapply call1_good; eassumption.
    - apply IH. eapply call1_good; eassumption.
  Qed.
  Lemma iter_prios_good e h0 k fuel : inst e k = true -> forall ps x x' r, good e h0 x ->
    iter_prios act fuel e k ps x = (x', r) -> good e h0 x'.
  Proof.
    intros Hk. induction ps as [|p ps IH]; intros x x' r Hg; cbn [iter_prios]; [intros Hx; injection Hx as <- <-; exact Hg|].
    destruct (iter_list act fuel e k p 0 x) as [y q] eqn:Ey. pose proof (iter_list_good e h0 k p Hk _ _ _ _ _ Hg Ey) as Hy.
    destruct q; [apply IH; exact Hy|..]; intros Hx; injection Hx as <- <-; exact Hy.
  Qed.
  Lemma iter_classes_good e h0 fuel m : forall ks x x' r, good e h0 x ->
    iter_classes inst act fuel e m ks x = (x', r) -> good e h0 x'.
  Proof.
    induction ks as [|k ks IH]; intros x x' r Hg; cbn [iter_classes]; [intros Hx; injection Hx as <- <-; exact Hg|].
    destruct (negb (Nat.eqb (length (e_bus x)) m)); [intros Hx; injection Hx as <- <-; exact Hg|].
    destruct (inst e k) eqn:Ek; [|apply IH; exact Hg].
    destruct (iter_prios act fuel e k _ x) as [y q] eqn:Ey. pose proof (iter_prios_good e h0 k fuel Ek _ _ _ _ Hg Ey) as Hy.
    destruct q; [apply IH; exact Hy|..]; intros Hx; injection Hx as <- <-; exact Hy.
  Qed.
  Lemma emit_good fuel e h0 s : good e h0 (fst (emit_live inst act fuel e (b_run h0) s)).
  Proof.
    unfold emit_live. destruct (iter_classes inst act fuel e _ _ _) as [x' r] eqn:Ex. cbn [fst].
    eapply iter_classes_good; [|exact Ex]. split; [exists []; rewrite app_nil_r; reflexivity|constructor].
  Qed.

  (** ** the calls of a delivery, from the lists of the bus *)
  Definition prios k b : list Z := sort_by (fun p => - p) (dkeys (dflt (dget k b) [])).
  Definition class_now k b : list C := flat_map (fun p => now_at k p b) (prios k b).

  Lemma calls_now e b : NoDup (dkeys b) ->
    calls inst e b = flat_map (fun k => if inst e k then class_now k b else []) (dkeys b).
  Proof.
    intros Hnd. unfold calls, dkeys at 1. rewrite flat_map_concat_map, flat_map_concat_map, map_map. f_equal.
    apply map_ext_in. intros [k subs] Hin. cbn [fst snd]. destruct (inst e k); [|reflexivity].
    unfold class_now, prios, now_at, class_calls. replace (dget k b) with (Some subs); [reflexivity|].
    symmetry. clear - Hnd Hin. induction b as [|[k' s'] b IH]; [destruct Hin|]. cbn [dget]. cbn [dkeys map fst] in Hnd.
    inversion Hnd as [|? ? Hnot Hnd']; subst. destruct Hin as [Heq|Hin].
    - injection Heq as -> ->. rewrite eqb_refl. reflexivity.
    - destruct (eqb_spec k k') as [->|_]; [|apply IH; assumption].
      exfalso. apply Hnot. apply (in_map fst) in Hin. exact Hin.
  Qed.
  Lemma run_nodup h : NoDup (dkeys (b_run h)).
  Proof. apply (bi_nd _ _ _ (binv_ops h)). Qed.

  (** ** deliveries whose callbacks only unregister *)
  Record shrink b b' : Prop := {
    sh_keys : dkeys b' = dkeys b;
    sh_prios : forall k, dkeys (dflt (dget k b') []) = dkeys (dflt (dget k b) []);
    sh_at : forall k p n, subseq (skipn n (now_at k p b')) (skipn n (now_at k p b))
  }.
  Lemma shrink_refl b : shrink b b.
  Proof. constructor; [reflexivity|reflexivity|intros; apply subseq_refl]. Qed.
  Lemma shrink_trans b1 b2 b3 : shrink b1 b2 -> shrink b2 b3 -> shrink b1 b3.
  Proof.
    intros [A1 A2 A3] [B1 B2 B3]. constructor; [congruence|intros k; rewrite B2; apply A2|].
    intros k p n. eapply subseq_trans; [apply A3|apply B3].
  Qed.
  Lemma remove1_skipn c (l : list C) : forall n, subseq (skipn n (remove1 c l)) (skipn n l).
  Proof.
    induction l as [|y l IH]; intros n; cbn [remove1]; [destruct n; constructor|].
    destruct (eqb c y).
    - destruct n as [|n]; [cbn [skipn]; constructor; apply subseq_refl|]. cbn [skipn]. apply subseq_tail.
    - destruct n as [|n]; cbn [skipn]; [apply ss_keep; apply (IH 0%nat)|apply IH].
  Qed.
  Lemma shrink_unreg b k c : shrink b (unregister k c b).
  Proof.
    unfold unregister. destruct (dget k b) as [subs|] eqn:Ek; [|apply shrink_refl]. constructor.
    - rewrite dkeys_dset. unfold dmem. rewrite Ek. reflexivity.
    - intros k'. rewrite dget_dset. destruct (eqb_spec k' k) as [->|_]; [|reflexivity]. rewrite Ek. cbn [dflt].
      unfold dkeys. rewrite map_map. reflexivity.
    - intros k' p n. unfold now_at. rewrite dget_dset. destruct (eqb_spec k' k) as [->|_]; [|apply subseq_refl].
      rewrite Ek. cbn [dflt]. rewrite dget_map. destruct (dget p subs) as [l|]; cbn [option_map dflt]; [apply remove1_skipn|apply subseq_refl].
  Qed.
  Lemma shrink_ops ops : Forall is_unreg ops -> forall b, shrink b (fold_left b_step ops b).
  Proof.
    induction 1 as [|o ops Ho _ IH]; intros b; [apply shrink_refl|]. cbn [fold_left].
    eapply shrink_trans; [|apply IH]. destruct o as [k c p|k c]; [destruct Ho|apply shrink_unreg].
  Qed.

  Section Unreg.
    Context (Hun : forall c e s, Forall is_unreg (fst (fst (act c e s)))).

    (** from [x] to [x'], calling a subsequence of [l], ending with [q] *)
    Definition did x (l : list C) x' (q : eend) : Prop :=
      shrink (e_bus x) (e_bus x') /\ q <> EndChanged /\
      exists done, e_calls x' = e_calls x ++ done /\ subseq (map snd done) l.

    Lemma call1_did e c x x' r : call1 act e c x = (x', r) ->
      shrink (e_bus x) (e_bus x') /\ e_calls x' = e_calls x ++ [(e_bus x, c)].
    Proof.
      unfold call1. pose proof (Hun c e (e_rest x)) as Hu. destruct (act c e (e_rest x)) as [[ops s'] rv]. cbn [fst] in Hu.
      destruct rv; intros Hx; injection Hx as <- <-; cbn [e_bus e_calls]; split; try reflexivity; apply shrink_ops; exact Hu.
    Qed.
    Lemma iter_list_did e k p : forall fuel i x x' q, iter_list act fuel e k p i x = (x', q) ->
      did x (skipn i (now_at k p (e_bus x))) x' q /\
      ((length (skipn i (now_at k p (e_bus x))) <= fuel)%nat -> q <> EndFuel).
    Proof.
      induction fuel as [|n IH]; intros i x x' q; cbn [iter_list];
        destruct (nth_error (now_at k p (e_bus x)) i) as [c|] eqn:En.
      - intros Hx; injection Hx as <- <-. split.
        + split; [apply shrink_refl|]. split; [discriminate|]. exists []. rewrite app_nil_r. split; [reflexivity|apply subseq_nil].
        + rewrite (skipn_nth _ _ _ En). cbn [length]. lia.
      - intros Hx; injection Hx as <- <-. split; [|discriminate].
        split; [apply shrink_refl|]. split; [discriminate|]. exists []. rewrite app_nil_r. split; [reflexivity|apply subseq_nil].
      - rewrite (skipn_nth _ _ _ En). destruct (call1 act e c x) as [y [er|]] eqn:Ec; destruct (call1_did _ _ _ _ _ Ec) as [Hs Hc].
        + intros Hx; injection Hx as <- <-. split; [|discriminate]. split; [exact Hs|]. split; [discriminate|].
          exists [(e_bus x, c)]. split; [exact Hc|]. cbn [map snd]. apply ss_keep. apply subseq_nil.
        + intros Hx. destruct (IH _ _ _ _ Hx) as ((I1 & I2 & done & I3 & I4) & I5). split.
          * split; [eapply shrink_trans; eassumption|]. split; [exact I2|]. exists ((e_bus x, c) :: done).
            split; [rewrite I3, Hc, <- app_assoc; reflexivity|]. cbn [map snd]. apply ss_keep.
            eapply subseq_trans; [|exact I4]. apply (sh_at _ _ Hs).
          * cbn [length]. intros Hl. apply I5. pose proof (subseq_length _ _ (sh_at _ _ Hs k p (S i))). lia.
      - intros Hx; injection Hx as <- <-. split; [|discriminate].
        split; [apply shrink_refl|]. split; [discriminate|]. exists []. rewrite app_nil_r. split; [reflexivity|apply subseq_nil].
    Qed.

    Lemma did_nil x : did x [] x EndDone.
    Proof. split; [apply shrink_refl|]. split; [discriminate|]. exists []. rewrite app_nil_r. split; [reflexivity|constructor]. Qed.
    Lemma did_stop x l t x' q : did x l x' q -> did x (l ++ t) x' q.
    Proof.
      intros (D1 & D2 & done & D3 & D4). split; [exact D1|]. split; [exact D2|]. exists done. split; [exact D3|].
      rewrite <- (app_nil_r (map snd done)). apply subseq_app; [exact D4|apply subseq_nil].
    Qed.
    Lemma did_app x l y r l' t x' q : did x l y r -> did y l' x' q -> subseq l' t -> did x (l ++ t) x' q.
    Proof.
      intros (D1 & D2 & d & D3 & D4) (F1 & F2 & d' & F3 & F4) Hs. split; [eapply shrink_trans; eassumption|]. split; [exact F2|].
      exists (d ++ d'). split; [rewrite F3, D3, app_assoc; reflexivity|]. rewrite map_app. apply subseq_app; [exact D4|].
      eapply subseq_trans; eassumption.
    Qed.
    Lemma shrink_now k p b b' : shrink b b' -> subseq (now_at k p b') (now_at k p b).
    Proof. intros Hs. exact (sh_at _ _ Hs k p 0%nat). Qed.

    Lemma iter_prios_did e k fuel : forall ps x x' q, iter_prios act fuel e k ps x = (x', q) ->
      did x (flat_map (fun p => now_at k p (e_bus x)) ps) x' q /\
      ((length (flat_map (fun p => now_at k p (e_bus x)) ps) <= fuel)%nat -> q <> EndFuel).
    Proof.
      induction ps as [|p ps IH]; intros x x' q; cbn [iter_prios flat_map].
      - intros Hx; injection Hx as <- <-. split; [apply did_nil|discriminate].
      - destruct (iter_list act fuel e k p 0 x) as [y r] eqn:Ey. destruct (iter_list_did _ _ _ _ _ _ _ _ Ey) as [Hd Hf].
        cbn [skipn] in Hd, Hf. rewrite app_length. destruct r.
        + intros Hx. destruct (IH _ _ _ Hx) as [Hd2 Hf2]. pose proof (proj1 Hd) as Hs.
          assert (Hsub : subseq (flat_map (fun p => now_at k p (e_bus y)) ps) (flat_map (fun p => now_at k p (e_bus x)) ps)).
          { apply subseq_flat_map. intros a _. apply shrink_now, Hs. }
          split; [eapply did_app; eassumption|]. intros Hl. apply Hf2. pose proof (subseq_length _ _ Hsub). lia.
        + intros Hx; injection Hx as <- <-. split; [apply did_stop; exact Hd|]. intros Hl. apply Hf. lia.
        + intros Hx; injection Hx as <- <-. split; [apply did_stop; exact Hd|]. intros Hl. apply Hf. lia.
        + intros Hx; injection Hx as <- <-. split; [apply did_stop; exact Hd|]. intros Hl. apply Hf. lia.
    Qed.

    Definition rest_calls e ks b : list C := flat_map (fun k => if inst e k then class_now k b else []) ks.

    Lemma rest_shrink e ks b b' : shrink b b' -> subseq (rest_calls e ks b') (rest_calls e ks b).
    Proof.
      intros Hs. apply subseq_flat_map. intros k _. destruct (inst e k); [|constructor].
      unfold class_now, prios. rewrite (sh_prios _ _ Hs k). apply subseq_flat_map. intros p _. apply shrink_now, Hs.
    Qed.

    Lemma iter_classes_did e fuel m : forall ks x x' q, length (e_bus x) = m ->
      iter_classes inst act fuel e m ks x = (x', q) ->
      did x (rest_calls e ks (e_bus x)) x' q /\ ((length (rest_calls e ks (e_bus x)) <= fuel)%nat -> q <> EndFuel).
    Proof.
      induction ks as [|k ks IH]; intros x x' q Hm; cbn [iter_classes].
      - intros Hx; injection Hx as <- <-. split; [apply did_nil|discriminate].
      - rewrite Hm, Nat.eqb_refl. cbn [negb]. unfold rest_calls. cbn [flat_map]. fold (rest_calls e ks (e_bus x)).
        destruct (inst e k) eqn:Ek; [|cbn [app]; apply IH; exact Hm].
        fold (prios k (e_bus x)).
        destruct (iter_prios act fuel e k (prios k (e_bus x)) x) as [y r] eqn:Ey.
        destruct (iter_prios_did _ _ _ _ _ _ _ Ey) as [Hd Hf]. fold (class_now k (e_bus x)) in Hd, Hf.
        rewrite app_length. destruct r.
        + intros Hx. pose proof (proj1 Hd) as Hs. assert (Hy : length (e_bus y) = m).
          { rewrite <- Hm. pose proof (f_equal (@length _) (sh_keys _ _ Hs)) as Hl. unfold dkeys in Hl. rewrite !map_length in Hl. exact Hl. }
          destruct (IH _ _ _ Hy Hx) as [Hd2 Hf2]. pose proof (rest_shrink e ks _ _ Hs) as Hsub.
          split; [eapply did_app; eassumption|]. intros Hl. apply Hf2. pose proof (subseq_length _ _ Hsub). lia.
        + intros Hx; injection Hx as <- <-. split; [apply did_stop; exact Hd|]. intros Hl. apply Hf. lia.
        + intros Hx; injection Hx as <- <-. split; [apply did_stop; exact Hd|]. intros Hl. apply Hf. lia.
        + intros Hx; injection Hx as <- <-. split; [apply did_stop; exact Hd|]. intros Hl. apply Hf. lia.
    Qed.

    Lemma emit_unreg fuel e h s x q : emit_live inst act fuel e (b_run h) s = (x, q) ->
      subseq (map snd (e_calls x)) (calls inst e (b_run h)) /\ q <> EndChanged /\
      ((length (calls inst e (b_run h)) <= fuel)%nat -> q <> EndFuel).
    Proof.
      unfold emit_live. intros Hx. destruct (iter_classes_did e fuel _ _ _ _ _ eq_refl Hx) as [(D1 & D2 & done & D3 & D4) Hf].
      cbn [e_bus e_calls app] in *. rewrite (calls_now e _ (run_nodup h)). rewrite D3. split; [exact D4|]. split; [exact D2|exact Hf].
    Qed.
  End Unreg.
End S.
