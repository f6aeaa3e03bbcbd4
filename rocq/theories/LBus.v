(** Lemmas about the event bus (C18). *)
From Coq Require Import Permutation Sorted.
From Verif Require Import PyBase MBus SBus LSort.
Open Scope Z_scope.

Lemma filter_filter {A} (f g : A -> bool) l : filter f (filter g l) = filter (fun x => g x && f x) l.
Proof. induction l as [|x l IH]; [reflexivity|]. cbn [filter]. destruct (g x); cbn [filter andb]; rewrite IH; reflexivity. Qed.

Lemma filter_split {A} (f : A -> bool) l x r : filter f l = x :: r ->
  exists a b, l = a ++ x :: b /\ filter f a = [] /\ filter f b = r /\ f x = true.
Proof.
  induction l as [|y l IH]; cbn [filter]; [discriminate|]. destruct (f y) eqn:E.
  - intros H; injection H as <- <-. exists [], l. repeat split; assumption.
  - intros H. destruct (IH H) as (a & b & -> & H1 & H2 & H3). exists (y :: a), b. repeat split; try assumption.
    cbn [filter]. rewrite E. exact H1.
Qed.

Lemma perm_by_keys {A} (key : A -> Z) l1 : forall l2,
  (forall p, filter (fun x => Z.eqb (key x) p) l1 = filter (fun x => Z.eqb (key x) p) l2) -> Permutation l1 l2.
Proof.
  induction l1 as [|x l1 IH]; intros l2 Hf.
  - destruct l2 as [|y l2]; [constructor|]. exfalso. specialize (Hf (key y)). cbn [filter] in Hf. rewrite Z.eqb_refl in Hf. discriminate.
  - pose proof (Hf (key x)) as Hx. cbn [filter] in Hx. rewrite Z.eqb_refl in Hx. symmetry in Hx.
    destruct (filter_split _ _ _ _ Hx) as (a & b & -> & H1 & H2 & H3).
    transitivity (x :: (a ++ b)); [|apply Permutation_middle]. constructor. apply IH. intros p.
    rewrite filter_app. destruct (Z.eqb_spec (key x) p) as [<-|Hne].
    + rewrite H1, H2. reflexivity.
    + specialize (Hf p). cbn [filter] in Hf. rewrite filter_app in Hf. cbn [filter] in Hf.
      apply Z.eqb_neq in Hne. rewrite Hne in Hf. exact Hf.
Qed.

Section S.
  Context {K C Evt : Type} `{Eqb K} `{Eqb C} (inst : Evt -> K -> bool).
  Notation entry := (entry K C).
  Implicit Types b : bus K C.
  Implicit Types l : list entry.

  Definition at_kp k p l : list entry := filter (fun x => eqb k (en_cls x) && Z.eqb (en_prio x) p) l.

  Record binv (ks : list K) b l : Prop := {
    bi_keys : dkeys b = ks;
    bi_nd : NoDup (dkeys b);
    bi_nds : forall k subs, dget k b = Some subs -> NoDup (dkeys subs);
    bi_cbs : forall k p, dflt (dget p (dflt (dget k b) [])) [] = map en_cb (at_kp k p l)
  }.

  Lemma NoDup_snoc {A} (l : list A) x : NoDup l -> ~ In x l -> NoDup (l ++ [x]).
  Proof.
    induction 1 as [|a l Ha Hl IH]; intros Hx; cbn [app]; [constructor; [intros []|constructor]|].
    constructor.
    - rewrite in_app_iff. intros [Hin|[<-|[]]]; [exact (Ha Hin)|apply Hx; left; reflexivity].
    - apply IH. intros Hin; apply Hx; right; exact Hin.
  Qed.

  Lemma binv_register ks b l k c p : binv ks b l ->
    binv (if memb k ks then ks else ks ++ [k]) (register k c p b) (l ++ [En k p c]).
  Proof.
    intros [B1 B2 B3 B4]. constructor.
    - unfold register. rewrite dkeys_dset, B1. replace (dmem k b) with (memb k ks); [reflexivity|].
      rewrite <- B1. destruct (memb k (dkeys b)) eqn:E.
      + symmetry. apply dmem_In. apply memb_In. exact E.
      + symmetry. apply not_true_is_false. intros Ht. apply dmem_In in Ht. apply memb_In in Ht. congruence.
    - unfold register. apply NoDup_dset. exact B2.
    - intros k' subs. unfold register. rewrite dget_dset. destruct (eqb_spec k' k) as [->|Hne]; [|apply B3].
      intros Hs; injection Hs as <-. apply NoDup_dset. destruct (dget k b) as [subs|] eqn:E; cbn [dflt]; [eapply B3; exact E|constructor].
    - intros k' p'. unfold at_kp. rewrite filter_app, map_app. fold (at_kp k' p' l). cbn [filter en_cls en_prio].
      rewrite <- (B4 k' p'). unfold register. rewrite dget_dset.
      destruct (eqb_spec k' k) as [->|Hne]; cbn [dflt andb].
      + rewrite dget_dset. change (eqb p' p) with (Z.eqb p' p). rewrite Z.eqb_sym.
        destruct (Z.eqb_spec p p') as [<-|Hp]; cbn [dflt map en_cb]; [reflexivity|rewrite app_nil_r; reflexivity].
      + cbn [map]. rewrite app_nil_r. reflexivity.
  Qed.

  Lemma drop_oldest_at k c seen k' p l :
    map en_cb (at_kp k' p (drop_oldest k c seen l)) =
    if eqb k k' && negb (memb p seen) then remove1 c (map en_cb (at_kp k' p l)) else map en_cb (at_kp k' p l).
  Proof.
    revert seen. induction l as [|x l IH]; intros seen.
    - cbn. destruct (eqb k k' && negb (memb p seen)); reflexivity.
    - cbn [drop_oldest]. unfold same_reg. unfold at_kp. cbn [filter]. fold (at_kp k' p l).
      destruct (eqb_spec k (en_cls x)) as [Hk|Hk]; cbn [andb].
      + destruct (eqb_spec c (en_cb x)) as [Hc|Hc]; cbn [andb].
        * destruct (memb (en_prio x) seen) eqn:Hs; cbn [negb andb].
          -- cbn [filter]. fold (at_kp k' p (drop_oldest k c seen l)). pose proof (IH seen) as IHs.
             destruct (eqb_spec k' (en_cls x)) as [Hk'|Hk']; cbn [andb]; [|exact IHs].
             destruct (Z.eqb_spec (en_prio x) p) as [Hp|Hp]; [|exact IHs].
             cbn [map]. rewrite IHs. rewrite <- Hp, Hs. cbn [negb]. rewrite andb_false_r. reflexivity.
          -- fold (at_kp k' p (drop_oldest k c (en_prio x :: seen) l)). rewrite (IH (en_prio x :: seen)).
             cbn [memb existsb]. change (existsb (eqb p) seen) with (memb p seen).
             change (eqb p (en_prio x)) with (Z.eqb p (en_prio x)).
             destruct (eqb_spec k' (en_cls x)) as [Hk'|Hk']; cbn [andb].
             ++ destruct (Z.eqb_spec (en_prio x) p) as [Hp|Hp].
                ** rewrite Z.eqb_sym. destruct (Z.eqb_spec (en_prio x) p); [|congruence]. cbn [orb negb]. rewrite andb_false_r.
                   rewrite <- Hp, Hs. cbn [negb]. rewrite andb_true_r. cbn [map remove1].
                   rewrite Hk', <- Hk, <- Hc, !eqb_refl. reflexivity.
                ** rewrite Z.eqb_sym. destruct (Z.eqb_spec (en_prio x) p); [congruence|]. cbn [orb]. reflexivity.
             ++ destruct (eqb_spec k k') as [->|]; [congruence|]. reflexivity.
        * cbn [andb filter]. fold (at_kp k' p (drop_oldest k c seen l)). pose proof (IH seen) as IHs.
          destruct (eqb_spec k' (en_cls x)) as [Hk'|Hk']; cbn [andb]; [|exact IHs].
          destruct (Z.eqb_spec (en_prio x) p) as [Hp|Hp]; [|exact IHs].
          cbn [map]. rewrite IHs. destruct (eqb k k' && negb (memb p seen)); [|reflexivity].
          cbn [remove1]. destruct (eqb_spec c (en_cb x)); [congruence|reflexivity].
      + cbn [filter]. fold (at_kp k' p (drop_oldest k c seen l)). pose proof (IH seen) as IHs.
        destruct (eqb_spec k' (en_cls x)) as [Hk'|Hk']; cbn [andb]; [|exact IHs].
        destruct (eqb_spec k k') as [->|Hkk]; [congruence|]. cbn [andb] in *.
        destruct (Z.eqb (en_prio x) p); cbn [map]; rewrite ?IHs; reflexivity.
  Qed.

  Lemma dget_map {V W} (f : V -> W) (d : dict Z V) p :
    dget p (map (fun pc => (fst pc, f (snd pc))) d) = option_map f (dget p d).
  Proof.
    induction d as [|[q v] d IH]; [reflexivity|]. cbn [map dget fst snd]. destruct (eqb p q); [reflexivity|exact IH].
  Qed.

  Lemma binv_unregister ks b l k c : binv ks b l -> binv ks (unregister k c b) (drop_oldest k c [] l).
  Proof.
    intros [B1 B2 B3 B4]. unfold unregister. destruct (dget k b) as [subs|] eqn:Ek.
    - constructor.
      + rewrite dkeys_dset. replace (dmem k b) with true; [exact B1|]. unfold dmem. rewrite Ek. reflexivity.
      + apply NoDup_dset. exact B2.
      + intros k' s'. rewrite dget_dset. destruct (eqb_spec k' k) as [->|Hne]; [|apply B3].
        intros Hs; injection Hs as <-. unfold dkeys. rewrite map_map. cbn [fst]. apply (B3 k subs Ek).
      + intros k' p. rewrite drop_oldest_at. rewrite <- (B4 k' p). rewrite dget_dset. cbn [memb existsb negb]. rewrite andb_true_r.
        destruct (eqb_spec k' k) as [->|Hne].
        * rewrite eqb_refl. rewrite Ek. cbn [dflt]. rewrite dget_map. destruct (dget p subs); reflexivity.
        * destruct (eqb_spec k k'); [congruence|]. reflexivity.
    - constructor; try assumption. intros k' p. rewrite drop_oldest_at. rewrite <- (B4 k' p).
      cbn [memb existsb negb]. rewrite andb_true_r. destruct (eqb_spec k k') as [<-|Hne]; [|reflexivity].
      rewrite Ek. reflexivity.
  Qed.

  Lemma memb_app x (l1 l2 : list K) : memb x (l1 ++ l2) = memb x l1 || memb x l2.
  Proof. unfold memb. apply existsb_app. Qed.

  Lemma classes_seen (ops : list (bop K C)) : forall s1 s2 : list K, (forall k, memb k s1 = memb k s2) -> classes (C := C) ops s1 = classes ops s2.
  Proof.
    induction ops as [|[k c p|k c] ops IH]; intros s1 s2 Hs; cbn [classes]; [reflexivity| |apply IH; exact Hs].
    rewrite (Hs k). destruct (memb k s2); [apply IH; exact Hs|]. f_equal. apply IH.
    intros k'. cbn [memb existsb]. f_equal. apply Hs.
  Qed.

  Lemma binv_run (ops : list (bop K C)) : forall ks b l, binv ks b l ->
    binv (ks ++ classes ops ks) (fold_left b_step ops b) (fold_left live_step ops l).
  Proof.
    induction ops as [|[k c p|k c] ops IH]; intros ks b l Hb; cbn [fold_left classes b_step live_step].
    - rewrite app_nil_r. exact Hb.
    - pose proof (IH _ _ _ (binv_register _ _ _ k c p Hb)) as G. destruct (memb k ks) eqn:E; [exact G|].
      rewrite <- app_assoc in G. cbn [app] in G. rewrite (classes_seen ops (k :: ks) (ks ++ [k])); [exact G|].
      intros k'. rewrite memb_app. cbn [memb existsb]. change (existsb (eqb k') ks) with (memb k' ks). rewrite orb_false_r. apply orb_comm.
    - apply IH. apply binv_unregister. exact Hb.
  Qed.

  Lemma binv_ops (ops : list (bop K C)) : binv (classes ops []) (b_run ops) (live ops).
  Proof.
    apply (binv_run ops [] bus_new []). constructor; try reflexivity.
    - constructor.
    - intros k subs Hs. discriminate.
  Qed.

  Lemma class_calls_ok k subs l :
    NoDup (dkeys subs) -> (forall p, dflt (dget p subs) [] = map en_cb (at_kp k p l)) ->
    delivers (of_class k l) (class_calls subs).
  Proof.
    intros Hnd Hc. unfold class_calls.
    set (P := sort_by (fun p => - p) (dkeys subs)).
    assert (HP : Permutation P (dkeys subs)) by apply sort_perm.
    assert (HndP : NoDup P) by (eapply Permutation_NoDup; [symmetry; exact HP|exact Hnd]).
    assert (HsP : StronglySorted (fun a a' => a' <= a) P).
    { pose proof (sort_sorted (fun p => - p) (dkeys subs)) as Hs. fold P in Hs. clear - Hs.
      induction Hs as [|x P Hs IH Hf]; constructor; [exact IH|]. eapply Forall_impl; [|exact Hf]. unfold kle; intros; lia. }
    assert (Hall : forall x, In x (of_class k l) -> In (en_prio x) P).
    { intros x Hx. apply filter_In in Hx. destruct Hx as [Hx Ek]. apply (Permutation_in _ (Permutation_sym HP)).
      destruct (dget (en_prio x) subs) as [cs|] eqn:Ed; [eapply dget_key; exact Ed|]. exfalso.
      pose proof (Hc (en_prio x)) as Hx2. rewrite Ed in Hx2. cbn [dflt] in Hx2.
      assert (Hin : In x (at_kp k (en_prio x) l)) by (apply filter_In; split; [exact Hx|rewrite Ek, Z.eqb_refl; reflexivity]).
      destruct (at_kp k (en_prio x) l); [destruct Hin|discriminate]. }
    exists (flat_map (fun p => at_kp k p l) P).
    assert (Hst : forall p, filter (fun x => Z.eqb (en_prio x) p) (flat_map (fun p => at_kp k p l) P) =
                        filter (fun x => Z.eqb (en_prio x) p) (of_class k l)).
    { intros p. unfold of_class. rewrite filter_filter. fold (at_kp k p l).
      assert (Hf : forall q, filter (fun x => Z.eqb (en_prio x) p) (at_kp k q l) = if Z.eqb q p then at_kp k p l else []).
      { intros q. unfold at_kp. rewrite filter_filter. destruct (Z.eqb_spec q p) as [->|Hne].
        - apply filter_ext. intros x. destruct (eqb k (en_cls x)); [|reflexivity]. cbn. destruct (Z.eqb (en_prio x) p); reflexivity.
        - clear - Hne. induction l as [|x l IHl]; [reflexivity|]. cbn [filter]. replace (eqb k (en_cls x) && (en_prio x =? q) && (en_prio x =? p)) with false.
          + exact IHl.
          + destruct (eqb k (en_cls x)); [|reflexivity]. cbn. destruct (Z.eqb_spec (en_prio x) q); [|reflexivity]. destruct (Z.eqb_spec (en_prio x) p); [congruence|reflexivity]. }
      destruct (in_dec Z.eq_dec p P) as [Hin|Hout].
      - clear - Hf Hin HndP. induction P as [|q P IH]; [destruct Hin|]. cbn [flat_map]. rewrite filter_app, Hf.
        inversion HndP as [|? ? Hq HP]; subst. destruct (Z.eqb_spec q p) as [->|Hne].
        + assert (Hz : filter (fun x => Z.eqb (en_prio x) p) (flat_map (fun p => at_kp k p l) P) = []).
          { clear - Hf Hq. induction P as [|r P IH]; [reflexivity|]. cbn [flat_map]. rewrite filter_app, Hf.
            destruct (Z.eqb_spec r p) as [->|]; [exfalso; apply Hq; left; reflexivity|]. apply IH. intros Hin; apply Hq; right; exact Hin. }
          rewrite Hz, app_nil_r. reflexivity.
        + destruct Hin as [->|Hin]; [congruence|]. apply IH; assumption.
      - assert (Hz : at_kp k p l = []).
        { destruct (at_kp k p l) as [|x r] eqn:Ea; [reflexivity|]. exfalso. apply Hout.
          assert (Hx : In x (at_kp k p l)) by (rewrite Ea; left; reflexivity).
          apply filter_In in Hx. destruct Hx as [Hx Hx2]. apply andb_prop in Hx2. destruct Hx2 as [E1 E2]. apply Z.eqb_eq in E2. subst p.
          apply Hall. apply filter_In. split; assumption. }
        rewrite Hz. clear - Hf Hout. induction P as [|r P IH]; [reflexivity|]. cbn [flat_map]. rewrite filter_app, Hf.
        destruct (Z.eqb_spec r p) as [->|]; [exfalso; apply Hout; left; reflexivity|]. apply IH. intros Hin; apply Hout; right; exact Hin. }
    split; [|split; [|split]].
    - clear - Hc. induction P as [|p P IH]; [reflexivity|]. cbn [flat_map]. rewrite map_app, IH, Hc. reflexivity.
    - apply (perm_by_keys en_prio). exact Hst.
    - clear - HsP. induction HsP as [|p P Hs IH Hf]; [constructor|]. cbn [flat_map].
      assert (Hp : forall x, In x (at_kp k p l) -> en_prio x = p).
      { intros x Hx. apply filter_In in Hx. destruct Hx as [_ Hx]. apply andb_prop in Hx. apply Z.eqb_eq, Hx. }
      assert (Hr : forall x, In x (flat_map (fun p => at_kp k p l) P) -> en_prio x <= p).
      { intros x Hx. apply in_flat_map in Hx. destruct Hx as (q & Hq & Hx). rewrite Forall_forall in Hf. pose proof (Hf q Hq).
        apply filter_In in Hx. destruct Hx as [_ Hx]. apply andb_prop in Hx. destruct Hx as [_ Hx]. apply Z.eqb_eq in Hx. lia. }
      clear - IH Hp Hr. revert Hp. generalize (at_kp k p l) as l0. induction l0 as [|x l0 IHl]; intros Hp; [exact IH|]. cbn [app].
      constructor; [apply IHl; intros y Hy; apply Hp; right; exact Hy|].
      apply Forall_forall. intros y Hy. rewrite (Hp x (or_introl eq_refl)). apply in_app_or in Hy.
      destruct Hy as [Hy|Hy]; [rewrite (Hp y (or_intror Hy)); lia|apply Hr; exact Hy].
    - exact Hst.
  Qed.

  Lemma delivery (ops : list (bop K C)) e :
    exists rs, Forall2 (fun k r => delivers (of_class k (live ops)) r) (filter (inst e) (classes ops [])) rs /\
      calls inst e (b_run ops) = concat rs.
  Proof.
    destruct (binv_ops ops) as [B1 B2 B3 B4]. rewrite <- B1. unfold calls.
    assert (G : forall sub, (forall x, In x sub -> In x (b_run ops)) ->
      exists rs, Forall2 (fun k r => delivers (of_class k (live ops)) r) (filter (inst e) (dkeys sub)) rs /\
        flat_map (fun ks => if inst e (fst ks) then class_calls (snd ks) else []) sub = concat rs).
    { induction sub as [|[k subs] sub IH]; intros Hsub; [exists []; split; [constructor|reflexivity]|].
      destruct IH as (rs & Hr & Ec); [intros x Hx; apply Hsub; right; exact Hx|].
      cbn [dkeys map fst filter flat_map snd]. destruct (inst e k); [|exists rs; split; assumption].
      exists (class_calls subs :: rs). split; [|cbn [concat]; f_equal; exact Ec]. constructor; [|exact Hr].
      assert (Hd : dget k (b_run ops) = Some subs) by (apply In_dget; [exact B2|apply Hsub; left; reflexivity]).
      apply class_calls_ok; [apply (B3 k subs Hd)|]. intros p. rewrite <- (B4 k p), Hd. reflexivity. }
    apply G. auto.
  Qed.

  Lemma classes_In (ops : list (bop K C)) (k : K) : In k (classes (C := C) ops []) <-> exists c p, In (Reg k c p) ops.
  Proof.
    assert (G : forall seen, In k (classes (C := C) ops seen) <-> (~ In k seen /\ exists c p, In (Reg k c p) ops)).
    { induction ops as [|[k' c' p'|k' c'] ops IH]; intros seen; cbn [classes].
      - split; [intros []|intros [_ (c & p & [])]].
      - destruct (memb k' seen) eqn:Em.
        + rewrite IH. apply memb_In in Em. split; intros [H1 (c & p & H2)]; split; try assumption.
          * exists c, p; right; exact H2.
          * destruct H2 as [H2|H2]; [injection H2 as -> -> ->; contradiction|exists c, p; exact H2].
        + assert (Hns : ~ In k' seen) by (intros Hin; apply memb_In in Hin; congruence).
          cbn [In]. rewrite IH. split.
          * intros [<-|[H1 (c & p & H2)]]; [split; [exact Hns|exists c', p'; left; reflexivity]|].
            split; [intros Hin; apply H1; right; exact Hin|exists c, p; right; exact H2].
          * intros [H1 (c & p & H2)]. destruct (eqb_spec k' k) as [->|Hne]; [left; reflexivity|right].
            split; [intros [->|Hin]; [congruence|contradiction]|].
            destruct H2 as [H2|H2]; [congruence|exists c, p; exact H2].
      - rewrite IH. split; intros [H1 (c & p & H2)]; split; try assumption.
        + exists c, p; right; exact H2.
        + destruct H2 as [H2|H2]; [discriminate|exists c, p; exact H2]. }
    rewrite G. intuition.
  Qed.

  Lemma classes_NoDup (ops : list (bop K C)) : NoDup (classes (C := C) ops []).
  Proof.
    destruct (binv_ops ops) as [B1 B2 _ _]. rewrite <- B1. exact B2.
  Qed.

  Lemma drop_oldest_incl k c l : forall seen x, In x (drop_oldest k c seen l) -> In x l.
  Proof.
    induction l as [|y l IH]; intros seen x Hx; [exact Hx|]. cbn [drop_oldest] in Hx.
    destruct (same_reg k c y && negb (memb (en_prio y) seen)); [right; eapply IH; exact Hx|].
    destruct Hx as [->|Hx]; [left; reflexivity|right; eapply IH; exact Hx].
  Qed.

  Lemma live_registered (ops : list (bop K C)) x : In x (live ops) -> In (Reg (en_cls x) (en_cb x) (en_prio x)) ops.
  Proof.
    unfold live. rewrite <- (rev_involutive ops). generalize (rev ops) as o. clear ops. induction o as [|[k c p|k c] o IH]; cbn [rev].
    - intros [].
    - rewrite fold_left_app. cbn [fold_left live_step]. intros Hin. apply in_app_or in Hin. apply in_or_app.
      destruct Hin as [Hin|[<-|[]]]; [left; apply IH; exact Hin|right; left; reflexivity].
    - rewrite fold_left_app. cbn [fold_left live_step]. intros Hin. apply drop_oldest_incl in Hin. apply in_or_app. left. apply IH; exact Hin.
  Qed.

  Lemma delivery_one (ops : list (bop K C)) e k :
    inst e k = true -> (forall k' c p, In (Reg k' c p) ops -> inst e k' = true -> k' = k) ->
    delivers (of_class k (live ops)) (calls inst e (b_run ops)).
  Proof.
    intros Hk Hu. destruct (delivery ops e) as (rs & Hr & ->).
    assert (Hm : forall k', In k' (filter (inst e) (classes ops [])) -> k' = k).
    { intros k' Hin. apply filter_In in Hin. destruct Hin as [Hin Hi]. apply classes_In in Hin. destruct Hin as (c & p & Hin). eapply Hu; eassumption. }
    assert (Hnd : NoDup (filter (inst e) (classes ops []))) by apply NoDup_filter, classes_NoDup.
    assert (Hc : (exists x, In x (of_class k (live ops))) -> In k (filter (inst e) (classes ops []))).
    { intros (x & Hin). apply filter_In in Hin. destruct Hin as [Hin He]. apply eqb_true in He. apply live_registered in Hin.
      apply filter_In. split; [|exact Hk]. apply classes_In. rewrite He. eexists _, _; exact Hin. }
    destruct (filter (inst e) (classes ops [])) as [|k1 [|k2 ks]].
    - inversion Hr; subst. cbn [concat].
      assert (En : of_class k (live ops) = []).
      { destruct (of_class k (live ops)) as [|x xs]; [reflexivity|]. exfalso. destruct Hc. exists x; left; reflexivity. }
      rewrite En. exists []. repeat split; constructor.
    - inversion Hr as [|? r ? ? H1 H2]; subst. inversion H2; subst. cbn [concat]. rewrite app_nil_r.
      rewrite (Hm k1 (or_introl eq_refl)) in H1. exact H1.
    - exfalso. inversion Hnd as [|? ? Hn _]; subst. apply Hn. left.
      rewrite (Hm k1 (or_introl eq_refl)). apply Hm. right; left; reflexivity.
  Qed.

  (** unregistering *)
  Lemma drop_oldest_once k c l : forall seen,
    NoDup (map en_prio (filter (same_reg k c) l)) ->
    (forall x, In x l -> same_reg k c x = true -> ~ In (en_prio x) seen) ->
    drop_oldest k c seen l = filter (fun x => negb (same_reg k c x)) l.
  Proof.
    induction l as [|x l IH]; intros seen Hnd Hs; [reflexivity|]. cbn [drop_oldest filter] in *.
    destruct (same_reg k c x) eqn:Ex; cbn [negb andb].
    - assert (Hm : memb (en_prio x) seen = false).
      { apply not_true_is_false. intros Ht. apply memb_In in Ht. apply (Hs x (or_introl eq_refl) Ex Ht). }
      rewrite Hm. cbn [negb]. cbn [map] in Hnd. inversion Hnd as [|? ? Hn Hnd']; subst. apply IH; [exact Hnd'|].
      intros y Hy Ey [Heq|Hin]; [|apply (Hs y (or_intror Hy) Ey Hin)].
      apply Hn. rewrite Heq. apply in_map. apply filter_In. split; assumption.
    - f_equal. apply IH; [exact Hnd|]. intros y Hy. apply Hs. right; exact Hy.
  Qed.

  Lemma unregister_once (ops : list (bop K C)) k c :
    NoDup (map en_prio (filter (same_reg k c) (live ops))) ->
    live (ops ++ [Unreg k c]) = filter (fun x => negb (same_reg k c x)) (live ops).
  Proof.
    intros Hnd. unfold live. rewrite fold_left_app. cbn [fold_left live_step]. apply drop_oldest_once; [exact Hnd|].
    intros x _ _ [].
  Qed.

  (** other registrations survive any unregistration *)
  Lemma unregister_others (ops : list (bop K C)) k c :
    filter (fun x => negb (same_reg k c x)) (live (ops ++ [Unreg k c])) = filter (fun x => negb (same_reg k c x)) (live ops).
  Proof.
    unfold live. rewrite fold_left_app. cbn [fold_left live_step]. generalize (fold_left live_step ops []) as l. intros l.
    generalize (@nil Z) as seen. induction l as [|x l IH]; intros seen; [reflexivity|]. cbn [drop_oldest filter].
    destruct (same_reg k c x) eqn:Ex; cbn [negb andb].
    - destruct (negb (memb (en_prio x) seen)); [apply IH|]. cbn [filter]. rewrite Ex. cbn [negb]. apply IH.
    - cbn [filter]. rewrite Ex. cbn [negb]. f_equal. apply IH.
  Qed.

  (** delivery stops at the first exception *)
  Lemma run_calls_prefix {V} (f : C -> res V) cs :
    match run_calls f cs with
    | (done, Ok vs) => done = cs /\ Forall2 (fun c v => f c = Ok v) cs vs
    | (done, Err x) => exists pre c post, cs = pre ++ c :: post /\ done = pre ++ [c] /\ f c = Err x /\
                         Forall (fun c => exists v, f c = Ok v) pre
    end.
  Proof.
    induction cs as [|c cs IH]; cbn [run_calls]; [split; constructor|].
    destruct (f c) as [v|x] eqn:Ef.
    - destruct (run_calls f cs) as [done [vs|x]].
      + destruct IH as [-> Hf]. split; [reflexivity|constructor; assumption].
      + destruct IH as (pre & c0 & post & -> & -> & Hc & Hp). exists (c :: pre), c0, post. repeat split; try assumption.
        constructor; [exists v; exact Ef|exact Hp].
    - exists [], c, cs. repeat split; [exact Ef|constructor].
  Qed.
End S.
