(** ThreadSafeQueue is linearizable (C63). *)
From Coq Require Import Permutation Sorted.
From Verif Require Import PyBase PyHeap MQueue MThreads SQueue LQueue SThreads.

Section Micro.
  Context {I : Type}.
  Notation micro := (@micro I).
  Definition mstep (x : queue I * qlocal I) : queue I * qlocal I := micro (fst x) (snd x).
  Fixpoint iter (n : nat) (x : queue I * qlocal I) : queue I * qlocal I :=
    match n with O => x | S n => iter n (mstep x) end.

  Lemma iter_add n m x : iter (n + m) x = iter m (iter n x).
  Proof. revert x; induction n as [|n IH]; intros x; [reflexivity|]. cbn. apply IH. Qed.
  Lemma iter_last n x : iter (S n) x = mstep (iter n x).
  Proof. replace (S n) with (n + 1) by lia. rewrite iter_add. reflexivity. Qed.
  Lemma iter_done n q out : iter n (q, LDone out) = (q, LDone out).
  Proof. induction n as [|n IH]; [reflexivity|]. cbn. exact IH. Qed.

  Lemma upd_length (h : queue I) : forall i x, length (upd h i x) = length h.
  Proof. induction h as [|a h IH]; intros [|i] x; cbn; auto. Qed.

  Lemma div2_lt pos : 0 < pos -> Nat.div2 (pos - 1) < pos.
  Proof. intros H. pose proof (Nat.div2_decr (pos - 1) (pos - 1) ltac:(lia)). lia. Qed.

  Lemma down_ok fuel : forall h pos new out, pos <= fuel -> exists n, iter n (h, LDown pos new out) = (siftdown entry_ltb fuel h pos new, LDone out).
  Proof.
    induction fuel as [|f IH]; intros h pos new out Hp.
    - assert (pos = 0) as -> by lia. exists 1. reflexivity.
    - cbn [siftdown]. destruct (Nat.ltb_spec 0 pos) as [H|H].
      + destruct (entry_ltb new (nth (Nat.div2 (pos - 1)) h new)) eqn:E.
        * destruct (IH (upd h pos (nth (Nat.div2 (pos - 1)) h new)) (Nat.div2 (pos - 1)) new out) as (n & Hn); [pose proof (div2_lt pos H); lia|].
          exists (S n). cbn [iter]. unfold mstep. cbn [fst snd MThreads.micro]. destruct (Nat.ltb_spec 0 pos); [|lia]. rewrite E. exact Hn.
        * exists 1. cbn [iter]. unfold mstep. cbn [fst snd MThreads.micro]. destruct (Nat.ltb_spec 0 pos); [|lia]. rewrite E. reflexivity.
      + assert (pos = 0) as -> by lia. exists 1. reflexivity.
  Qed.

  Lemma up_ok fuel : forall h pos new out, length h <= pos + fuel -> pos <= length h -> exists n, iter n (h, LUp pos new out) = (siftup entry_ltb fuel h pos new, LDone out).
  Proof.
    induction fuel as [|f IH]; intros h pos new out Hp Hl.
    - destruct (down_ok (length h) (upd h pos new) pos new out ltac:(lia)) as (n & Hn).
      exists (S n). cbn [iter]. unfold mstep. cbn [fst snd MThreads.micro]. destruct (Nat.ltb_spec (2 * pos + 1) (length h)); [lia|]. exact Hn.
    - cbn [siftup]. destruct (Nat.ltb_spec (2 * pos + 1) (length h)) as [H|H].
      + set (c := if _ && _ then _ else _).
        assert (Hc : 2 * pos + 1 <= c < length h).
        { unfold c. destruct (Nat.ltb_spec (2 * pos + 1 + 1) (length h)); cbn [andb]; [|lia]. destruct (negb _); lia. }
        destruct (IH (upd h pos (nth c h new)) c new out) as (n & Hn); [rewrite upd_length; lia|rewrite upd_length; lia|].
        exists (S n). cbn [iter]. unfold mstep. cbn [fst snd MThreads.micro]. destruct (Nat.ltb_spec (2 * pos + 1) (length h)); [|lia]. exact Hn.
      + destruct (down_ok (length h) (upd h pos new) pos new out ltac:(lia)) as (n & Hn).
        exists (S n). cbn [iter]. unfold mstep. cbn [fst snd MThreads.micro]. destruct (Nat.ltb_spec (2 * pos + 1) (length h)); [lia|]. exact Hn.
  Qed.

  (** run alone, the list operations of a method do what the method does *)
  Lemma micro_ok q o : exists n, iter n (q, q_start o) = (snd (q_step q o), LDone (fst (q_step q o))).
  Proof.
    destruct o as [x k| | |].
    - destruct (down_ok (S (length q)) (q ++ [(k, x)]) (length q) (k, x) OUnit ltac:(lia)) as (n & Hn). exists (S n). exact Hn.
    - cbn [q_start q_step]. unfold q_pop, heappop. destruct (rev q) as [|last r] eqn:Er.
      + exists 1. cbn [iter]. unfold mstep. cbn [fst snd MThreads.micro]. rewrite Er. reflexivity.
      + destruct (rev r) as [|top h] eqn:Eh.
        * exists 2. cbn [iter]. unfold mstep. cbn [fst snd MThreads.micro]. rewrite Er. cbn [fst snd MThreads.micro]. rewrite Eh. destruct last as [kl il]. reflexivity.
        * assert (Hq : length q = S (length (last :: h))).
          { rewrite <- (rev_length q), Er. cbn. rewrite <- (rev_length r), Eh. reflexivity. }
          destruct (up_ok (length q) (last :: h) 0 last (OItem (Ok (snd top))) ltac:(lia) ltac:(lia)) as (n & Hn).
          exists (S (S n)). cbn [iter]. unfold mstep. cbn [fst snd MThreads.micro]. rewrite Er. cbn [fst snd MThreads.micro]. rewrite Eh. cbn [fst snd].
          rewrite Hn. destruct top as [kt it]. reflexivity.
    - exists 1. reflexivity.
    - exists 1. reflexivity.
  Qed.

  Lemma micro_done q o n q' out : iter n (q, q_start o) = (q', LDone out) -> q_step q o = (out, q').
  Proof.
    intros H. destruct (micro_ok q o) as (m & Hm).
    assert (E : iter (n + m) (q, q_start o) = iter (m + n) (q, q_start o)) by (f_equal; lia).
    rewrite !iter_add, H, Hm, !iter_done in E. injection E as E1 E2. rewrite E1, E2. destruct (q_step q o); reflexivity.
  Qed.
End Micro.

Lemma NoDup_app_snoc {A} (l : list A) x : NoDup l -> ~ In x l -> NoDup (l ++ [x]).
Proof.
  induction 1 as [|a l Ha Hl IH]; intros Hx; cbn; [constructor; [intros []|constructor]|]. constructor.
  - rewrite in_app_iff. cbn. intros [H|[H|[]]]; [contradiction|]. apply Hx. left; congruence.
  - apply IH. intros H; apply Hx; right; exact H.
Qed.

Section Lin.
  Context {I : Type}.

  Lemma q_run_app (a b : list (qop I)) : forall q, q_run q (a ++ b) = (fst (q_run q a) ++ fst (q_run (snd (q_run q a)) b), snd (q_run (snd (q_run q a)) b)).
  Proof.
    induction a as [|o a IH]; intros q; cbn [app q_run fst snd]; [destruct (q_run q b); reflexivity|].
    destruct (q_step q o) as [out q1]. rewrite IH. destruct (q_run q1 a) as [outs q2]. cbn [fst snd]. reflexivity.
  Qed.

  Definition not_in (p : pc I) : Prop := match p with PIn _ _ => False | _ => True end.
  Definition q_of (lin : list (@lcall I)) : queue I := snd (q_run q_empty (map lc_op lin)).

  Record inv (s : tstate I) (lin : list (@lcall I)) : Prop := {
    i_out : fst (q_run q_empty (map lc_op lin)) = map lc_out lin;
    i_lock : match t_lock s with
             | None => t_q s = q_of lin /\ forall t, not_in (t_pc s t)
             | Some t => (exists o l n, t_pc s t = PIn o l /\ iter n (q_of lin, q_start o) = (t_q s, l)) /\
                         forall t', t' <> t -> not_in (t_pc s t')
             end;
    i_lin : forall t i o out, In (t, i, o, out) lin -> In (EInv t i o) (t_hist s) /\ (i < t_cnt s t \/ (i = t_cnt s t /\ t_pc s t = PRet out));
    i_ret : forall t out, t_pc s t = PRet out -> exists o, In (t, t_cnt s t, o, out) lin;
    i_call : forall t o, (t_pc s t = PCalled o \/ exists l, t_pc s t = PIn o l) -> In (EInv t (t_cnt s t) o) (t_hist s);
    i_rets : forall t i out, In (ERet t i out) (t_hist s) -> i < t_cnt s t /\ exists o, In (t, i, o, out) lin;
    i_invs : forall t i o, In (EInv t i o) (t_hist s) -> i < t_cnt s t \/ (i = t_cnt s t /\ t_pc s t <> PIdle);
    i_nodup : NoDup (map lc_id lin);
    i_order : forall t i o out t' i' o' out', In (t, i, o, out) lin -> In (t', i', o', out') lin ->
       precedes (ERet t i out) (EInv t' i' o') (t_hist s) -> precedes (t, i, o, out) (t', i', o', out') lin
  }.

  Lemma fset_same {A} (f : nat -> A) t x : fset f t x t = x.
  Proof. unfold fset. rewrite Nat.eqb_refl. reflexivity. Qed.
  Lemma fset_other {A} (f : nat -> A) t x u : u <> t -> fset f t x u = f u.
  Proof. intros H. unfold fset. destruct (Nat.eqb_spec u t); [contradiction|reflexivity]. Qed.

  Lemma precedes_snoc {A} (a b c : A) l : precedes a b (l ++ [c]) -> precedes a b l \/ (b = c /\ In a l).
  Proof.
    intros (l1 & l2 & l3 & E). destruct l3 as [|y l4].
    - right. replace (l1 ++ a :: l2 ++ [b]) with ((l1 ++ a :: l2) ++ [b]) in E by (rewrite <- app_assoc; reflexivity).
      apply app_inj_tail in E as [-> ->]. split; [reflexivity|]. apply in_or_app; right; left; reflexivity.
    - left. destruct (exists_last (l := y :: l4) ltac:(discriminate)) as (l3' & x & E'). rewrite E' in E.
      replace (l1 ++ a :: l2 ++ b :: l3' ++ [x]) with ((l1 ++ a :: l2 ++ b :: l3') ++ [x]) in E.
      + apply app_inj_tail in E as [-> _]. exists l1, l2, l3'. reflexivity.
      + rewrite <- app_assoc. cbn. f_equal. f_equal. rewrite <- app_assoc. reflexivity.
  Qed.
  Lemma precedes_more {A} (a b : A) l m : precedes a b l -> precedes a b (l ++ m).
  Proof. intros (l1 & l2 & l3 & ->). exists l1, l2, (l3 ++ m). rewrite <- app_assoc. cbn. rewrite <- app_assoc. reflexivity. Qed.
  Lemma precedes_end {A} (a b : A) l : In a l -> precedes a b (l ++ [b]).
  Proof. intros H. apply in_split in H as (l1 & l2 & ->). exists l1, l2, []. rewrite <- app_assoc. reflexivity. Qed.
  Lemma precedes_in {A} (a b : A) l : precedes a b l -> In a l /\ In b l.
  Proof. intros (l1 & l2 & l3 & ->). split; apply in_or_app; right; [left; reflexivity|right; apply in_or_app; right; left; reflexivity]. Qed.

  Lemma inv_init : inv t_init [].
  Proof.
    constructor; cbn; try (intros; contradiction); try reflexivity.
    - split; [reflexivity|]. intros _; exact Logic.I.
    - intros t out H; discriminate.
    - intros t o [H|(l & H)]; discriminate.
    - constructor.
  Qed.

  Lemma in_snoc {A} (x y : A) l : In x (l ++ [y]) <-> In x l \/ x = y.
  Proof. rewrite in_app_iff. cbn. intuition. Qed.

  Lemma inv_step s lin l s' : inv s lin -> t_step true s l = Some s' -> exists lin', inv s' lin'.
  Proof.
    intros [Ho Hlk Hln Hrt Hcl Hrs Hiv Hnd Hord] Hst. destruct l as [t o|t|t|t|t]; cbn [t_step] in Hst.
    - (* call *)
      destruct (t_pc s t) eqn:Ep; try discriminate. injection Hst as <-. exists lin. constructor; cbn [t_q t_lock t_pc t_cnt t_hist].
      + exact Ho.
      + destruct (t_lock s) as [u|].
        * destruct Hlk as [(o' & l & n & Hu & Hn) Hot]. assert (u <> t) by congruence. split.
          -- exists o', l, n. rewrite fset_other by assumption. auto.
          -- intros t' Ht'. destruct (Nat.eq_dec t' t) as [->|]; [rewrite fset_same; exact Logic.I|rewrite fset_other by assumption; auto].
        * destruct Hlk as [Hq Hot]. split; [exact Hq|]. intros t'. destruct (Nat.eq_dec t' t) as [->|]; [rewrite fset_same; exact Logic.I|rewrite fset_other by assumption; auto].
      + intros t' i' o' out' Hin. destruct (Hln _ _ _ _ Hin) as [H1 H2]. split; [apply in_or_app; auto|]. destruct H2 as [H2|[H2 H3]]; [auto|]. right. split; [exact H2|]. rewrite fset_other by congruence. exact H3.
      + intros t' out. destruct (Nat.eq_dec t' t) as [->|]; [rewrite fset_same; discriminate|rewrite fset_other by assumption; auto].
      + intros t' o'. destruct (Nat.eq_dec t' t) as [->|].
        * rewrite fset_same. intros [H|(l & H)]; [injection H as <-|discriminate]. apply in_snoc. auto.
        * rewrite fset_other by assumption. intros H. apply in_snoc. auto.
      + intros t' i' out H. apply in_snoc in H as [H|H]; [auto|discriminate].
      + intros t' i' o' H. apply in_snoc in H as [H|H].
        * destruct (Hiv _ _ _ H) as [?|[H1 H2]]; [auto|]. right. split; [exact H1|]. destruct (Nat.eq_dec t' t) as [->|]; [rewrite fset_same; discriminate|rewrite fset_other by assumption; exact H2].
        * injection H as -> -> ->. right. rewrite fset_same. split; [reflexivity|discriminate].
      + exact Hnd.
      + intros t1 i1 o1 out1 t2 i2 o2 out2 H1 H2 Hp. apply precedes_snoc in Hp as [Hp|[Hp _]]; [eauto|].
        injection Hp as -> -> ->. destruct (Hln _ _ _ _ H2) as [_ [H|[_ H]]]; [lia|congruence].
    - (* acquire *)
      destruct (t_pc s t) eqn:Ep; try discriminate. destruct (t_lock s) eqn:El; [discriminate|]. injection Hst as <-. exists lin.
      destruct Hlk as [Hq Hot]. constructor; cbn [t_q t_lock t_pc t_cnt t_hist]; try assumption.
      + split; [exists o, (q_start o), 0; rewrite fset_same; split; [reflexivity|]; cbn; congruence|].
        intros t' Ht'. rewrite fset_other by assumption. auto.
      + intros t' i' o' out' Hin. destruct (Hln _ _ _ _ Hin) as [H1 [H2|[H2 H3]]]; split; auto. right. split; [exact H2|]. rewrite fset_other by congruence. exact H3.
      + intros t' out. destruct (Nat.eq_dec t' t) as [->|]; [rewrite fset_same; discriminate|rewrite fset_other by assumption; auto].
      + intros t' o'. destruct (Nat.eq_dec t' t) as [->|].
        * rewrite fset_same. intros [H|(l & H)]; [discriminate|injection H as <- _]. auto.
        * rewrite fset_other by assumption. auto.
      + intros t' i' o' H. destruct (Hiv _ _ _ H) as [?|[H1 H2]]; [auto|]. right. split; [exact H1|]. destruct (Nat.eq_dec t' t) as [->|]; [rewrite fset_same; discriminate|rewrite fset_other by assumption; exact H2].
    - (* micro *)
      destruct (t_pc s t) eqn:Ep; try discriminate. destruct (micro (t_q s) l) as [q l'] eqn:Em. injection Hst as <-. exists lin.
      destruct (t_lock s) as [u|] eqn:El; [|exfalso; destruct Hlk as [_ Hot]; specialize (Hot t); rewrite Ep in Hot; exact Hot].
      destruct Hlk as [(o' & l0 & n & Hu & Hn) Hot].
      assert (u = t) as ->. { destruct (Nat.eq_dec t u) as [->|Hne]; [reflexivity|]. exfalso. specialize (Hot t Hne). rewrite Ep in Hot. exact Hot. }
      rewrite Ep in Hu. injection Hu as <- <-. constructor; cbn [t_q t_lock t_pc t_cnt t_hist]; try assumption.
      + split.
        * exists o, l', (S n). rewrite fset_same. split; [reflexivity|]. rewrite iter_last, Hn. exact Em.
        * intros t' Ht'. rewrite fset_other by assumption. auto.
      + intros t' i' o' out' Hin. destruct (Hln _ _ _ _ Hin) as [H1 [H2|[H2 H3]]]; split; auto. right. split; [exact H2|]. rewrite fset_other by congruence. exact H3.
      + intros t' out. destruct (Nat.eq_dec t' t) as [->|]; [rewrite fset_same; discriminate|rewrite fset_other by assumption; auto].
      + intros t' o'. destruct (Nat.eq_dec t' t) as [->|].
        * rewrite fset_same. intros [H|(l1 & H)]; [discriminate|injection H as <- _]. eauto.
        * rewrite fset_other by assumption. auto.
      + intros t' i' o' H. destruct (Hiv _ _ _ H) as [?|[H1 H2]]; [auto|]. right. split; [exact H1|]. destruct (Nat.eq_dec t' t) as [->|]; [rewrite fset_same; discriminate|rewrite fset_other by assumption; exact H2].
    - (* release *)
      destruct (t_pc s t) as [| |o l|] eqn:Ep; try discriminate. destruct l; try discriminate. injection Hst as <-.
      destruct (t_lock s) as [u|] eqn:El; [|exfalso; destruct Hlk as [_ Hot]; specialize (Hot t); rewrite Ep in Hot; exact Hot].
      destruct Hlk as [(o' & l0 & n & Hu & Hn) Hot].
      assert (u = t) as ->. { destruct (Nat.eq_dec t u) as [->|Hne]; [reflexivity|]. exfalso. specialize (Hot t Hne). rewrite Ep in Hot. exact Hot. }
      rewrite Ep in Hu. injection Hu as <- <-. apply micro_done in Hn.
      assert (Hnew : forall o' out', ~ In (t, t_cnt s t, o', out') lin).
      { intros o' out' Hin. destruct (Hln _ _ _ _ Hin) as [_ [H|[_ H]]]; [lia|congruence]. }
      assert (Hrun : q_run q_empty (map lc_op (lin ++ [(t, t_cnt s t, o, out)])) = (map lc_out lin ++ [out], t_q s)).
      { rewrite map_app. cbn [map]. rewrite q_run_app. rewrite Ho. fold (q_of lin). change (lc_op (t, t_cnt s t, o, out)) with o.
        cbn [q_run]. rewrite Hn. reflexivity. }
      exists (lin ++ [(t, t_cnt s t, o, out)]). constructor; cbn [t_q t_lock t_pc t_cnt t_hist].
      + rewrite Hrun, map_app. reflexivity.
      + split; [unfold q_of; rewrite Hrun; reflexivity|]. intros t'. destruct (Nat.eq_dec t' t) as [->|]; [rewrite fset_same; exact Logic.I|rewrite fset_other by assumption; auto].
      + intros t' i' o' out' Hin. apply in_snoc in Hin as [Hin|Hin].
        * destruct (Hln _ _ _ _ Hin) as [H1 [H2|[H2 H3]]]; split; auto. right. split; [exact H2|]. rewrite fset_other by congruence. exact H3.
        * injection Hin as -> -> -> ->. rewrite fset_same. split; [apply Hcl; right; eauto|]. right; auto.
      + intros t' out'. destruct (Nat.eq_dec t' t) as [->|].
        * rewrite fset_same. intros H; injection H as <-. exists o. apply in_snoc. auto.
        * rewrite fset_other by assumption. intros H. destruct (Hrt _ _ H) as (o' & H'). exists o'. apply in_snoc. auto.
      + intros t' o'. destruct (Nat.eq_dec t' t) as [->|].
        * rewrite fset_same. intros [H|(l1 & H)]; discriminate.
        * rewrite fset_other by assumption. auto.
      + intros t' i' out' H. destruct (Hrs _ _ _ H) as [H1 (o' & H2)]. split; [exact H1|]. exists o'. apply in_snoc. auto.
      + intros t' i' o' H. destruct (Hiv _ _ _ H) as [?|[H1 H2]]; [auto|]. right. split; [exact H1|]. destruct (Nat.eq_dec t' t) as [->|]; [rewrite fset_same; discriminate|rewrite fset_other by assumption; exact H2].
      + rewrite map_app. cbn [map]. apply NoDup_app_snoc; [exact Hnd|].
        intros H. apply in_map_iff in H as ([[[t' i'] o'] out'] & E & H). unfold lc_id in E. cbn in E. injection E as -> ->. exact (Hnew _ _ H).
      + intros t1 i1 o1 out1 t2 i2 o2 out2 H1 H2 Hp. destruct (precedes_in _ _ _ Hp) as [Hr _]. destruct (Hrs _ _ _ Hr) as [Hlt (o1' & Hin1)].
        apply in_snoc in H1 as [H1|H1]; [|injection H1 as -> -> -> ->; lia].
        apply in_snoc in H2 as [H2|H2]; [apply precedes_more; eauto|]. rewrite H2. apply precedes_end. exact H1.
    - (* return *)
      destruct (t_pc s t) eqn:Ep; try discriminate. injection Hst as <-. exists lin. constructor; cbn [t_q t_lock t_pc t_cnt t_hist]; try assumption.
      + destruct (t_lock s) as [u|].
        * destruct Hlk as [(o' & l & n & Hu & Hn) Hot]. assert (u <> t) by congruence. split.
          -- exists o', l, n. rewrite fset_other by assumption. auto.
          -- intros t' Ht'. destruct (Nat.eq_dec t' t) as [->|]; [rewrite fset_same; exact Logic.I|rewrite fset_other by assumption; auto].
        * destruct Hlk as [Hq Hot]. split; [exact Hq|]. intros t'. destruct (Nat.eq_dec t' t) as [->|]; [rewrite fset_same; exact Logic.I|rewrite fset_other by assumption; auto].
      + intros t' i' o' out' Hin. destruct (Hln _ _ _ _ Hin) as [H1 H2]. split; [apply in_or_app; auto|]. destruct (Nat.eq_dec t' t) as [->|].
        * rewrite fset_same. left. destruct H2 as [H2|[H2 _]]; lia.
        * rewrite !fset_other by assumption. exact H2.
      + intros t' out'. destruct (Nat.eq_dec t' t) as [->|]; [rewrite fset_same; discriminate|rewrite !fset_other by assumption; auto].
      + intros t' o'. destruct (Nat.eq_dec t' t) as [->|].
        * rewrite fset_same. intros [H|(l & H)]; discriminate.
        * rewrite !fset_other by assumption. intros H. apply in_snoc. auto.
      + intros t' i' out' H. apply in_snoc in H as [H|H].
        * destruct (Hrs _ _ _ H) as [H1 H2]. split; [|exact H2]. destruct (Nat.eq_dec t' t) as [->|]; [rewrite fset_same; lia|rewrite fset_other by assumption; exact H1].
        * injection H as -> -> ->. rewrite fset_same. split; [lia|]. apply Hrt. exact Ep.
      + intros t' i' o' H. apply in_snoc in H as [H|H]; [|discriminate]. destruct (Nat.eq_dec t' t) as [->|].
        * rewrite fset_same. left. destruct (Hiv _ _ _ H) as [?|[? _]]; lia.
        * rewrite !fset_other by assumption. exact (Hiv _ _ _ H).
      + intros t1 i1 o1 out1 t2 i2 o2 out2 H1 H2 Hp. apply precedes_snoc in Hp as [Hp|[Hp _]]; [eauto|discriminate].
  Qed.

  Lemma inv_exec ls : forall s lin s', inv s lin -> t_exec true s ls = Some s' -> exists lin', inv s' lin'.
  Proof.
    induction ls as [|l ls IH]; intros s lin s' Hi; cbn [t_exec]; [intros H; injection H as <-; eauto|].
    destruct (t_step true s l) as [s1|] eqn:E; [|discriminate]. intros H. destruct (inv_step _ _ _ _ Hi E) as (lin1 & Hi1). eauto.
  Qed.

  Lemma threads_linearizable ls s : t_exec true t_init ls = Some s -> @linearizable I (t_hist s).
  Proof.
    intros H. destruct (inv_exec _ _ _ _ inv_init H) as (lin & [Ho Hlk Hln Hrt Hcl Hrs Hiv Hnd Hord]). exists lin.
    split; [exact Hnd|]. split; [exists (q_of lin); rewrite <- Ho; apply queue_spec|]. split.
    - intros t i out Hr. destruct (Hrs _ _ _ Hr) as [_ (o & Hin)]. exists o. split; [|exact Hin]. apply Hln in Hin. apply Hin.
    - split; [|exact Hord]. intros t i o out Hin. apply Hln in Hin. apply Hin.
  Qed.
End Lin.

(** ** no call waits for ever *)
Section Progress.
  Context {I : Type}.

  Lemma t_exec_app locked (a b : list (tlabel I)) : forall s, t_exec locked s (a ++ b) = match t_exec locked s a with Some s' => t_exec locked s' b | None => None end.
  Proof. induction a as [|l a IH]; intros s; [reflexivity|]. cbn [app t_exec]. destruct (t_step locked s l); [apply IH|reflexivity]. Qed.

  Lemma run_micro n : forall (s : tstate I) t o l, t_pc s t = PIn o l ->
    exists s', t_exec true s (repeat (TMicro t) n) = Some s' /\ (t_q s', snd (iter n (t_q s, l))) = iter n (t_q s, l) /\
      t_pc s' t = PIn o (snd (iter n (t_q s, l))) /\ t_lock s' = t_lock s /\ forall u, u <> t -> t_pc s' u = t_pc s u.
  Proof.
    induction n as [|n IH]; intros s t o l Hp; cbn [repeat t_exec].
    - exists s. repeat split; auto.
    - cbn [t_step]. rewrite Hp. destruct (micro (t_q s) l) as [q l'] eqn:Em.
      set (s1 := TS q (t_lock s) (fset (t_pc s) t (PIn o l')) (t_cnt s) (t_hist s)).
      destruct (IH s1 t o l') as (s' & H1 & H2 & H3 & H4 & H5); [apply fset_same|].
      exists s'. split; [exact H1|]. cbn [iter]. unfold mstep. cbn [fst snd]. rewrite Em. split; [exact H2|]. split; [exact H3|]. split; [exact H4|].
      intros u Hu. rewrite H5 by exact Hu. apply fset_other. exact Hu.
  Qed.

  (** the holder of the lock can finish *)
  Lemma run_out (s : tstate I) lin t o l : inv s lin -> t_pc s t = PIn o l ->
    exists ls s' out, t_exec true s ls = Some s' /\ t_lock s' = None /\ t_pc s' t = PRet out /\ forall u, u <> t -> t_pc s' u = t_pc s u.
  Proof.
    intros Hi Hp. destruct Hi as [_ Hlk _ _ _ _ _ _ _].
    destruct (t_lock s) as [u|] eqn:El; [|exfalso; destruct Hlk as [_ Hot]; specialize (Hot t); rewrite Hp in Hot; exact Hot].
    destruct Hlk as [(o' & l0 & n & Hu & Hn) Hot].
    assert (u = t) as ->. { destruct (Nat.eq_dec t u) as [->|Hne]; [reflexivity|]. exfalso. specialize (Hot t Hne). rewrite Hp in Hot. exact Hot. }
    rewrite Hp in Hu. injection Hu as <- <-.
    destruct (micro_ok (q_of lin) o) as (m & Hm).
    assert (E : iter m (t_q s, l) = (snd (q_step (q_of lin) o), LDone (fst (q_step (q_of lin) o)))).
    { rewrite <- Hn, <- iter_add. replace (n + m) with (m + n) by lia. rewrite iter_add, Hm. apply iter_done. }
    destruct (run_micro m s t o l Hp) as (s1 & H1 & H2 & H3 & H4 & H5). rewrite E in H3. cbn [snd] in H3.
    exists (repeat (TMicro t) m ++ [TRelease t]). rewrite t_exec_app, H1. cbn [t_exec t_step]. rewrite H3.
    eexists _, _. split; [reflexivity|]. split; [reflexivity|]. cbn [t_pc]. split; [apply fset_same|].
    intros v Hv. rewrite fset_other by exact Hv. apply H5. exact Hv.
  Qed.

  Lemma can_return ls (s : tstate I) t : t_exec true t_init ls = Some s -> t_pc s t <> PIdle ->
    exists ls' s', t_exec true s ls' = Some s' /\ t_pc s' t = PIdle.
  Proof.
    intros He Hp. destruct (inv_exec _ _ _ _ inv_init He) as (lin & Hi). clear He ls.
    assert (Hret : forall (s' : tstate I) out, t_pc s' t = PRet out -> exists s'', t_exec true s' [TReturn t] = Some s'' /\ t_pc s'' t = PIdle).
    { intros s' out H. cbn [t_exec t_step]. rewrite H. eexists. split; [reflexivity|]. apply fset_same. }
    assert (Hin : forall (s : tstate I) lin o l, inv s lin -> t_pc s t = PIn o l -> exists ls' s', t_exec true s ls' = Some s' /\ t_pc s' t = PIdle).
    { clear s lin Hi Hp. intros s lin o l Hi Hp. destruct (run_out s lin t o l Hi Hp) as (l1 & s1 & out & H1 & _ & H2 & _).
      destruct (Hret _ _ H2) as (s2 & H3 & H4). exists (l1 ++ [TReturn t]), s2. rewrite t_exec_app, H1. auto. }
    destruct (t_pc s t) as [|o|o l|out] eqn:Ep; [congruence| |eauto|].
    - assert (Hfree : exists l1 s1 lin1, t_exec true s l1 = Some s1 /\ inv s1 lin1 /\ t_lock s1 = None /\ t_pc s1 t = PCalled o).
      { destruct (t_lock s) as [u|] eqn:El; [|exists [], s, lin; auto].
        pose proof (i_lock _ _ Hi) as Hlk. rewrite El in Hlk. destruct Hlk as [(o' & l0 & n & Hu & _) _].
        destruct (run_out s lin u o' l0 Hi Hu) as (l1 & s1 & out & H1 & H2 & _ & H4).
        destruct (inv_exec _ _ _ _ Hi H1) as (lin1 & Hi1). exists l1, s1, lin1. split; [exact H1|]. split; [exact Hi1|]. split; [exact H2|]. rewrite H4; congruence. }
      destruct Hfree as (l1 & s1 & lin1 & H1 & Hi1 & Hl1 & Hp1).
      destruct (t_step true s1 (TAcquire t)) as [s2|] eqn:E2; [|cbn [t_step] in E2; rewrite Hp1, Hl1 in E2; discriminate].
      destruct (inv_step _ _ _ _ Hi1 E2) as (lin2 & Hi2).
      assert (Hp2 : t_pc s2 t = PIn o (q_start o)) by (cbn [t_step] in E2; rewrite Hp1, Hl1 in E2; injection E2 as <-; apply fset_same).
      destruct (Hin s2 lin2 o _ Hi2 Hp2) as (l3 & s3 & H3 & H4). exists (l1 ++ TAcquire t :: l3), s3. rewrite t_exec_app, H1. cbn [t_exec]. rewrite E2. auto.
    - destruct (Hret s out Ep) as (s' & H1 & H2). eauto.
  Qed.
End Progress.

(** ** counting items: no queue gives back more of an item than was pushed *)
Section Count.
  Definition is_push (x : nat) (o : qop nat) : nat := match o with QPush y _ => if Nat.eqb y x then 1 else 0 | _ => 0 end.
  Definition is_pop (x : nat) (o : qop nat) (out : qout nat) : nat :=
    match o, out with QPop, OItem (Ok y) => if Nat.eqb y x then 1 else 0 | _, _ => 0 end.
  Definition in_bag (x : nat) (b : list (skey * nat)) : nat := length (filter (fun e => Nat.eqb (snd e) x) b).

  Lemma in_bag_perm x b b' : Permutation b b' -> in_bag x b = in_bag x b'.
  Proof.
    unfold in_bag. induction 1 as [|e l l' H IH|e f l|l l' l'' H1 IH1 H2 IH2]; cbn [filter]; [reflexivity| | |congruence].
    - destruct (Nat.eqb (snd e) x); cbn [length]; congruence.
    - destruct (Nat.eqb (snd e) x), (Nat.eqb (snd f) x); reflexivity.
  Qed.
  Lemma step_count x b o out b' : spec_step b o out b' -> in_bag x b' + is_pop x o out = in_bag x b + is_push x o.
  Proof.
    destruct 1 as [b b' y k HP|b b' y k _ _ HP| |b b' y k _ _ HP| |b b' HP]; cbn [is_pop is_push]; try (rewrite (in_bag_perm x _ _ HP)); try lia;
      unfold in_bag; cbn [filter snd]; destruct (Nat.eqb y x); cbn [length]; lia.
  Qed.
  Fixpoint sum (l : list nat) : nat := match l with [] => 0 | a :: l => a + sum l end.
  Lemma run_count x b ops outs b' : spec_run b ops outs b' ->
    in_bag x b' + sum (map (fun c => is_pop x (fst c) (snd c)) (combine ops outs)) = in_bag x b + sum (map (is_push x) ops).
  Proof.
    induction 1 as [b|b1 b2 b3 op out ops outs Hs Hr IH]; cbn; [lia|]. pose proof (step_count x _ _ _ _ Hs). lia.
  Qed.

  Lemma lin_count x (lin : list (@lcall nat)) h : explains lin h ->
    sum (map (fun c => is_pop x (lc_op c) (lc_out c)) lin) <= sum (map (fun c => is_push x (lc_op c)) lin).
  Proof.
    intros (_ & (b & Hr) & _). pose proof (run_count x _ _ _ _ Hr) as H. cbn in H.
    assert (E1 : forall l : list (@lcall nat), map (fun c => is_pop x (fst c) (snd c)) (combine (map lc_op l) (map lc_out l)) = map (fun c => is_pop x (lc_op c) (lc_out c)) l).
    { induction l as [|c l IH]; cbn; [reflexivity|]. f_equal. exact IH. }
    rewrite E1 in H. rewrite map_map in H. lia.
  Qed.

  (** a sum over calls with distinct ids of which only [id] counts *)
  Lemma sum_one {A} (f : A -> nat) (id : A -> nat * nat) a l : NoDup (map id l) -> (forall c, In c l -> f c <= 1 /\ (f c = 1 -> id c = a)) -> sum (map f l) <= 1.
  Proof.
    induction l as [|c l IH]; cbn [map sum]; [lia|]. intros Hn H. inversion Hn as [|? ? Hni Hn']; subst.
    destruct (H c (or_introl eq_refl)) as [H1 H2]. specialize (IH Hn' (fun x Hx => H x (or_intror Hx))).
    destruct (Nat.eq_dec (f c) 1) as [E|E]; [|lia]. specialize (H2 E).
    assert (sum (map f l) = 0); [|lia].
    assert (Hz : forall x, In x l -> f x = 0).
    { intros x Hx. destruct (H x (or_intror Hx)) as [H3 H4]. destruct (Nat.eq_dec (f x) 1) as [E'|E']; [|lia]. exfalso. apply Hni. rewrite H2, <- (H4 E'). apply in_map. exact Hx. }
    clear - Hz. induction l as [|x l IH]; [reflexivity|]. cbn. rewrite (Hz x (or_introl eq_refl)). apply IH. intros y Hy; apply Hz; right; exact Hy.
  Qed.
  Lemma sum_ge {A} (f : A -> nat) l a b : In a l -> In b l -> a <> b -> f a = 1 -> f b = 1 -> 2 <= sum (map f l).
  Proof.
    intros Ha Hb Hab Fa Fb. apply in_split in Ha as (l1 & l2 & ->).
    assert (Hb' : In b (l1 ++ l2)) by (apply in_app_or in Hb as [H|[H|H]]; [apply in_or_app; auto|congruence|apply in_or_app; auto]).
    assert (Es : forall x y, sum (map f (x ++ y)) = sum (map f x) + sum (map f y)) by (induction x as [|c x IH]; intros y; cbn; [reflexivity|rewrite IH; lia]).
    assert (H1 : 1 <= sum (map f (l1 ++ l2))).
    { clear - Hb' Fb. induction (l1 ++ l2) as [|c l IH]; [destruct Hb'|]. cbn. destruct Hb' as [->|H]; [lia|]. specialize (IH H). lia. }
    rewrite Es in *. cbn [map sum]. lia.
  Qed.
End Count.

(** ** message numbers *)
Local Open Scope Z_scope.

(** the schedule in which messages are made one after the other, by these threads *)
Definition one_by_one (us : list nat) : list nat := flat_map (fun t => [t; t; t]) us.
Fixpoint numbered (n : Z) (us : list nat) : list (nat * Z) :=
  match us with [] => [] | t :: us => (t, n + 1) :: numbered (n + 1) us end.

Lemma one_by_one_numbers us : forall s, (forall t, ms_pc s t = MIdle) ->
  ms_made (fold_left ms_step (one_by_one us) s) = ms_made s ++ numbered (ms_num s) us.
Proof.
  induction us as [|t us IH]; intros s Hs; [cbn; rewrite app_nil_r; reflexivity|].
  change (one_by_one (t :: us)) with ([t; t; t] ++ one_by_one us). rewrite fold_left_app.
  assert (E : exists f, (forall u, f u = MIdle) /\ fold_left ms_step [t; t; t] s = MS (ms_num s + 1) f (ms_made s ++ [(t, ms_num s + 1)])).
  { cbn [fold_left]. unfold ms_step at 3. rewrite (Hs t). unfold ms_step at 2. cbn [ms_pc ms_num ms_made]. rewrite fset_same.
    unfold ms_step. cbn [ms_pc ms_num ms_made]. rewrite fset_same. eexists. split; [|reflexivity].
    intros u. destruct (Nat.eq_dec u t) as [->|]; [apply fset_same|]. rewrite !fset_other by assumption. apply Hs. }
  destruct E as (f & Hf & ->). rewrite IH by exact Hf. cbn [ms_made ms_num numbered]. rewrite <- app_assoc. reflexivity.
Qed.
Lemma numbered_gt n us : Forall (fun x => n < snd x) (numbered n us).
Proof.
  revert n; induction us as [|t us IH]; intros n; cbn; constructor; [cbn; lia|]. eapply Forall_impl; [|apply IH]. intros x H. cbn in *. lia.
Qed.
Lemma numbered_sorted n us : StronglySorted Z.lt (map snd (numbered n us)).
Proof.
  revert n; induction us as [|t us IH]; intros n; cbn; constructor; [apply IH|]. apply Forall_forall. intros x Hx. apply in_map_iff in Hx as (y & <- & Hy).
  pose proof (numbered_gt (n + 1) us) as H. rewrite Forall_forall in H. exact (H y Hy).
Qed.

(** ** pushing *)
Lemma nth_upd {A} (h : list A) : forall i j x d, i <> j -> nth i (upd h j x) d = nth i h d.
Proof. induction h as [|a h IH]; intros [|i] [|j] x d H; cbn; try reflexivity; [congruence|apply IH; congruence]. Qed.
Lemma upd_upd {A} (h : list A) : forall i x y, upd (upd h i x) i y = upd h i y.
Proof. induction h as [|a h IH]; intros [|i] x y; cbn; [reflexivity|reflexivity|reflexivity|f_equal; apply IH]. Qed.

Lemma siftdown_x_ok {I} fuel : forall (h : list (skey * I)) pos new, (forall i, (i < pos)%nat -> fst (nth i h new) <> fst new) ->
  siftdown_x fuel (upd h pos new) pos new = (Ok tt, siftdown entry_ltb fuel h pos new).
Proof.
  induction fuel as [|f IH]; intros h pos new Hd; cbn [siftdown_x siftdown]; [rewrite upd_upd; reflexivity|].
  destruct (Nat.ltb_spec 0 pos) as [H|H]; [|rewrite upd_upd; reflexivity].
  pose proof (div2_lt pos H) as Hlt. rewrite nth_upd by lia. set (pp := Nat.div2 (pos - 1)) in *. specialize (Hd pp Hlt) as Hpp.
  unfold entry_ltb at 1, entry_cmp. destruct (key_ltb (fst new) (fst (nth pp h new))) eqn:E1.
  - rewrite upd_upd. rewrite IH; [reflexivity|]. intros i Hi. rewrite nth_upd by lia. apply Hd. lia.
  - destruct (key_ltb (fst (nth pp h new)) (fst new)) eqn:E2; [rewrite upd_upd; reflexivity|].
    exfalso. apply Hpp. symmetry. apply key_total; apply key_ltb_false; assumption.
Qed.

Lemma upd_end {A} (h : list A) x y : upd (h ++ [x]) (length h) y = h ++ [y].
Proof. induction h as [|a h IH]; cbn; [reflexivity|f_equal; exact IH]. Qed.

Lemma heappush_x_ok {I} (h : list (skey * I)) x : ~ In (fst x) (map fst h) -> heappush_x h x = (Ok tt, heappush entry_ltb h x).
Proof.
  intros Hn. unfold heappush_x, heappush. rewrite <- (upd_end h x x) at 1. apply siftdown_x_ok.
  intros i Hi He. apply Hn. rewrite app_nth1 in He by exact Hi. rewrite <- He. apply in_map. apply nth_In. exact Hi.
Qed.
