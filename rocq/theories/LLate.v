(** How late callbacks start (C95). *)
From Coq Require Import Permutation Sorted.
From Verif Require Import PyBase PyHeap MQueue SQueue LQueue MLoop LLoop SLate.
Open Scope Z_scope.

Section L.
  Context {C W O : Type}.
  Context (h : handler C W O) (w : msg C -> Z) (lat : Z).
  Implicit Types s : lstate C W.

  (** [due]: when the loop looks at its queue next *)
  Definition busy (due : Z) s : Prop := exists x m t b,
    l_log s = x ++ (m, t) :: b /\ due <= m_time m + lat + work w ((m, t) :: b).
  Definition asleep (due : Z) s : Prop :=
    (forall m, l_mode s <> Running m) /\ forall m, In m (held s) -> due <= m_time m + lat.
  Definition TI (due : Z) s : Prop := waits w lat (l_log s) /\ (busy due s \/ asleep due s).

  Lemma work_app a b : work w (a ++ b) = work w a + work w b.
  Proof. unfold work. induction a as [|x a IH]; cbn [app fold_right]; lia. Qed.

  Lemma waits_snoc log m t : waits w lat log ->
    (exists x b, log = x ++ b /\ t <= m_time (hd m (map fst b)) + lat + work w b) -> waits w lat (log ++ [(m, t)]).
  Proof.
    intros H Hm a m' t' z E. destruct (@exists_last _ ((m', t') :: z)) as (z' & e & Ez); [discriminate|].
    rewrite Ez, app_assoc in E. apply app_inj_tail in E as [E1 <-]. destruct z' as [|y z'].
    - cbn in Ez. injection Ez as -> -> ->. rewrite app_nil_r in E1. subst a. exact Hm.
    - cbn in Ez. injection Ez as <- ->. eapply H. exact E1.
  Qed.

  (** steps that change neither the log nor the messages *)
  Lemma TI_same due s s' : TI due s -> l_log s' = l_log s -> (forall m, In m (held s') -> In m (held s)) ->
    (forall m, l_mode s' = Running m -> l_mode s = Running m) -> TI due s'.
  Proof.
    intros [H1 H2] El Hq Hm. split; [rewrite El; exact H1|]. destruct H2 as [(x & m & t & b & E & Hd)|[Hr Hd]].
    - left. exists x, m, t, b. rewrite El. auto.
    - right. split; [|intros m Hin; apply Hd, Hq, Hin]. intros m E. eapply Hr, Hm, E.
  Qed.

  Lemma held_leave s : in_hand s = [] -> held (leave s) = held s.
  Proof. intros E. unfold held. rewrite E. unfold leave, in_hand, queued. destruct (l_stop s); reflexivity. Qed.
  Lemma log_leave s : l_log (leave s) = l_log s.
  Proof. unfold leave. destruct (l_stop s); reflexivity. Qed.
  Lemma mode_leave s : l_mode (leave s) = Idle.
  Proof. unfold leave. destruct (l_stop s); reflexivity. Qed.

  Definition next_due (due : Z) (l : label C O) s' : Z :=
    match l with
    | LTurn now _ => match l_mode s' with Running m => now + w m | Arming m => m_time m + lat | _ => due end
    | _ => due
    end.

  Lemma do_stop_fields s : l_log (do_stop s) = l_log s /\ l_mode (do_stop s) = l_mode s /\ l_q (do_stop s) = l_q s.
  Proof. unfold do_stop. destruct (l_stop s); auto. Qed.

  Lemma log_acts acts : forall s, l_log (fold_left (fun st a => do_act a st) acts s) = l_log s.
  Proof. induction acts as [|a acts IH]; intros s; cbn [fold_left]; [reflexivity|]. rewrite IH. apply log_do_act. Qed.

  Lemma TI_step due s l s' : inv s -> TI due s -> no_push l -> match l with LTurn now _ => now <= due | _ => True end ->
    l_step h s l = Some s' -> TI (next_due due l s') s'.
  Proof.
    intros Hi HT Hp Hn Hs. pose proof HT as [H1 H2]. unfold l_step in Hs.
    destruct l as [| | | |now ex| |o|a|]; cbn [next_due]; destruct (l_mode s) eqn:Em; try discriminate.
    - destruct (l_async s); [|discriminate]. injection Hs as <-. apply (TI_same due s); cbn; auto; try discriminate.
      unfold held, in_hand, queued. cbn. rewrite Em. auto.
    - destruct (l_timer s); [|discriminate]. injection Hs as <-. apply (TI_same due s); cbn; auto; try discriminate.
      unfold held, in_hand, queued. cbn. rewrite Em. auto.
    - destruct (l_sig s); [|discriminate]. injection Hs as <-. destruct (do_stop_fields (set_sig false s)) as (E1 & E2 & E3).
      apply (TI_same due s); auto; unfold held, in_hand, queued; rewrite ?E1, ?E2, ?E3; cbn; auto.
    - injection Hs as <-. apply (TI_same due s); cbn; auto.
    - injection Hs as <-. apply (TI_same due s); cbn; auto.
    - injection Hs as <-. apply (TI_same due s); cbn; auto.
    - injection Hs as <-. apply (TI_same due s); cbn; auto.
    - (* turn *)
      injection Hs as <-. unfold check_turn.
      assert (Hq0 : held s = queued s) by (unfold held, in_hand; rewrite Em; reflexivity).
      destruct (l_stop s) eqn:Est.
      { rewrite mode_leave. apply (TI_same due s); [exact HT| | |].
        - apply log_leave.
        - rewrite held_leave by (unfold in_hand; rewrite Em; reflexivity). auto.
        - rewrite mode_leave. discriminate. }
      destruct (pop_q_ok (l_q s) (i_heap _ Hi) (i_keys _ Hi)) as [[Eq Ep]|(m & q' & Ep & _ & _ & Hperm & Hmin)]; rewrite Ep.
      { rewrite mode_leave. apply (TI_same due s); [exact HT| | |].
        - rewrite log_leave. reflexivity.
        - rewrite held_leave by (unfold in_hand; cbn; rewrite Em; reflexivity). unfold held, in_hand, queued; cbn. rewrite Em. auto.
        - rewrite mode_leave. discriminate. }
      assert (Hin : forall m', In m' (map snd q') -> In m' (queued s)).
      { intros m' Hm. unfold queued. rewrite Hperm. right; exact Hm. }
      assert (Hinm : In m (queued s)) by (unfold queued; rewrite Hperm; left; reflexivity).
      destruct (Z.ltb_spec now (m_time m)).
      + destruct ex.
        * rewrite mode_leave. destruct (do_stop_fields (set_q q' s)) as (E1 & E2 & E3).
          apply (TI_same due s); [exact HT| | |].
          -- rewrite log_leave, E1. reflexivity.
          -- rewrite held_leave by (unfold in_hand; rewrite E2; cbn; rewrite Em; reflexivity).
             unfold held, in_hand, queued. rewrite E2, E3. cbn. rewrite Em. exact Hin.
          -- rewrite mode_leave. discriminate.
        * cbn. split; [exact H1|]. right. split; [discriminate|]. unfold held, in_hand, queued. cbn.
          intros m' [<-|Hm]; [lia|]. assert (m_time m <= m_time m'); [|lia]. apply key_nlt_time, Hmin, Hin, Hm.
      + cbn. destruct H2 as [(x & m0 & t0 & b & E & Hd)|[Hr Hd]].
        * split.
          -- apply waits_snoc; [exact H1|]. exists x, ((m0, t0) :: b). split; [exact E|]. cbn [map fst hd]. lia.
          -- left. exists x, m0, t0, (b ++ [(m, now)]). split; [cbn; rewrite E, <- app_assoc; reflexivity|].
             rewrite app_comm_cons, work_app. unfold work at 2. cbn [fold_right fst]. lia.
        * assert (Hdm : due <= m_time m + lat) by (apply Hd; rewrite Hq0; exact Hinm). split.
          -- apply waits_snoc; [exact H1|]. exists (l_log s), []. rewrite app_nil_r. split; [reflexivity|]. cbn. lia.
          -- left. exists (l_log s), m, now, []. split; [reflexivity|]. unfold work. cbn [fold_right fst]. lia.
    - (* arm *)
      injection Hs as <-. unfold arm.
      destruct (push_q_ok (l_q s) m (i_heap _ Hi) (i_keys _ Hi)) as (_ & _ & Hperm).
      apply (TI_same due s); [exact HT| | |].
      + rewrite log_leave. reflexivity.
      + intros m' Hm. unfold held, in_hand in Hm. rewrite mode_leave in Hm. cbn [app] in Hm.
        assert (Hm' : In m' (map snd (q_push (l_q s) m (sort_key m)))).
        { unfold queued, leave in Hm. destruct (l_stop _); exact Hm. }
        rewrite Hperm in Hm'. unfold held, in_hand. rewrite Em. exact Hm'.
      + rewrite mode_leave. discriminate.
    - (* done *)
      injection Hs as <-. destruct H2 as [(x & m0 & t0 & b & E & Hd)|[Hr _]]; [|exfalso; eapply Hr, Em].
      unfold finish. destruct (h (m_cb m) o (l_w s)) as [[w' acts] x'].
      assert (El : l_log (match x' with None => fold_left (fun st a => do_act a st) acts (set_w w' s)
                  | Some x0 => do_stop (set_exc (Some x0) (add_raised x0 (fold_left (fun st a => do_act a st) acts (set_w w' s)))) end) = l_log s).
      { destruct x' as [x0|]; [rewrite (proj1 (do_stop_fields _)); cbn|]; rewrite log_acts; reflexivity. }
      split; [cbn [set_mode l_log]; rewrite El; exact H1|]. left. exists x, m0, t0, b. split; [cbn [set_mode l_log]; rewrite El; exact E|exact Hd].
    - destruct a; [destruct Hp|]. injection Hs as <-. cbn [do_act]. destruct (do_stop_fields s) as (E1 & E2 & E3).
      apply (TI_same due s); auto; unfold held, in_hand, queued; rewrite ?E1, ?E2, ?E3; auto.
    - destruct a; [destruct Hp|]. injection Hs as <-. cbn [do_act]. destruct (do_stop_fields s) as (E1 & E2 & E3).
      apply (TI_same due s); auto; unfold held, in_hand, queued; rewrite ?E1, ?E2, ?E3; auto.
    - destruct a; [destruct Hp|]. injection Hs as <-. cbn [do_act]. destruct (do_stop_fields s) as (E1 & E2 & E3).
      apply (TI_same due s); auto; unfold held, in_hand, queued; rewrite ?E1, ?E2, ?E3; auto.
    - destruct a; [destruct Hp|]. injection Hs as <-. cbn [do_act]. destruct (do_stop_fields s) as (E1 & E2 & E3).
      apply (TI_same due s); auto; unfold held, in_hand, queued; rewrite ?E1, ?E2, ?E3; auto.
    - destruct (l_uvstop s); [|discriminate]. injection Hs as <-. apply (TI_same due s); cbn; auto; try discriminate.
      unfold held, in_hand, queued. cbn. rewrite Em. auto.
  Qed.

  Lemma TI_exec ls : forall due s s', inv s -> TI due s -> Forall no_push ls -> in_time h w lat due s ls ->
    l_exec h s ls = Some s' -> waits w lat (l_log s').
  Proof.
    induction ls as [|l ls IH]; intros due s s' Hi HT Hp Ht Hex; cbn [l_exec] in Hex.
    - injection Hex as <-. apply HT.
    - destruct (l_step h s l) as [s1|] eqn:Es; [|discriminate]. cbn [in_time] in Ht. rewrite Es in Ht. destruct Ht as [Hn Ht].
      apply Forall_cons_iff in Hp as [Hp Hps].
      eapply (IH (next_due due l s1) s1); try eassumption.
      + eapply inv_step; eassumption.
      + eapply TI_step; eassumption.
  Qed.

  Lemma late_waits due s0 s ls : inv s0 -> l_log s0 = [] -> (forall m, l_mode s0 <> Running m) ->
    (forall m, In m (held s0) -> due <= m_time m + lat) -> Forall no_push ls -> in_time h w lat due s0 ls ->
    l_exec h s0 ls = Some s -> waits w lat (l_log s).
  Proof.
    intros Hi El Hm Hd Hp Ht Hex. eapply TI_exec; try eassumption. split.
    - intros a m t z E. rewrite El in E. destruct a; discriminate.
    - right. split; assumption.
  Qed.
End L.

(** counting *)
Section Count.
  Context {C : Type}.
  Context (w : msg C -> Z) (kind : msg C -> nat).
  Implicit Types log b : list (msg C * Z).

  Notation of_kind := (of_kind kind).

  Lemma of_kind_app k a b : of_kind k (a ++ b) = of_kind k a ++ of_kind k b.
  Proof. unfold of_kind. rewrite filter_app, map_app. reflexivity. Qed.

  Lemma spaced_count T l lo hi : 0 < T -> spaced T l -> (forall x, In x l -> lo <= x <= hi) -> lo <= hi ->
    Z.of_nat (length l) <= (hi - lo) / T + 1.
  Proof.
    intros HT Hs Hl Hlo. destruct l as [|a l]; [cbn; pose proof (Z.div_pos (hi - lo) T); lia|].
    assert (G : forall l a, spaced T (a :: l) -> (forall x, In x (a :: l) -> x <= hi) -> Z.of_nat (length l) * T <= hi - a).
    { clear - HT. induction l as [|b l IH]; intros a Hs Hl.
      - cbn. specialize (Hl a (or_introl eq_refl)). lia.
      - inversion Hs as [|? ? Hs' Hf]; subst. apply Forall_inv in Hf. specialize (IH b Hs' (fun x Hx => Hl x (or_intror Hx))).
        cbn [length]. lia. }
    specialize (G l a Hs (fun x Hx => proj2 (Hl x Hx))). destruct (Hl a (or_introl eq_refl)) as [Ha _].
    cbn [length]. assert (Z.of_nat (length l) <= (hi - lo) / T); [|lia]. apply Z.div_le_lower_bound; lia.
  Qed.

  (** work by kind *)
  Fixpoint by_kind (k : nat) (tasks : list (Z * Z)) b : Z :=
    match tasks with
    | [] => 0
    | (c, _) :: tasks' => c * Z.of_nat (length (of_kind k b)) + by_kind (S k) tasks' b
    end.

  Lemma by_kind_cons x b tasks : forall k, by_kind k tasks (x :: b) =
    by_kind k tasks b + (if Nat.leb k (kind (fst x)) then match nth_error tasks (kind (fst x) - k) with Some (c, _) => c | None => 0 end else 0).
  Proof.
    induction tasks as [|[c T] tasks IH]; intros k; cbn [by_kind].
    - destruct (Nat.leb_spec k (kind (fst x))); [|lia]. destruct (kind (fst x) - k)%nat; cbn; lia.
    - rewrite IH. unfold of_kind at 1. cbn [filter]. destruct (Nat.eqb_spec (kind (fst x)) k) as [E|E].
      + cbn [map length]. fold (of_kind k b). rewrite E, Nat.leb_refl, Nat.sub_diag. cbn [nth_error].
        destruct (Nat.leb_spec (S k) k); [lia|]. unfold of_kind. lia.
      + fold (of_kind k b). destruct (Nat.leb_spec (S k) (kind (fst x))), (Nat.leb_spec k (kind (fst x))); try lia.
        replace (kind (fst x) - k)%nat with (S (kind (fst x) - S k)) by lia. cbn [nth_error]. lia.
  Qed.

  Lemma work_by_kind tasks b : (forall x, In x b -> exists c T, nth_error tasks (kind (fst x)) = Some (c, T) /\ w (fst x) <= c) ->
    work w b <= by_kind 0 tasks b.
  Proof.
    induction b as [|x b IH]; intros H.
    - unfold work. cbn. assert (forall k, by_kind k tasks [] = 0) as ->; [|lia].
      induction tasks as [|[c T] tasks IHt]; intros k; cbn [by_kind]; [reflexivity|]. unfold of_kind. cbn. rewrite IHt; [lia|]. intros x [].
    - rewrite by_kind_cons. cbn [Nat.leb]. rewrite Nat.sub_0_r.
      destruct (H x (or_introl eq_refl)) as (c & T & E & Hc). rewrite E. unfold work in *. cbn [fold_right].
      specialize (IH (fun y Hy => H y (or_intror Hy))). lia.
  Qed.

  Lemma by_kind_le tasks b L : forall k,
    (forall j c T, nth_error tasks j = Some (c, T) -> 0 <= c /\ Z.of_nat (length (of_kind (k + j) b)) <= L / T + 1) ->
    by_kind k tasks b <= demand tasks L + one_each tasks.
  Proof.
    induction tasks as [|[c T] tasks IH]; intros k H; cbn [by_kind]; unfold demand, one_each in *; cbn [fold_right fst snd]; [lia|].
    specialize (IH (S k)). destruct (H 0%nat c T eq_refl) as [Hc Hn]. rewrite Nat.add_0_r in Hn.
    assert (by_kind (S k) tasks b <= fold_right (fun p acc => fst p * (L / snd p) + acc) 0 tasks + fold_right (fun p acc => fst p + acc) 0 tasks).
    { apply IH. intros j c' T' Hj. replace (S k + j)%nat with (k + S j)%nat by lia. apply (H (S j) c' T' Hj). }
    nia.
  Qed.

  Lemma spaced_app_r T (a b : list Z) : spaced T (a ++ b) -> spaced T b.
  Proof. unfold spaced. induction a as [|x a IH]; cbn [app]; [auto|]. intros H. inversion H; auto. Qed.
  Lemma spaced_app_l T (a b : list Z) : spaced T (a ++ b) -> spaced T a.
  Proof.
    unfold spaced. induction a as [|x a IH]; cbn [app]; [constructor|]. intros H. inversion H as [|? ? Hs Hf]; subst.
    constructor; [auto|]. apply Forall_app in Hf. apply Hf.
  Qed.

  Lemma waits_bound lat tasks log : waits w lat log ->
    StronglySorted (fun x y => m_time (fst x) <= m_time (fst y)) log ->
    (forall x, In x log -> exists c T, nth_error tasks (kind (fst x)) = Some (c, T) /\ w (fst x) <= c) ->
    (forall k c T, nth_error tasks k = Some (c, T) -> 0 <= c /\ 0 < T /\ spaced T (of_kind k log)) ->
    fits tasks -> forall m t, In (m, t) log -> t <= m_time m + lat + one_each tasks.
  Proof.
    intros Hw Hs Hk Hsp Hfit m t Hin. apply in_split in Hin as (a & z & E). destruct (Hw a m t z E) as (x & b & Ea & Ht).
    subst a. rewrite <- app_assoc in E.
    assert (Hsb : StronglySorted (fun x y : msg C * Z => m_time (fst x) <= m_time (fst y)) (b ++ (m, t) :: z)).
    { rewrite E in Hs. clear - Hs. induction x as [|y x IH]; [exact Hs|]. cbn [app] in Hs. inversion Hs; auto. }
    set (A := m_time (hd m (map fst b))) in *.
    assert (Hbm : forall y, In y b -> A <= m_time (fst y) <= m_time m).
    { intros y Hy. split.
      - subst A. destruct b as [|y0 b]; [destruct Hy|]. cbn [map hd]. destruct Hy as [<-|Hy]; [lia|].
        cbn [app] in Hsb. inversion Hsb as [|? ? _ Hf]; subst. rewrite Forall_forall in Hf. apply Hf. apply in_or_app; left; exact Hy.
      - clear - Hsb Hy. induction b as [|y0 b IH]; [destruct Hy|]. cbn [app] in Hsb. inversion Hsb as [|? ? Hs' Hf]; subst.
        destruct Hy as [<-|Hy]; [|apply IH; assumption]. rewrite Forall_forall in Hf. apply (Hf (m, t)). apply in_or_app; right; left; reflexivity. }
    assert (HA : A <= m_time m). { subst A. destruct b as [|y0 b]; [cbn; lia|]. cbn [map hd]. apply Hbm. left; reflexivity. }
    assert (Hb : work w b <= demand tasks (m_time m - A) + one_each tasks).
    { eapply Z.le_trans; [apply work_by_kind|apply by_kind_le].
      - intros y Hy. apply Hk. rewrite E. apply in_or_app; right; apply in_or_app; left; exact Hy.
      - intros j c T Hj. destruct (Hsp j c T Hj) as (Hc & HT & Hsj). split; [exact Hc|]. cbn [plus].
        apply spaced_count; try assumption.
        + rewrite E, !of_kind_app in Hsj. eapply spaced_app_l, spaced_app_r. exact Hsj.
        + intros y Hy. unfold of_kind in Hy. apply in_map_iff in Hy as (y' & <- & Hy). apply filter_In in Hy as [Hy _]. apply Hbm, Hy. }
    specialize (Hfit (m_time m - A) ltac:(lia)). lia.
  Qed.

  (** a common period *)
  Lemma fits_period tasks P : 0 < P -> Forall (fun p => 0 <= fst p /\ 0 < snd p /\ (snd p | P)) tasks ->
    demand tasks P <= P -> fits tasks.
  Proof.
    intros HP Hd Hfit L HL. assert (G : P * demand tasks L <= L * demand tasks P); [|nia].
    clear Hfit. unfold demand. induction Hd as [|[c T] tasks (Hc & HT & (q & Hq)) Hd IH]; cbn [fold_right fst snd] in *; [lia|].
    assert (E : P / T = q) by (rewrite Hq; apply Z.div_mul; lia). rewrite E.
    assert (P * (L / T) <= L * q).
    { rewrite Hq. pose proof (Z.mul_div_le L T HT). assert (0 < q) by nia. nia. }
    nia.
  Qed.
End Count.
