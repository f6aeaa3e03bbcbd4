(** The start-up check excludes a second task of the same name. *)
From Verif Require Import PyStr LStr LGate MTasks STasks LTasks.
Open Scope list_scope.
Open Scope Z_scope.

(** [k] still has to look at [j] *)
Definition seen (f : phase) (j : Z) : Prop :=
  match f with
  | PScan todo tasks _ _ => In j todo \/ In j tasks
  | PCompare todo _ => In j todo
  | _ => False
  end.
Definition started (f : phase) : Prop := match f with PNew | PFailed => False | _ => True end.
Definition talker (m : mach) (z : Z) : Prop := exists p, m_live m z = Some p /\ speaks (p_cmd p).
(** pids that will not be taken for an active task *)
Definition hidden (f : phase) (z : Z) : Prop :=
  match f with
  | PScan _ _ parents pp => In z parents \/ z = pp
  | PCompare _ pp => z = pp
  | _ => False
  end.
Record Inv (m : mach) : Prop := {
  i_wf : forall k p, m_live m k = Some p -> p_pid p = k /\ In k (m_used m) /\ In (p_ppid p) (m_used m);
  i_hid : forall k p z, m_live m k = Some p -> hidden (m_phase m k) z -> In z (m_used m) /\ ~ talker m z;
  i_pair : forall j k p q n, j <> k -> m_live m j = Some p -> m_live m k = Some q ->
    p_task p = Some n -> p_task q = Some n -> started (m_phase m j) -> started (m_phase m k) ->
    seen (m_phase m j) k \/ seen (m_phase m k) j }.

(** only the phase of [k] changes *)
Lemma inv_phase m k me f :
  sane m -> Inv m -> m_live m k = Some me ->
  (forall z, hidden f z -> In z (m_used m) /\ ~ talker m z) ->
  (started f -> forall j p n, j <> k -> m_live m j = Some p -> p_task p = Some n -> p_task me = Some n ->
     started (m_phase m j) -> seen f j \/ seen (m_phase m j) k) ->
  Inv (set_phase k f m).
Proof.
  intros Hs [W H P] Hk Hf Hp. unfold set_phase. constructor; cbn [m_live m_phase m_used].
  - exact W.
  - intros a p z Ha Hz. destruct (Z.eqb_spec a k) as [->|]; [|eapply H; eassumption]. apply Hf in Hz. exact Hz.
  - intros a b p q n Hab Ha Hb Ta Tb. destruct (Z.eqb_spec a k) as [->|Na], (Z.eqb_spec b k) as [->|Nb]; try congruence.
    + rewrite Hk in Ha. injection Ha as <-. intros S1 S2. eapply Hp; try eassumption; congruence.
    + rewrite Hk in Hb. injection Hb as <-. intros S1 S2. destruct (Hp S2 a p n Hab Ha Ta Tb S1); tauto.
    + eapply P; eassumption.
Qed.

Lemma inv_step m l m' : sane m -> Inv m -> m_step l m = Some m' -> Inv m'.
Proof.
  intros Hs I. pose proof I as [W H P]. destruct l as [p|k|k q|k|k|k]; cbn [m_step].
  - (* spawn *)
    destruct (memb (p_pid p) (m_used m)) eqn:E; [discriminate|]. intro X. injection X as <-.
    assert (Nu : ~ In (p_pid p) (m_used m)) by (intro Y; apply memb_In in Y; congruence).
    constructor; cbn [m_live m_phase m_used].
    + intros k0 p0. destruct (Z.eqb_spec k0 (p_pid p)) as [->|Nk]; intro Hk.
      * injection Hk as <-. cbn. auto.
      * destruct (W _ _ Hk) as (A & B & C). cbn. auto.
    + intros k0 p0 z. destruct (Z.eqb_spec k0 (p_pid p)) as [->|Nk]; intros Hk Hz; [destruct Hz|].
      destruct (H _ _ _ Hk Hz) as (A & B). split; [cbn; auto|]. intros (pz & Hpz & Hsp). cbn [m_live] in Hpz.
      destruct (Z.eqb_spec z (p_pid p)) as [->|Nz]; [tauto|]. apply B. exists pz. auto.
    + intros a b pa pb n Hab. destruct (Z.eqb_spec a (p_pid p)) as [->|Na]; [cbn; tauto|].
      destruct (Z.eqb_spec b (p_pid p)) as [->|Nb]; [cbn; tauto|]. eapply P; eassumption.
  - (* exit *)
    destruct (m_live m k) as [p|] eqn:E; [|discriminate]. intro X. injection X as <-. unfold set_live. constructor; cbn [m_live m_phase m_used].
    + intros a pa. destruct (Z.eqb_spec a k); [discriminate|]. apply W.
    + intros a pa z. destruct (Z.eqb_spec a k); [discriminate|]. intros Ha Hz. destruct (H _ _ _ Ha Hz) as (A & B). split; [exact A|].
      intros (pz & Hpz & Hsp). cbn [m_live] in Hpz. destruct (Z.eqb_spec z k); [discriminate|]. apply B. exists pz. auto.
    + intros a b pa pb n Hab. destruct (Z.eqb_spec a k); [discriminate|]. destruct (Z.eqb_spec b k); [discriminate|]. eapply P; eassumption.
  - (* another parent *)
    destruct (m_live m k) as [p|] eqn:E; [|discriminate]. destruct (memb q (m_used m)) eqn:U; [|discriminate]. apply memb_In in U.
    intro X. injection X as <-. unfold set_live.
    constructor; cbn [m_live m_phase m_used].
    + intros a pa. destruct (Z.eqb_spec a k) as [->|]; [|apply W]. intro Y. injection Y as <-. cbn [p_pid p_ppid]. destruct (W _ _ E) as (A & B & C). auto.
    + intros a pa z Ha Hz. assert (exists pa', m_live m a = Some pa') as [pa' Ha'] by (destruct (Z.eqb_spec a k) as [->|]; eauto).
      destruct (H _ _ _ Ha' Hz) as (A & B). split; [exact A|]. intros (pz & Hpz & Hsp). cbn [m_live] in Hpz.
      destruct (Z.eqb_spec z k) as [->|]; apply B; [|exists pz; auto]. injection Hpz as <-. exists p. auto.
    + intros a b pa pb n Hab Ha Hb Ta Tb. 
      assert (exists pa', m_live m a = Some pa' /\ p_task pa' = Some n) as (pa' & Ha' & Ta') by (destruct (Z.eqb_spec a k) as [->|]; [exists p; injection Ha as <-; auto|eauto]).
      assert (exists pb', m_live m b = Some pb' /\ p_task pb' = Some n) as (pb' & Hb' & Tb') by (destruct (Z.eqb_spec b k) as [->|]; [exists p; injection Hb as <-; auto|eauto]).
      eapply P; eassumption.
  - (* list of pids *)
    destruct (m_live m k) as [me|] eqn:E; [|discriminate]. destruct (m_phase m k) eqn:F; try discriminate. destruct (p_task me) as [n|] eqn:T; [|discriminate].
    intro X. injection X as <-. apply (inv_phase m k me); [assumption|assumption|assumption| |].
    + intros z [Hz|Hz]; [destruct Hz|]. subst z. destruct (W _ _ E) as (A & B & C). split; [exact C|]. intros (pz & Hpz & Hsp).
      destruct Hs as [S1 S2]. destruct (S2 _ _ _ E T) as (Sp & _). eapply (S1 _ _ _ _ Hpz E Hsp Sp). reflexivity.
    + intros _ j p n' Hj Hp _ _ _. left. left. apply nodup_In, filter_In. destruct (W _ _ Hp) as (_ & B & _). rewrite Hp. auto.
  - (* read one process *)
    destruct (m_live m k) as [me|] eqn:E; [|discriminate]. destruct (m_phase m k) as [|todo tasks parents pp| | |] eqn:F; try discriminate.
    assert (Hh : forall z, In z parents \/ z = pp -> In z (m_used m) /\ ~ talker m z) by (intros z Hz; apply (H _ _ z E); rewrite F; exact Hz).
    assert (Hp : forall j p n, j <> k -> m_live m j = Some p -> p_task p = Some n -> p_task me = Some n -> started (m_phase m j) ->
      (In j todo \/ In j tasks) \/ seen (m_phase m j) k).
    { intros j p n Hj Hpj Tp Tm Sj. assert (Sk : started (m_phase m k)) by (rewrite F; exact Logic.I).
      destruct (P _ _ _ _ _ Hj Hpj E Tp Tm Sj Sk) as [A|A]; [right; exact A|left]. rewrite F in A. exact A. }
    destruct todo as [|q todo].
    + intro X. injection X as <-. apply (inv_phase m k me); [assumption|assumption|assumption|intros z Hz; apply Hh; right; exact Hz|].
      intros _ j p n Hj Hpj Tp Tm Sj. destruct (Hp j p n Hj Hpj Tp Tm Sj) as [[[]|A]|A]; [left|right; exact A].
      cbn [seen]. apply filter_In. split; [exact A|]. apply negb_true_iff. destruct (memb j parents) eqn:M; [|reflexivity]. exfalso.
      apply memb_In in M. destruct (Hh j (or_introl M)) as [_ B]. apply B. exists p. split; [exact Hpj|]. destruct Hs as [_ S2]. apply (S2 _ _ _ Hpj Tp).
    + intro X. injection X as <-.
      assert (Skip : (forall p n, m_live m q = Some p -> p_task p <> Some n) -> Inv (set_phase k (PScan todo tasks parents pp) m)).
      { intro Hq. apply (inv_phase m k me); [assumption|assumption|assumption|exact Hh|]. intros _ j p n Hj Hpj Tp Tm Sj.
        destruct (Hp j p n Hj Hpj Tp Tm Sj) as [[[<-|A]|A]|A]; [|left; left; exact A|left; right; exact A|right; exact A].
        exfalso. eapply Hq; eassumption. }
      pose proof Hs as [S1 S2]. destruct (m_live m q) as [p|] eqn:Q; [|apply Skip; congruence].
      destruct (p_denied p) eqn:D.
      { destruct (p_python p); [apply (inv_phase m k me); [assumption|assumption|assumption|cbn; tauto|cbn; tauto]|]. apply Skip. intros p' n Y Z. injection Y as <-.
        destruct (S2 _ _ _ Q Z) as (_ & B & _). congruence. }
      destruct (mentions (p_cmd p)) eqn:M.
      2:{ apply Skip. intros p' n Y Z. injection Y as <-. destruct (S2 _ _ _ Q Z) as (B & _). apply mentions_iff in B. congruence. }
      apply mentions_iff in M. apply (inv_phase m k me); [assumption|assumption|assumption| |].
      * intros z [Hz|Hz]; [|apply Hh; right; exact Hz]. apply in_app_iff in Hz. destruct Hz as [Hz|[<-|[]]]; [apply Hh; left; exact Hz|].
        destruct (W _ _ Q) as (A & B & C). split; [exact C|]. intros (pz & Hpz & Hsp). eapply (S1 _ _ _ _ Hpz Q Hsp M). reflexivity.
      * intros _ j p' n Hj Hpj Tp Tm Sj. cbn [seen]. rewrite in_app_iff. cbn [In].
        destruct (Hp j p' n Hj Hpj Tp Tm Sj) as [[[<-|A]|A]|A]; tauto.
  - (* compare with one task *)
    destruct (m_live m k) as [me|] eqn:E; [|discriminate]. destruct (m_phase m k) as [| |todo pp| |] eqn:F; try discriminate.
    assert (Hh : forall z, z = pp -> In z (m_used m) /\ ~ talker m z) by (intros z Hz; apply (H _ _ z E); rewrite F; exact Hz).
    assert (Hp : forall j p n, j <> k -> m_live m j = Some p -> p_task p = Some n -> p_task me = Some n -> started (m_phase m j) ->
      In j todo \/ seen (m_phase m j) k).
    { intros j p n Hj Hpj Tp Tm Sj. assert (Sk : started (m_phase m k)) by (rewrite F; exact Logic.I).
      destruct (P _ _ _ _ _ Hj Hpj E Tp Tm Sj Sk) as [A|A]; [right; exact A|left]. rewrite F in A. exact A. }
    destruct todo as [|q todo].
    + intro X. injection X as <-. apply (inv_phase m k me); [assumption|assumption|assumption|cbn; tauto|].
      intros _ j p n Hj Hpj Tp Tm Sj. destruct (Hp j p n Hj Hpj Tp Tm Sj) as [[]|A]; right; exact A.
    + intro X. injection X as <-.
      assert (Fail : Inv (set_phase k PFailed m)) by (apply (inv_phase m k me); [assumption|assumption|assumption|cbn; tauto|cbn; tauto]).
      assert (Skip : (forall p n, m_live m q = Some p -> q <> k -> p_task p = Some n -> p_task me <> Some n) -> Inv (set_phase k (PCompare todo pp) m)).
      { intro Hq. apply (inv_phase m k me); [assumption|assumption|assumption|exact Hh|]. intros _ j p n Hj Hpj Tp Tm Sj.
        destruct (Hp j p n Hj Hpj Tp Tm Sj) as [[<-|A]|A]; [|left; exact A|right; exact A]. exfalso. eapply Hq; eassumption. }
      destruct (Z.eqb_spec q k) as [->|Nq]; cbn [orb]; [apply Skip; congruence|].
      pose proof Hs as [S1 S2].
      destruct (Z.eqb_spec q pp) as [->|Np].
      { apply Skip. intros p n Q _ T. exfalso. destruct (Hh pp eq_refl) as [_ B]. apply B. exists p. split; [exact Q|]. apply (S2 _ _ _ Q T). }
      destruct (m_live m q) as [p|] eqn:Q; [|exact Fail]. destruct (parse_task_info (p_cmd p)) as [i|x] eqn:Pi; [|exact Fail].
      destruct (ti_name i) as [n|] eqn:Ni; [|exact Fail]. match goal with |- Inv (if ?b then _ else _) => change b with (eqb (Some n) (p_task me)) end.
      destruct (eqb (Some n) (p_task me)) eqn:En; [exact Fail|].
      apply Skip. intros p' n' Y _ T Tm. injection Y as <-. destruct (S2 _ _ _ Q T) as (_ & _ & j & Pj & Nj).
      rewrite Pi in Pj. injection Pj as <-. apply eqb_false in En. congruence.
Qed.

Lemma reach_inv m : reach m -> sane m /\ Inv m.
Proof.
  induction 1 as [m W F S|m l m' _ [S I] St S'].
  - split; [exact S|]. constructor.
    + exact W.
    + intros k p z _ Hz. rewrite F in Hz. contradiction.
    + intros j k p q n _ _ _ _ _ Sj. rewrite F in Sj. destruct Sj.
  - split; [exact S'|]. exact (inv_step m l m' S I St).
Qed.
