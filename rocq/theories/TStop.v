(** C147: a task that is told to stop ends. *)
From Verif Require Import PyBase MQueue MLoop LLoop SEnd LEnd LLoop2.
Open Scope list_scope.
Open Scope nat_scope.

Section Stop.
  Context {C W O : Type} (h : handler C W O).
  Notation lstate := (lstate C W).
  Notation label := (label C O).

  (** ** Specification *)
  (** the steps the loop makes itself, and what others do *)
  Definition own (l : label) : bool := match l with LSigArrive | LOther _ => false | _ => true end.
  Definition owns (ls : list label) : nat := List.length (filter own ls).
  Definition others (ls : list label) : nat := List.length (filter (fun l => negb (own l)) ls).
  (** how many callbacks were started between two states *)
  Definition started (s s' : lstate) : nat := List.length (l_log s') - List.length (l_log s).
  (** uv hands over a signal that has arrived before it serves the queue again *)
  Fixpoint prompt (s : lstate) (ls : list label) : Prop :=
    match ls with
    | [] => True
    | l :: ls' => (l_mode s = Idle -> l_sig s = true -> l <> LAsync /\ l <> LTimer) /\
                  match l_step h s l with Some s1 => prompt s1 ls' | None => True end
    end.
  (** no step is possible for the loop itself, whatever the clock shows and the callback does *)
  Definition stuck (s : lstate) : Prop := forall l, own l = true -> l_step h s l = None.

  (** ** A measure *)
  Definition flag (b : bool) (n : nat) : nat := if b then n else 0.
  Definition armed (s : lstate) : bool := match l_timer s with Some _ => true | None => false end.
  Definition pot_stop (s : lstate) : nat :=
    flag (l_async s) 2 + flag (armed s) 2 + flag (l_sig s) 1 +
    match l_mode s with Idle => 1 | Checking => 2 | Arming _ => 4 | Running _ => 5 | Returned _ => 0 end.
  Definition pot_told (s : lstate) : nat :=
    match l_mode s with Idle => 11 | Checking => 13 | Arming _ => 12 | Running _ => 14 | Returned _ => 0 end.
  Definition pot (s : lstate) : nat := if l_stop s then pot_stop s else pot_told s.

  Arguments pot : simpl never.
  Arguments pot_told : simpl never.
  Arguments pot_stop : simpl never.
  Arguments started : simpl never.

  Lemma pot_stop_max s : pot_stop s <= 10.
  Proof. unfold pot_stop, flag. destruct (l_async s), (armed s), (l_sig s), (l_mode s); cbn; lia. Qed.

  (** pushing and stopping *)
  Lemma do_act_facts a (s : lstate) :
    l_mode (do_act a s) = l_mode s /\ l_sig (do_act a s) = l_sig s /\ l_timer (do_act a s) = l_timer s /\ l_log (do_act a s) = l_log s /\
    (l_stop s = true -> l_stop (do_act a s) = true).
  Proof. destruct a as [t p cb|]; cbn; [tauto|]. unfold do_stop. destruct (l_stop s) eqn:E; cbn; rewrite ?E; tauto. Qed.
  Lemma acts_facts acts : forall s : lstate, let s' := fold_left (fun st a => do_act a st) acts s in
    l_mode s' = l_mode s /\ l_sig s' = l_sig s /\ l_timer s' = l_timer s /\ l_log s' = l_log s /\ (l_stop s = true -> l_stop s' = true).
  Proof.
    induction acts as [|a acts IH]; intro s; cbn [fold_left]; [cbn; tauto|]. specialize (IH (do_act a s)). cbn zeta in *.
    destruct IH as (A & B & D & E & F), (do_act_facts a s) as (A' & B' & D' & E' & F'). rewrite A, B, D, E, A', B', D', E'. tauto.
  Qed.

  (** one step: a stopped loop comes down, starts nothing; other threads cost at most two *)
  Lemma stopped_step s l s' : l_stop s = true -> l_step h s l = Some s' ->
    l_stop s' = true /\ l_log s' = l_log s /\ (if own l then S (pot_stop s') <= pot_stop s else pot_stop s' <= 2 + pot_stop s).
  Proof.
    intros Hs Hx. destruct l as [| | | |now ex| |o|a|]; unfold l_step in Hx; cbn [own].
    - destruct (l_mode s) eqn:Em; try discriminate. destruct (l_async s) eqn:Ea; [|discriminate]. injection Hx as <-. unfold pot_stop. cbn. rewrite Em, Ea. cbn. repeat split; [exact Hs|]. unfold armed. cbn. lia.
    - destruct (l_mode s) eqn:Em; try discriminate. destruct (l_timer s) eqn:Et; [|discriminate]. injection Hx as <-. unfold pot_stop, armed. cbn. rewrite Em, Et. cbn. repeat split; [exact Hs|lia].
    - destruct (l_mode s) eqn:Em; try discriminate. destruct (l_sig s) eqn:Eg; [|discriminate]. injection Hx as <-. unfold do_stop. cbn. rewrite Hs. unfold pot_stop, armed. cbn. rewrite Em, Eg. cbn. repeat split; [exact Hs|lia].
    - assert (E : Some (set_sig true s) = Some s') by (destruct (l_mode s); try discriminate; exact Hx). injection E as <-. unfold pot_stop, armed. cbn. repeat split; [exact Hs|]. destruct (l_sig s); cbn; lia.
    - destruct (l_mode s) eqn:Em; try discriminate. injection Hx as <-. unfold check_turn. rewrite Hs. unfold leave. rewrite Hs. unfold pot_stop, armed. cbn. rewrite Em. repeat split; [exact Hs|lia].
    - destruct (l_mode s) as [| |m|m|r] eqn:Em; try discriminate. injection Hx as <-. unfold arm, leave, push_msg. cbn. rewrite Hs. unfold pot_stop, armed. cbn. rewrite Em. repeat split; [exact Hs|]. destruct (l_async s), (l_timer s), (l_sig s); cbn; lia.
    - destruct (l_mode s) as [| |m|m|r] eqn:Em; try discriminate. injection Hx as <-. unfold finish. destruct (h (m_cb m) o (l_w s)) as [[w' acts] e].
      destruct (acts_facts acts (set_w w' s)) as (A & B & D & E & F). cbn zeta in *. set (s1 := fold_left _ acts _) in *. clearbody s1. cbn in A, B, D, E, F. specialize (F Hs).
      assert (Z : forall s2 : lstate, l_log s2 = l_log s -> l_stop s2 = true -> l_timer s2 = l_timer s -> l_sig s2 = l_sig s ->
        l_stop (set_mode Checking s2) = true /\ l_log (set_mode Checking s2) = l_log s /\ S (pot_stop (set_mode Checking s2)) <= pot_stop s).
      { intros s2 Z1 Z2 Z3 Z4. unfold pot_stop, armed. cbn. rewrite Em, Z3, Z4. repeat split; [exact Z2|exact Z1|]. destruct (l_async s2), (l_async s), (l_timer s), (l_sig s); cbn; lia. }
      destruct e as [x|]; apply Z; try assumption; unfold do_stop; cbn; rewrite F; cbn; assumption.
    - assert (E : Some (do_act a s) = Some s') by (destruct (l_mode s); try discriminate; exact Hx). injection E as <-. destruct (do_act_facts a s) as (A & B & D & E & F).
      split; [exact (F Hs)|]. split; [exact E|]. unfold pot_stop, armed. rewrite A, B, D. destruct (l_async (do_act a s)), (l_async s); cbn; lia.
    - destruct (l_mode s) eqn:Em; try discriminate. destruct (l_uvstop s); [|discriminate]. injection Hx as <-. unfold pot_stop, armed. cbn. rewrite Em. repeat split; [exact Hs|]. lia.
  Qed.
  Lemma own_split l ls : owns (l :: ls) = (if own l then 1 else 0) + owns ls /\ others (l :: ls) = (if own l then 0 else 1) + others ls.
  Proof. unfold owns, others. cbn [filter]. destruct (own l); cbn; lia. Qed.
  Lemma stopped_exec ls : forall s s', l_stop s = true -> l_exec h s ls = Some s' ->
    l_stop s' = true /\ l_log s' = l_log s /\ owns ls + pot_stop s' <= pot_stop s + 2 * others ls.
  Proof.
    induction ls as [|l ls IH]; intros s s' Hs Hx; cbn [l_exec] in Hx.
    - injection Hx as <-. split; [exact Hs|]. split; [reflexivity|]. unfold owns, others. cbn. lia.
    - destruct (l_step h s l) as [s1|] eqn:E; [|discriminate]. destruct (stopped_step s l s1 Hs E) as (A & B & D). destruct (IH s1 s' A Hx) as (A' & B' & D').
      split; [exact A'|]. split; [congruence|]. destruct (own_split l ls) as [-> ->]. destruct (own l); lia.
  Qed.

  (** ... and what the callbacks share stays as it is, unless one is running *)
  Lemma do_act_w a (s : lstate) : l_w (do_act a s) = l_w s.
  Proof. destruct a; cbn; [reflexivity|]. unfold do_stop. destruct (l_stop s); reflexivity. Qed.
  Lemma calm_exec ls : forall s s', l_stop s = true -> (forall m, l_mode s <> Running m) -> l_exec h s ls = Some s' -> l_w s' = l_w s.
  Proof.
    induction ls as [|l ls IH]; intros s s' Hs Hr Hx; cbn [l_exec] in Hx; [injection Hx as <-; reflexivity|].
    destruct (l_step h s l) as [s1|] eqn:E; [|discriminate]. destruct (stopped_step s l s1 Hs E) as (A & _).
    assert (Z : l_w s1 = l_w s /\ forall m, l_mode s1 <> Running m); [|destruct Z as [Z1 Z2]; rewrite (IH s1 s' A Z2 Hx); exact Z1].
    clear IH Hx. destruct l as [| | | |now ex| |o|a|]; unfold l_step in E.
    - destruct (l_mode s); try discriminate. destruct (l_async s); [|discriminate]. injection E as <-. split; [reflexivity|discriminate].
    - destruct (l_mode s); try discriminate. destruct (l_timer s); [|discriminate]. injection E as <-. split; [reflexivity|discriminate].
    - destruct (l_mode s) eqn:Em; try discriminate. destruct (l_sig s); [|discriminate]. injection E as <-. unfold do_stop. cbn. rewrite Hs. cbn. rewrite Em. split; [reflexivity|discriminate].
    - assert (E' : Some (set_sig true s) = Some s1) by (destruct (l_mode s); try discriminate; exact E). injection E' as <-. split; [reflexivity|exact Hr].
    - destruct (l_mode s); try discriminate. injection E as <-. unfold check_turn. rewrite Hs. unfold leave. rewrite Hs. split; [reflexivity|discriminate].
    - destruct (l_mode s) as [| |m|m|r]; try discriminate. injection E as <-. unfold arm, leave, push_msg. cbn. rewrite Hs. split; [reflexivity|discriminate].
    - destruct (l_mode s) as [| |m|m|r] eqn:Em; try discriminate. exfalso. exact (Hr m eq_refl).
    - assert (E' : Some (do_act a s) = Some s1) by (destruct (l_mode s); try discriminate; exact E). injection E' as <-. split; [apply do_act_w|]. rewrite (proj1 (do_act_facts a s)). exact Hr.
    - destruct (l_mode s); try discriminate. destruct (l_uvstop s); [|discriminate]. injection E as <-. split; [reflexivity|discriminate].
  Qed.

  (** a loop that a signal is waiting for *)
  Lemma told_step s l s' : inv s -> l_stop s = false -> l_sig s = true -> (l_mode s = Idle -> l <> LAsync /\ l <> LTimer) -> l_step h s l = Some s' ->
    (l_stop s' = false -> l_sig s' = true) /\ List.length (l_log s) <= List.length (l_log s') /\
    (if own l then S (pot s') <= pot s + 2 * started s s' else pot s' <= pot s + 2 /\ l_log s' = l_log s).
  Proof.
    intros I Hs Hg Hp Hx. unfold pot at 2 4. rewrite Hs. pose proof pot_stop_max as PM.
    assert (Q : forall (x : lstate) n, l_stop x = true \/ pot_told x <= n -> 10 <= n -> pot x <= n).
    { intros x n [K|K] L; unfold pot; [rewrite K; specialize (PM x); lia|]. destruct (l_stop x); [specialize (PM x); lia|exact K]. }
    destruct l as [| | | |now ex| |o|a|]; unfold l_step in Hx; cbn [own].
    - destruct (l_mode s) eqn:Em; try discriminate. destruct (Hp eq_refl) as [K _]. congruence.
    - destruct (l_mode s) eqn:Em; try discriminate. destruct (Hp eq_refl) as [_ K]. congruence.
    - destruct (l_mode s) eqn:Em; try discriminate. rewrite Hg in Hx. injection Hx as <-. unfold do_stop. cbn. rewrite Hs. cbn. repeat split; [discriminate|lia|].
      unfold pot_told. rewrite Em. match goal with |- S ?x <= _ => assert (x <= 10) by (apply Q; [left; reflexivity|lia]) end. lia.
    - assert (E : Some (set_sig true s) = Some s') by (destruct (l_mode s); try discriminate; exact Hx). injection E as <-. cbn. repeat split; [lia|].
      unfold pot. cbn. rewrite Hs. unfold pot_told. cbn. lia.
    - destruct (l_mode s) eqn:Em; try discriminate. injection Hx as <-. unfold check_turn. rewrite Hs. unfold pot_told. rewrite Em.
      destruct (q_pop (l_q s)) as [[m|e] q'] eqn:Eq.
      + destruct (Z.ltb now (m_time m)).
        * destruct ex.
          -- unfold leave, do_stop. cbn. rewrite Hs. cbn. repeat split; [discriminate|lia|].
             match goal with |- S ?x <= _ => assert (x <= 10) by (apply Q; [left; reflexivity|lia]) end. lia.
          -- cbn. repeat split; [intros _; exact Hg|lia|]. match goal with |- S ?x <= _ => assert (x <= 12) by (apply Q; [right; unfold pot_told; cbn; lia|lia]) end. lia.
        * cbn. rewrite app_length. cbn. repeat split; [intros _; exact Hg|lia|]. unfold started. cbn. rewrite app_length. cbn.
          match goal with |- S ?x <= _ => assert (x <= 14) by (apply Q; [right; unfold pot_told; cbn; lia|lia]) end. lia.
      + unfold leave. cbn. repeat split; [discriminate|lia|].
        match goal with |- S ?x <= _ => assert (x <= 10) by (apply Q; [left; reflexivity|lia]) end. lia.
    - destruct (l_mode s) as [| |m|m|r] eqn:Em; try discriminate. injection Hx as <-. unfold arm, leave, push_msg. cbn. rewrite Hs. cbn. repeat split; [intros _; exact Hg|lia|].
      unfold pot_told at 1. rewrite Em. match goal with |- S ?x <= _ => assert (x <= 11) by (apply Q; [right; unfold pot_told; cbn; lia|lia]) end. lia.
    - destruct (l_mode s) as [| |m|m|r] eqn:Em; try discriminate. injection Hx as <-. unfold finish. destruct (h (m_cb m) o (l_w s)) as [[w' acts] e].
      destruct (acts_facts acts (set_w w' s)) as (A & B & D & E & F). cbn zeta in *. set (s1 := fold_left _ acts _) in *. clearbody s1. cbn in A, B, D, E.
      assert (Z : forall s2 : lstate, l_log s2 = l_log s -> l_sig s2 = true ->
        (l_stop (set_mode Checking s2) = false -> l_sig (set_mode Checking s2) = true) /\ List.length (l_log s) <= List.length (l_log (set_mode Checking s2)) /\
        S (pot (set_mode Checking s2)) <= pot_told s + 2 * started s (set_mode Checking s2)).
      { intros s2 Z1 Z2. cbn. rewrite Z1. repeat split; [intros _; exact Z2|lia|]. unfold pot_told. rewrite Em.
        match goal with |- S ?x <= _ => assert (x <= 13) by (apply Q; [right; unfold pot_told; cbn; lia|lia]) end. lia. }
      destruct e as [x|]; apply Z; try congruence; unfold do_stop; cbn; destruct (l_stop s1); cbn; congruence.
    - assert (E : Some (do_act a s) = Some s') by (destruct (l_mode s); try discriminate; exact Hx). injection E as <-. destruct (do_act_facts a s) as (A & B & D & E & F).
      rewrite E. repeat split; [congruence|lia|]. assert (R : forall r, l_mode s <> Returned r) by (intros r K; rewrite K in Hx; discriminate).
      unfold pot. destruct (l_stop (do_act a s)).
      + specialize (PM (do_act a s)). assert (10 <= pot_told s) by (unfold pot_told; destruct (l_mode s) eqn:Em; try lia; exfalso; exact (R r eq_refl)). lia.
      + unfold pot_told. rewrite A. lia.
    - destruct (l_mode s) eqn:Em; try discriminate. destruct (l_uvstop s) eqn:Eu; [|discriminate]. pose proof (i_uvstop _ I Eu). congruence.
  Qed.
  Lemma told_exec ls : forall s s', inv s -> (l_stop s = false -> l_sig s = true) -> prompt s ls -> l_exec h s ls = Some s' ->
    List.length (l_log s) <= List.length (l_log s') /\ owns ls + pot s' <= pot s + 2 * started s s' + 2 * others ls.
  Proof.
    induction ls as [|l ls IH]; intros s s' I Hg Hp Hx; cbn [l_exec] in Hx.
    - injection Hx as <-. unfold owns, others, started. cbn. lia.
    - destruct (l_step h s l) as [s1|] eqn:E; [|discriminate]. cbn [prompt] in Hp. rewrite E in Hp. destruct Hp as [P1 P2].
      assert (I1 : inv s1) by (eapply inv_step; eassumption). destruct (own_split l ls) as [-> ->].
      destruct (l_stop s) eqn:Hs.
      + destruct (stopped_step s l s1 Hs E) as (A & B & D). destruct (stopped_exec ls s1 s' A Hx) as (A' & B' & D'). rewrite B', B. unfold started. rewrite B', B.
        unfold pot. rewrite Hs, A'. destruct (own l); lia.
      + destruct (told_step s l s1 I Hs (Hg eq_refl)) as (A & B & D); [intro K; apply P1; [exact K|apply Hg; reflexivity]|exact E|].
        destruct (IH s1 s' I1 A P2 Hx) as (A' & B'). split; [lia|]. unfold started in *. destruct (own l); [|destruct D as [D D']; rewrite D' in *]; lia.
  Qed.
End Stop.

(** ** Theorems *)
(** Once it has been told (stop() was called, by the handler of the signal or otherwise), a loop
    makes at most ten steps of its own, and two more for each message others push or each further
    signal; it starts no callback. *)
Theorem C147_stops :
  forall C W O (h : handler C W O) (s s' : lstate C W) ls,
    l_stop s = true -> l_exec h s ls = Some s' -> owns ls <= 10 + 2 * others ls /\ l_log s' = l_log s.
Proof.
  intros C W O h s s' ls Hs Hx. destruct (stopped_exec h ls s s' Hs Hx) as (_ & B & D). pose proof (pot_stop_max s). split; [lia|exact B].
Qed.
(** From the arrival of the signal on: at most fourteen steps, two for each callback started, two for
    each interference; so the loop does not sleep again unless it has ended. *)
Theorem C147_told :
  forall C W O (h : handler C W O) w (s s' : lstate C W) ls,
    reachable h w s -> l_sig s = true -> prompt h s ls -> l_exec h s ls = Some s' -> owns ls <= 14 + 2 * started s s' + 2 * others ls.
Proof.
  intros C W O h w s s' ls R Hg Hp Hx. destruct (told_exec h ls s s' (inv_reachable _ _ _ R) (fun _ => Hg) Hp Hx) as [_ D].
  assert (pot s <= 14). { unfold pot. destruct (l_stop s); [pose proof (pot_stop_max s); lia|]. unfold pot_told. destruct (l_mode s); lia. } lia.
Qed.
Lemma asleep_inv :
  forall C W O (h : handler C W O) (s s' : lstate C W) ls,
    inv s -> l_sig s = true -> l_mode s = Idle -> prompt h s ls -> l_exec h s ls = Some s' -> l_log s' = l_log s /\ l_w s' = l_w s /\ owns ls <= 11 + 2 * others ls.
Proof.
  intros C W O h s s' ls I Hg Hm Hp Hx.
  assert (A : l_log s' = l_log s /\ l_w s' = l_w s).
  { revert s I Hg Hm Hp Hx. induction ls as [|l ls IH]; intros s I Hg Hm Hp Hx; cbn [l_exec] in Hx; [injection Hx as <-; split; reflexivity|].
    destruct (l_stop s) eqn:Hs; [split; [exact (proj1 (proj2 (stopped_exec h (l :: ls) s s' Hs Hx)))|apply (calm_exec h (l :: ls) s s' Hs); [congruence|exact Hx]]|].
    destruct (l_step h s l) as [s1|] eqn:E; [|discriminate]. cbn [prompt] in Hp. rewrite E in Hp. destruct Hp as [P1 P2]. destruct (P1 Hm Hg) as [N1 N2].
    assert (I1 : inv s1) by (eapply inv_step; eassumption).
    destruct l as [| | | |now ex| |o|a|]; try congruence; unfold l_step in E; rewrite Hm in E; try discriminate.
    - rewrite Hg in E. injection E as <-. assert (K : l_stop (do_stop (set_sig false s)) = true) by (unfold do_stop; cbn; rewrite Hs; reflexivity).
      rewrite (proj1 (proj2 (stopped_exec h ls _ s' K Hx))), (calm_exec h ls _ s' K) by (try exact Hx; unfold do_stop; cbn; rewrite Hs; cbn; congruence).
      unfold do_stop. cbn. rewrite Hs. split; reflexivity.
    - injection E as <-. exact (IH _ I1 eq_refl Hm P2 Hx).
    - injection E as <-. destruct (do_act_facts a s) as (F1 & F2 & _ & F4 & _). rewrite <- F4, <- (do_act_w a s). apply IH; congruence.
    - destruct (l_uvstop s) eqn:Eu; [|discriminate]. pose proof (i_uvstop _ I Eu). congruence. }
  destruct A as [A A']. split; [exact A|]. split; [exact A'|]. destruct (told_exec h ls s s' I (fun _ => Hg) Hp Hx) as [_ D]. unfold started in D. rewrite A, Nat.sub_diag in D.
  assert (pot s <= 11). { unfold pot. destruct (l_stop s); [pose proof (pot_stop_max s); lia|]. unfold pot_told. rewrite Hm. lia. } lia.
Qed.
(** Told in its sleep it calls nothing more. *)
Theorem C147_asleep :
  forall C W O (h : handler C W O) w (s s' : lstate C W) ls,
    reachable h w s -> l_sig s = true -> l_mode s = Idle -> prompt h s ls -> l_exec h s ls = Some s' -> l_log s' = l_log s /\ l_w s' = l_w s /\ owns ls <= 11 + 2 * others ls.
Proof. intros C W O h w s s' ls R. exact (asleep_inv C W O h s s' ls (inv_reachable _ _ _ R)). Qed.
(** A loop that was told and can make no step has ended: so every run of it ends, whatever the order
    in which uv serves what is pending. *)
Theorem C147_ends :
  forall C W O (h : handler C W O) w (s : lstate C W) (o : O), reachable h w s -> (l_stop s = true \/ l_sig s = true) -> stuck h s -> ended s.
Proof.
  intros C W O h w s o R Hs Hk. pose proof (inv_reachable _ _ _ R) as I. destruct R as [ls0 R]. pose proof (J_exec h True ls0 _ _ (inv_init w) (J_init w) R) as [J1 _].
  destruct (l_mode s) as [| |m|m|r] eqn:Em.
  - exfalso. destruct (l_stop s) eqn:Es.
    + destruct (J1 eq_refl) as [K|[K|K]]; [| |discriminate].
      * specialize (Hk LReturn eq_refl). cbn in Hk. rewrite Em, K in Hk. discriminate.
      * specialize (Hk LAsync eq_refl). cbn in Hk. rewrite Em, K in Hk. discriminate.
    + destruct Hs as [K|K]; [congruence|]. specialize (Hk LSignal eq_refl). cbn in Hk. rewrite Em, K in Hk. discriminate.
  - exfalso. specialize (Hk (LTurn 0%Z false) eq_refl). cbn in Hk. rewrite Em in Hk. discriminate.
  - exfalso. specialize (Hk LArm eq_refl). cbn in Hk. rewrite Em in Hk. discriminate.
  - exfalso. specialize (Hk (LDone o) eq_refl). cbn in Hk. rewrite Em in Hk. discriminate.
  - exists r. exact Em.
Qed.
Print Assumptions C147_stops.
Print Assumptions C147_told.
Print Assumptions C147_asleep.
Print Assumptions C147_ends.

(** ** Example: a callback that pushes a message for a second later; the signal arrives while it runs *)
Definition st_h : handler unit unit unit := fun _ _ w => (w, [APush 1000 0 tt], None).
Definition st_pre : list (label unit unit) := [LOther (APush 0 0 tt); LAsync; LTurn 0 false; LSigArrive].
Definition st_post : list (label unit unit) := [LDone tt; LTurn 5 false; LArm; LSignal; LAsync; LTurn 6 false; LReturn].
Example C147_demo : exists s s', l_exec st_h (l_init tt) st_pre = Some s /\ l_sig s = true /\ prompt st_h s st_post /\ l_exec st_h s st_post = Some s' /\
  ended s' /\ started s s' = 0 /\ owns st_post = 7 /\ others st_post = 0.
Proof.
  eexists. eexists. split; [vm_compute; reflexivity|]. split; [reflexivity|]. split; [cbn; repeat split; discriminate|]. split; [vm_compute; reflexivity|].
  split; [eexists; reflexivity|]. repeat split.
Qed.
