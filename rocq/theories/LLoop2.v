(** C07 witness and concrete loop executions used as examples. *)
From Verif Require Import PyBase PyHeap MQueue MLoop LLoop.
Open Scope Z_scope.

(** a callback that schedules itself again for time 0 *)
Definition h_self : handler unit unit unit := fun _ _ w => (w, [APush 0 0 tt], None).

Definition self_prefix : list (label unit unit) :=
  [LOther (APush 0 0 tt); LAsync; LTurn 5 false; LSigArrive].

Lemma self_round (s : lstate unit unit) m :
  l_mode s = Running m -> l_q s = [] -> l_stop s = false ->
  exists s' m', l_exec h_self s [LDone tt; LTurn 5 false] = Some s' /\
    l_mode s' = Running m' /\ l_q s' = [] /\ l_stop s' = false /\
    length (l_log s') = S (length (l_log s)).
Proof.
  destruct s as [q sq a t st e sti u sg md w lg ra]; cbn [l_mode l_q l_stop l_log].
  intros -> -> ->. cbn. eexists _, _. repeat split; try reflexivity.
  cbn. rewrite app_length; cbn; lia.
Qed.

Lemma l_exec_app {C W O} (h : handler C W O) l1 : forall s l2,
  l_exec h s (l1 ++ l2) = match l_exec h s l1 with Some s1 => l_exec h s1 l2 | None => None end.
Proof.
  induction l1 as [|l l1 IH]; intros s l2; cbn [app l_exec]; [reflexivity|].
  destruct (l_step h s l); [apply IH|reflexivity].
Qed.

Lemma self_many n : forall (s : lstate unit unit) m,
  l_mode s = Running m -> l_q s = [] -> l_stop s = false ->
  exists ls s', l_exec h_self s ls = Some s' /\ length (l_log s') = (n + length (l_log s))%nat.
Proof.
  induction n as [|n IH]; intros s m Hm Hq Hs.
  - exists [], s. split; reflexivity.
  - destruct (self_round s m Hm Hq Hs) as (s1 & m1 & E & Hm1 & Hq1 & Hs1 & Hl).
    destruct (IH s1 m1 Hm1 Hq1 Hs1) as (ls & s' & E' & Hl').
    exists ([LDone tt; LTurn 5 false] ++ ls), s'. split.
    + rewrite l_exec_app, E. exact E'.
    + rewrite Hl', Hl. lia.
Qed.

Lemma signal_ignored_witness :
  exists (h : handler unit unit unit) w s m,
    reachable h w s /\ l_mode s = Running m /\ l_sig s = true /\
    forall n, exists ls s', l_exec h s ls = Some s' /\ length (l_log s') = (n + length (l_log s))%nat.
Proof.
  exists h_self, tt.
  destruct (l_exec h_self (l_init tt) self_prefix) as [s|] eqn:E; [|vm_compute in E; discriminate].
  exists s, (Msg 0 0 1 tt).
  assert (Hs : l_mode s = Running (Msg 0 0 1 tt) /\ l_sig s = true /\ l_q s = [] /\ l_stop s = false).
  { vm_compute in E. injection E as <-. repeat split; reflexivity. }
  destruct Hs as (H1 & H2 & H3 & H4). repeat split; try assumption.
  - exists self_prefix; exact E.
  - intros n. exact (self_many n s _ H1 H3 H4).
Qed.

(** once the signal has been delivered nothing more is started *)
Lemma signal_delivered {C W O} (h : handler C W O) s s1 ls s' :
  l_step h s LSignal = Some s1 -> l_exec h s1 ls = Some s' -> l_log s' = l_log s.
Proof.
  intros H1 H2. pose proof (signal_stops _ _ _ H1) as Hst.
  destruct (stopped_exec _ _ _ _ H2 Hst) as [_ ->].
  cbn in H1. destruct (l_mode s); try discriminate. destruct (l_sig s); [|discriminate].
  injection H1 as <-. unfold do_stop; cbn. destruct (l_stop s); reflexivity.
Qed.

(** a callback world for examples: the oracle says what the callback does *)
Definition h_any : handler nat unit (list (act nat) * option exn) :=
  fun _ o w => (w, fst o, snd o).

(** two messages, the second one in the future; the first callback pushes a third *)
Definition demo : list (label nat (list (act nat) * option exn)) :=
  [LOther (APush 10 0 1%nat); LOther (APush 20 0 2%nat); LAsync;
   LTurn 12 false; LDone ([APush 15 3 3%nat], None); LTurn 12 false; LArm].
