(** C158: process numbers that are used again. *)
From Coq Require Import String.
From Verif Require Import PyBase PyStr MTasks MGetTasks MVanish MReuse STasks SVanish LTasks TTasks TVanish.
Open Scope list_scope.
Open Scope Z_scope.

(** ** what is meant *)
(** a process keeps its number from its start to its end, has one command line, and no
    two with one number were started at the same time *)
Definition lives (tab : nat -> Z -> option life) : Prop :=
  (forall t t' t'' z p p'', (t <= t' <= t'')%nat -> tab t z = Some p -> tab t'' z = Some p'' -> lf_birth p = lf_birth p'' ->
     exists p', tab t' z = Some p' /\ lf_birth p' = lf_birth p) /\
  (forall t t' z p p' c c', tab t z = Some p -> tab t' z = Some p' -> lf_birth p = lf_birth p' -> lf_cmd p = Ok c -> lf_cmd p' = Ok c' -> c = c').
(** a psutil.Process made for a process that was there, and used in the order of the code *)
Definition made (tab : nat -> Z -> option life) (h : handle) : Prop :=
  (exists p, tab (h_made h) (h_pid h) = Some p /\ lf_birth p = h_birth h) /\ (h_made h <= h_read h <= h_again h)%nat /\ (h_again h <= h_sent h)%nat.
(** the process [h] was made for is there at [t] *)
Definition there (tab : nat -> Z -> option life) (h : handle) (t : nat) : Prop := exists p, tab t (h_pid h) = Some p /\ lf_birth p = h_birth h.
(** its own command line is [c] *)
Definition own_cmd (tab : nat -> Z -> option life) (h : handle) (c : list str) : Prop :=
  exists t p, tab t (h_pid h) = Some p /\ lf_birth p = h_birth h /\ lf_cmd p = Ok c.

(** ** lemmas *)
Lemma still_there tab h t : lives tab -> made tab h -> there tab h t -> (h_again h <= t)%nat -> there tab h (h_read h) /\ there tab h (h_again h).
Proof.
  intros [L _] ((p & P1 & P2) & T1 & T2) (q & Q1 & Q2) Ht. assert (E : lf_birth p = lf_birth q) by congruence.
  assert (U : (h_made h <= h_read h <= t)%nat) by lia. assert (V : (h_made h <= h_again h <= t)%nat) by lia.
  destruct (L _ (h_read h) _ _ _ _ U P1 Q1 E) as (r & R1 & R2). destruct (L _ (h_again h) _ _ _ _ V P1 Q1 E) as (s & S1 & S2).
  split; [exists r|exists s]; (split; [assumption|congruence]).
Qed.
Lemma there_cmd tab h t c : there tab h t -> cmd_at tab t (h_pid h) = Ok c -> own_cmd tab h c.
Proof. intros (p & P1 & P2) H. unfold cmd_at in H. rewrite P1 in H. exists t, p. auto. Qed.
Lemma own_one tab h c c' : lives tab -> own_cmd tab h c -> own_cmd tab h c' -> c = c'.
Proof. intros [_ L] (t & p & P1 & P2 & P3) (t' & p' & Q1 & Q2 & Q3). apply (L t t' (h_pid h) p p' c c'); auto; congruence. Qed.
Lemma sent_there tab h : signal_at tab (h_sent h) (h_pid h) (h_birth h) = Ok tt -> there tab h (h_sent h).
Proof. unfold signal_at. destruct (tab (h_sent h) (h_pid h)) as [p|] eqn:E; [|discriminate]. destruct (Z.eqb_spec (lf_birth p) (h_birth h)); [|discriminate]. intros _. exists p. auto. Qed.
Lemma turns_sent o l sent e : turns o l sent e -> forall p, In p sent -> In p l /\ meant o p (Ok true) /\ v_kill p = Ok tt.
Proof.
  induction 1 as [|p l sent e T _ IH|p l sent e T _ IH|p l x T]; intros q Hq; [destruct Hq| | |destruct Hq].
  - destruct (IH q Hq) as (H1 & H2). split; [right; exact H1|exact H2].
  - destruct Hq as [<-|Hq]; [inversion T; subst; split; [left; reflexivity|auto]|]. destruct (IH q Hq) as (H1 & H2). split; [right; exact H1|exact H2].
Qed.
Lemma given_dec o : something_given o \/ negb (truthy_str (st_name o)) && negb (truthy_pid (st_pid o)) && negb (st_all o) = true.
Proof.
  unfold something_given. destruct (st_all o); [auto|]. destruct (st_pid o) as [z|]; [destruct (Z.eqb_spec z 0) as [->|N]; [|left; right; left; eauto]|].
  - destruct (st_name o) as [[|x n]|]; [right; reflexivity|left; right; right; eexists; split; [reflexivity|discriminate]|right; reflexivity].
  - destruct (st_name o) as [[|x n]|]; [right; reflexivity|left; right; right; eexists; split; [reflexivity|discriminate]|right; reflexivity].
Qed.
Lemma quiet_listing l x said : active_views l = (x, said) -> forall z s, ~ In (Signal z s) said.
Proof. unfold active_views. destruct (scan_views l [] []) as [[t ps]|e]; [|destruct e]; intros [= <- <-] z s H; cbn in H; intuition discriminate. Qed.

(** ** C158 *)
(** Whatever numbers are used again and when: a process that stop_task signals is one that was
    there when the processes were listed and still is, its own command line speaks of jqtrade and start_task, and with --pid it has that
    number, with --name its own command line has that name. *)
Theorem C158_own : forall tab hs o z s, lives tab -> Forall (made tab) hs -> NoDup (map h_pid hs) ->
  In (Signal z s) (snd (stop_views o (map (view_at tab) hs))) ->
  exists h c, In h hs /\ h_pid h = z /\ there tab h (h_sent h) /\ own_cmd tab h c /\ speaks c /\ s = (if st_force o then SIGKILL else SIGTERM) /\
    (st_all o = true \/ (st_all o = false /\ st_pid o = Some z) \/ (st_all o = false /\ (st_pid o = None \/ st_pid o = Some 0) /\ exists n, st_name o = Some n /\ named n c)).
Proof.
  intros tab hs o z s L M ND H. destruct (active_views (map (view_at tab) hs)) as [[tasks|x] said] eqn:E.
  2:{ unfold stop_views in H. rewrite E in H. cbn [snd] in H. destruct (quiet_listing _ _ _ E z s H). }
  destruct (given_dec o) as [Hg|Hg]; [|unfold stop_views in H; rewrite E, Hg in H; cbn [snd] in H; destruct (quiet_listing _ _ _ E z s H)].
  assert (ND' : NoDup (map v_pid (map (view_at tab) hs))) by (rewrite map_map; exact ND).
  destruct (C141_stop o _ tasks said ND' E Hg) as (sent & e & T & Es). rewrite Es in H. cbn [snd] in H. apply in_app_iff in H as [H|H].
  2:{ exfalso. destruct e; [destruct H|]. unfold closing in H. destruct sent; [|destruct (st_force o)]; cbn in H; intuition discriminate. }
  apply in_flat_map in H as (p & Hp & Hs). destruct (turns_sent o _ _ _ T p Hp) as (It & Me & K).
  assert (Ep : v_pid p = z /\ s = if st_force o then SIGKILL else SIGTERM) by (unfold signalled in Hs; destruct (st_force o); destruct Hs as [Hs|[Hs|[]]]; try discriminate Hs; injection Hs as <- <-; auto).
  destruct Ep as [<- ->]. pose proof (active_no_block _ _ _ E) as NB. destruct (C141_listing _ NB) as (f & Ef & Hf). rewrite E in Ef. injection Ef as -> _.
  apply filter_In in It as [Il Fp]. destruct (proj1 (Hf p Il) Fp) as (_ & (c & Ec & Sc) & _). apply in_map_iff in Il as (h & <- & Ih). cbn [view_at v_pid v_cmd v_kill] in *.
  assert (Mh : made tab h) by (rewrite Forall_forall in M; apply M, Ih). pose proof (sent_there tab h K) as Th. destruct Mh as (M1 & M2 & M3).
  destruct (still_there tab h (h_sent h) L (conj M1 (conj M2 M3)) Th M3) as [T1 T2]. pose proof (there_cmd tab h _ c T1 Ec) as Oc.
  exists h, c. split; [exact Ih|]. split; [reflexivity|]. split; [exact Th|]. split; [exact Oc|]. split; [exact Sc|]. split; [reflexivity|].
  inversion Me as [A|w b A P Nz B|n m b A P N Na B|]; subst; [left; exact A| |].
  - right. left. split; [exact A|]. rewrite P. f_equal. symmetry. apply B. reflexivity.
  - right. right. split; [exact A|]. split; [exact P|]. exists n. split; [exact N|]. inversion Na as [c' n' Ea Nm| | |]; subst. cbn [view_at v_again] in Ea.
    rewrite (own_one tab h c c' L Oc (there_cmd tab h _ c' T2 Ea)). rewrite (proj1 B eq_refl). exact Nm.
Qed.
Print Assumptions C158_own.

(** What get_tasks shows under a number is of the process listed, if that one is still there when it is read
    again. *)
Theorem C158_shown_partial : forall tab hs e, lives tab -> Forall (made tab) hs -> NoDup (map h_pid hs) ->
  In (SayBlock e) (snd (list_views (map (view_at tab) hs))) ->
  exists h, In h hs /\ h_pid h = te_pid e /\ (there tab h (h_again h) -> own_cmd tab h (te_cmd e) /\ named (te_name e) (te_cmd e)).
Proof.
  intros tab hs e L M ND H. destruct (active_views (map (view_at tab) hs)) as [[tasks|x] said] eqn:E.
  2:{ unfold list_views in H. rewrite E in H. cbn [snd] in H. unfold active_views in E. destruct (scan_views _ [] []) as [[t ps]|y]; [discriminate E|]. destruct y; injection E as _ <-; cbn in H; intuition discriminate. }
  destruct (C141_shown _ _ _ E) as [[_ Es]|(_ & es & y & B & Es)]; rewrite Es in H; cbn [snd] in H; [destruct H as [H|[]]; discriminate H|].
  destruct H as [H|H]; [discriminate H|]. apply in_map_iff in H as (e' & [= ->] & He).
  assert (G : exists p, In p tasks /\ block p (Ok e)).
  { clear - B He. induction B as [|p l d ds x Hb _ IH|]; [destruct He| |destruct He]. destruct He as [->|He]; [exists p; split; [left; reflexivity|exact Hb]|]. destruct (IH He) as (q & Hq & Bq). exists q. split; [right; exact Hq|exact Bq]. }
  destruct G as (p & Hp & Bp). pose proof (active_no_block _ _ _ E) as NB. destruct (C141_listing _ NB) as (f & Ef & Hf). rewrite E in Ef. injection Ef as -> _.
  apply filter_In in Hp as [Il _]. apply in_map_iff in Il as (h & <- & Ih). inversion Bp as [c i n f' Ea Ei En Ec| | |]; subst. cbn [te_pid te_cmd te_name view_at v_pid v_again] in *.
  exists h. split; [exact Ih|]. split; [reflexivity|]. intro T. split; [exact (there_cmd tab h _ c T Ea)|]. exists i. auto.
Qed.
Print Assumptions C158_shown_partial.

(** ** Witnesses *)
(** number 6 is task "b" at first and from moment 3 on another process *)
Definition ru_tab (other : list str) (t : nat) (z : Z) : option life :=
  if z =? 5 then Some (Life 100 (Ok (va_cmd (lit "a"))) (Ok tt))
  else if z =? 6 then (if Nat.ltb t 3 then Some (Life 200 (Ok (va_cmd (lit "b"))) (Ok tt)) else Some (Life 300 (Ok other) (Ok tt)))
  else None.
Lemma ru_lives other : lives (ru_tab other).
Proof.
  split.
  - intros t t' t'' z p p'' Ht P Q B. unfold ru_tab in *. destruct (z =? 5); [eexists; split; [reflexivity|]; congruence|]. destruct (z =? 6); [|discriminate P].
    destruct (Nat.ltb_spec t 3), (Nat.ltb_spec t'' 3); injection P as <-; injection Q as <-; cbn in B; try discriminate B; try lia;
      destruct (Nat.ltb_spec t' 3); try lia; eexists; (split; [reflexivity|reflexivity]).
  - intros t t' z p p' c c' P Q B C D. unfold ru_tab in *. destruct (z =? 5); [congruence|]. destruct (z =? 6); [|discriminate P].
    destruct (Nat.ltb t 3), (Nat.ltb t' 3); injection P as <-; injection Q as <-; cbn in *; congruence.
Qed.
Definition ru_h (z b : Z) (t : nat) : handle := Handle z b 0 1 t (S t) (Ok 1) (Ok true).
Definition ru_hs : list handle := [ru_h 6 200 4; ru_h 5 100 6].
Lemma ru_made other : Forall (made (ru_tab other)) ru_hs /\ NoDup (map h_pid ru_hs).
Proof. split; [|repeat constructor; cbn; intuition discriminate]. repeat constructor; cbn; try lia; eexists; (split; [reflexivity|reflexivity]). Qed.
(** get_tasks shows another process under the number of a task that has ended. *)
Theorem C158_shown_refuted : ~ (forall tab hs e, lives tab -> Forall (made tab) hs -> NoDup (map h_pid hs) ->
  In (SayBlock e) (snd (list_views (map (view_at tab) hs))) -> exists h, In h hs /\ h_pid h = te_pid e /\ own_cmd tab h (te_cmd e)).
Proof.
  intro H. destruct (ru_made (va_cmd (lit "x"))) as [M N].
  destruct (H (ru_tab (va_cmd (lit "x"))) ru_hs (TEntry (lit "x") 6 (lit "s.py") None None false (va_cmd (lit "x"))) (ru_lives _) M N) as (h & Hh & Hp & (t & p & P1 & P2 & P3)).
  - vm_compute. auto.
  - destruct Hh as [<-|[<-|[]]]; [|discriminate Hp]. cbn [ru_h h_pid h_birth te_cmd] in P1, P2, P3. unfold ru_tab in P1. change (6 =? 5) with false in P1. change (6 =? 6) with true in P1. cbv iota in P1. destruct (Nat.ltb t 3); injection P1 as <-; cbn [lf_birth lf_cmd] in P2, P3; [|discriminate P2].
    injection P3 as P3. discriminate P3.
Qed.
Print Assumptions C158_shown_refuted.
(** A number given to some other program meanwhile makes stop_task --name fail before it stops the task asked
    for. *)
Theorem C158_stopped_refuted :
  stop_views (StOpts (Some (lit "a")) None false false) (map (view_at (ru_tab [lit "vim"])) ru_hs) = (Err KeyError, []) /\
  there (ru_tab [lit "vim"]) (ru_h 5 100 6) 7 /\ own_cmd (ru_tab [lit "vim"]) (ru_h 5 100 6) (va_cmd (lit "a")).
Proof. split; [vm_compute; reflexivity|]. split; [eexists; split; reflexivity|exists O; eexists; repeat split]. Qed.
Print Assumptions C158_stopped_refuted.
(** --all does not signal the new owner of a number *)
Example C158_demo :
  lives (ru_tab [lit "vim"]) /\ Forall (made (ru_tab [lit "vim"])) ru_hs /\ NoDup (map h_pid ru_hs) /\
  stop_views (StOpts None None true false) (map (view_at (ru_tab [lit "vim"])) (rev ru_hs)) = (Err NoSuchProcess, [Signal 5 SIGTERM; SayTried 5]).
Proof. split; [apply ru_lives|]. split; [apply ru_made|]. split; [apply (ru_made [])|]. vm_compute. reflexivity. Qed.
