(** C141: the commands about tasks while processes come and go. *)
From Verif Require Import PyBase PyStr MTasks MGetTasks MStart MVanish STasks SVanish LTasks TTasks.
Open Scope list_scope.
Open Scope Z_scope.

(** ** Lemmas *)
Lemma spoke_iff p c : v_cmd p = Ok c -> (mentions c = true <-> spoke p).
Proof. intro E. rewrite mentions_iff. split; [intro H; exists c; auto|]. intros (c' & E' & H). congruence. Qed.
Lemma look_spec p : 
  (exists b q, look p = Ok (b, q) /\ (forall x, ~ blocks p x) /\ (b = true <-> spoke p) /\ (forall z, q = Some z <-> spoke p /\ v_ppid p = Ok z)) \/
  (exists x, look p = Err x /\ blocks p x).
Proof.
  assert (N : forall c, v_cmd p = Ok c -> forall x, v_cmd p <> Err x) by congruence.
  unfold look. destruct (v_cmd p) as [c|x] eqn:Ec.
  - assert (M := spoke_iff p c Ec). destruct (mentions c) eqn:Em.
    + assert (S : spoke p) by (apply M; reflexivity). destruct (v_ppid p) as [z|y] eqn:Ez.
      * left. exists true, (Some z). split; [reflexivity|]. split; [|split; [tauto|]].
        { intros x B. destruct B as [[R|[_ R]] _|x [R|[_ R]] _|x R _ _|x _ R _ _]; congruence. }
        intro w. split; [intros [= <-]; auto|]. intros [_ [= <-]]. reflexivity.
      * assert (G : refused p \/ y <> AccessDenied).
        { destruct y; try (right; discriminate). left. right. auto. }
        assert (K : y = AccessDenied \/ y = NoSuchProcess \/ (y <> AccessDenied /\ y <> NoSuchProcess /\
                    match y with AccessDenied => denied p true | NoSuchProcess => Ok (true, None) | x => Err x end = Err y)).
        { destruct y; (right; right; split; [discriminate|split; [discriminate|reflexivity]]) || auto. }
        destruct K as [->|[->|(K1 & K2 & ->)]].
        -- destruct G as [G|G]; [|congruence]. unfold denied. destruct (v_python p) as [[|]|x] eqn:Ey.
           ++ right. exists AccessDenied. split; [reflexivity|]. apply b_python; assumption.
           ++ left. exists true, None. split; [reflexivity|]. split; [|split; [tauto|]].
              { intros x B. destruct B as [_ R|x _ R|x R _ _|x _ R N1 _]; congruence. }
              intro w. split; [discriminate|]. intros [_ X]. discriminate.
           ++ right. exists x. split; [reflexivity|]. apply b_name; assumption.
        -- left. exists true, None. split; [reflexivity|]. split; [|split; [tauto|]].
           { intros x B. destruct B as [[R|[_ R]] _|x [R|[_ R]] _|x R _ _|x _ R _ N2]; congruence. }
           intro w. split; [discriminate|]. intros [_ X]. discriminate.
        -- right. exists y. split; [reflexivity|]. apply b_ppid; assumption.
    + left. exists false, None. assert (S : ~ spoke p) by (intro S; apply M in S; discriminate). split; [reflexivity|]. split; [|split; [split; [discriminate|tauto]|]].
      { intros x B. destruct B as [[R|[R _]] _|x [R|[R _]] _|x R _ _|x R _ _ _]; congruence || tauto. }
      intro w. split; [discriminate|]. tauto.
  - assert (S : ~ spoke p) by (intros (c & E & _); congruence).
    assert (K : x = AccessDenied \/ x = NoSuchProcess \/ (x <> AccessDenied /\ x <> NoSuchProcess /\
                match x with AccessDenied => denied p false | NoSuchProcess => Ok (false, None) | y => Err y end = Err x)).
    { destruct x; (right; right; split; [discriminate|split; [discriminate|reflexivity]]) || auto. }
    destruct K as [->|[->|(K1 & K2 & ->)]].
    + assert (R : refused p) by (left; exact Ec). unfold denied. destruct (v_python p) as [[|]|x] eqn:Ey.
      * right. exists AccessDenied. split; [reflexivity|]. apply b_python; assumption.
      * left. exists false, None. split; [reflexivity|]. split; [|split; [split; [discriminate|tauto]|]].
        { intros x B. destruct B as [_ R'|x _ R'|x R' N1 _|x R' _ _ _]; congruence || tauto. }
        intro w. split; [discriminate|]. tauto.
      * right. exists x. split; [reflexivity|]. apply b_name; assumption.
    + left. exists false, None. split; [reflexivity|]. split; [|split; [split; [discriminate|tauto]|]].
      { intros x B. destruct B as [[R|[R _]] _|x [R|[R _]] _|x R _ N2|x R _ _ _]; congruence || tauto. }
      intro w. split; [discriminate|]. tauto.
    + right. exists x. split; [reflexivity|]. apply b_cmd; assumption.
Qed.
Definition in_tasks (p : view) : bool := match look p with Ok (b, _) => b | Err _ => false end.
Definition parents_of (l : list view) : list Z := flat_map (fun p => match look p with Ok (_, Some z) => [z] | _ => [] end) l.
Lemma scan_views_ok l : (forall p x, In p l -> ~ blocks p x) -> forall t ps,
  scan_views l t ps = Ok (t ++ filter in_tasks l, ps ++ parents_of l).
Proof.
  induction l as [|p l IH]; intros H t ps; cbn [scan_views filter]; [rewrite !app_nil_r; reflexivity|].
  unfold parents_of. cbn [flat_map]. fold (parents_of l). unfold in_tasks at 1.
  destruct (look_spec p) as [(b & q & -> & _)|(x & _ & B)]; [|exfalso; apply (H p x); [left; reflexivity|exact B]].
  rewrite IH by (intros q' x Hq; apply H; right; exact Hq). destruct b, q as [z|]; rewrite <- ?app_assoc; reflexivity.
Qed.
Lemma scan_views_err l1 p l2 x : (forall q y, In q l1 -> ~ blocks q y) -> blocks p x -> forall t ps, scan_views (l1 ++ p :: l2) t ps = Err x.
Proof.
  intros H B. induction l1 as [|q l1 IH]; intros t ps; cbn [app scan_views].
  - destruct (look_spec p) as [(b & q & _ & N & _)|(y & -> & B')]; [exfalso; exact (N x B)|].
    assert (y = x); [|congruence].
    destruct B as [R P|z R P|z R N1 N2|z R1 R2 N1 N2]; destruct B' as [R' P'|z' R' P'|z' R' N1' N2'|z' R1' R2' N1' N2'];
      unfold refused, spoke in *; repeat match goal with
      | H : _ \/ _ |- _ => destruct H | H : exists _, _ |- _ => destruct H | H : _ /\ _ |- _ => destruct H end; congruence.
  - destruct (look_spec q) as [(b & z & -> & _)|(y & _ & B')]; [|exfalso; apply (H q y); [left; reflexivity|exact B']].
    apply IH. intros q' y Hq. apply H. right. exact Hq.
Qed.

(** ** Theorems *)

(** The processes the commands are about, if no process stands in the way: those that spoke of
    jqtrade and start_task and are nobody's parent, whatever became of them afterwards. *)
Theorem C141_listing :
  forall l, (forall p x, In p l -> ~ blocks p x) ->
    exists f, active_views l = (Ok (filter f l), []) /\ forall p, In p l -> (f p = true <-> task_among l p).
Proof.
  intros l H. exists (fun p => in_tasks p && negb (memb (v_pid p) (parents_of l))). split.
  - unfold active_views. rewrite (scan_views_ok l H). cbn [app]. f_equal. f_equal.
    generalize (parents_of l) as ps. intro ps. clear. induction l as [|p l IH]; [reflexivity|]. cbn [filter]. destruct (in_tasks p); cbn [andb filter]; rewrite IH; reflexivity.
  - intros p Hp. rewrite andb_true_iff, negb_true_iff. unfold task_among.
    assert (A : forall q, In q l -> (in_tasks q = true <-> spoke q)).
    { intros q Hq. unfold in_tasks. destruct (look_spec q) as [(b & z & -> & _ & Hb & _)|(x & _ & B)]; [exact Hb|]. exfalso. exact (H q x Hq B). }
    assert (P : memb (v_pid p) (parents_of l) = true <-> exists q, In q l /\ spoke q /\ v_ppid q = Ok (v_pid p)).
    { rewrite memb_In. unfold parents_of. rewrite in_flat_map. split; intros (q & Hq & X); exists q; (split; [exact Hq|]).
      - destruct (look_spec q) as [(b & z & E & _ & _ & Hz)|(x & E & _)]; rewrite E in X; [|destruct X].
        destruct z as [z|]; [|destruct X]. destruct X as [<-|[]]. apply Hz. reflexivity.
      - destruct (look_spec q) as [(b & z & E & _ & _ & Hz)|(x & E & B)]; [|exfalso; exact (H q x Hq B)]. rewrite E.
        apply Hz in X. rewrite X. left. reflexivity. }
    rewrite <- (A p Hp). split.
    + intros [E1 E2]. split; [exact Hp|]. split; [exact E1|]. intro X. apply P in X. congruence.
    + intros (_ & E1 & X). split; [exact E1|]. destruct (memb _ _); [exfalso; apply X, P; reflexivity|reflexivity].
Qed.
Print Assumptions C141_listing.

(** The first process that stands in the way ends every command before it does anything. *)
Theorem C141_blocked :
  forall l1 p l2 x, (forall q y, In q l1 -> ~ blocks q y) -> blocks p x ->
    let said := match x with AccessDenied => [SayDenied] | _ => [] end in
    (forall o, stop_views o (l1 ++ p :: l2) = (Err x, said)) /\
    list_views (l1 ++ p :: l2) = (Err x, said) /\
    forall pid ppid name, repeated_views pid ppid name (l1 ++ p :: l2) = Err x.
Proof.
  intros l1 p l2 x H B said. assert (E : active_views (l1 ++ p :: l2) = (Err x, said)).
  { unfold active_views, said. rewrite (scan_views_err l1 p l2 x H B). destruct x; reflexivity. }
  unfold stop_views, list_views, repeated_views. rewrite E. auto.
Qed.
Print Assumptions C141_blocked.

(** A process that is gone before it is looked at makes no difference to any command. *)
Theorem C141_gone :
  forall l1 p l2, gone p ->
    (forall o, stop_views o (l1 ++ p :: l2) = stop_views o (l1 ++ l2)) /\
    list_views (l1 ++ p :: l2) = list_views (l1 ++ l2) /\
    forall pid ppid name, repeated_views pid ppid name (l1 ++ p :: l2) = repeated_views pid ppid name (l1 ++ l2).
Proof.
  intros l1 p l2 G. assert (E : active_views (l1 ++ p :: l2) = active_views (l1 ++ l2)).
  { assert (S : forall t ps, scan_views (l1 ++ p :: l2) t ps = scan_views (l1 ++ l2) t ps); [|unfold active_views; rewrite S; reflexivity].
    induction l1 as [|q l1 IH]; intros t ps; cbn [app scan_views].
    - unfold look. rewrite G. reflexivity.
    - destruct (look q) as [[b z]|x]; [apply IH|reflexivity]. }
  unfold stop_views, list_views, repeated_views. rewrite E. auto.
Qed.
Print Assumptions C141_gone.

Lemma name_again_spec p : 
  (exists n i, rbind (v_again p) parse_task_info = Ok i /\ ti_name i = Some n /\ name_again p (Ok n)) \/
  (exists i, rbind (v_again p) parse_task_info = Ok i /\ ti_name i = None /\ name_again p (Err KeyError)) \/
  (exists x, rbind (v_again p) parse_task_info = Err x /\ name_again p (Err x)).
Proof.
  destruct (v_again p) as [c|x] eqn:E; cbn [rbind].
  - destruct (parse_task_info c) as [i|x] eqn:Ei; [|right; right; exists x; split; [reflexivity|apply (n_odd p c x); assumption]].
    destruct (ti_name i) as [n|] eqn:En.
    + left. exists n, i. split; [reflexivity|]. split; [exact En|]. apply (n_ok p c n); [assumption|exists i; auto].
    + right. left. exists i. split; [reflexivity|]. split; [exact En|]. apply (n_none p c i); assumption.
  - right. right. exists x. split; [reflexivity|apply n_gone; assumption].
Qed.
Lemma kill_view_spec force p : 
  (v_kill p = Ok tt /\ kill_view force p = Ok (signalled force p)) \/ (exists x, v_kill p = Err x /\ kill_view force p = Err x).
Proof. unfold kill_view, signalled. destruct (v_kill p) as [[]|x]; [left|right; exists x]; auto. Qed.

Lemma active_no_block l tasks said : active_views l = (Ok tasks, said) -> forall p x, In p l -> ~ blocks p x.
Proof.
  unfold active_views. intro E. assert (S : exists r, scan_views l [] [] = Ok r).
  { destruct (scan_views l [] []) as [r|x]; [eauto|]. destruct x; discriminate. }
  destruct S as [r S]. clear E. revert S. generalize (@nil view) as t, (@nil Z) as ps. induction l as [|q l IH]; intros t ps S p x [].
  - subst q. cbn [scan_views] in S. destruct (look_spec p) as [(b & z & _ & N & _)|(y & E & _)]; [apply N|rewrite E in S; discriminate].
  - cbn [scan_views] in S. destruct (look q) as [[b z]|y]; [|discriminate]. exact (IH _ _ S p x H).
Qed.
Lemma NoDup_map_filter {A B} (g : A -> B) f l : NoDup (map g l) -> NoDup (map g (filter f l)).
Proof.
  induction l as [|p l IH]; intro N; [constructor|]. cbn [map filter] in *. apply NoDup_cons_iff in N as [N1 N2].
  destruct (f p); [|apply IH, N2]. cbn [map]. constructor; [|apply IH, N2]. intro X. apply N1. apply in_map_iff in X as (q & E & X).
  apply filter_In in X. apply in_map_iff. exists q. tauto.
Qed.

Lemma kill_all_spec o l : st_all o = true -> forall d, exists sent e, turns o l sent e /\
  kill_all (st_force o) l d = (res_of e, d ++ flat_map (signalled (st_force o)) sent).
Proof.
  intro A. induction l as [|p l IH]; intro d; cbn [kill_all].
  - exists [], None. split; [constructor|]. rewrite app_nil_r. reflexivity.
  - destruct (kill_view_spec (st_force o) p) as [[K ->]|(x & K & ->)].
    + destruct (IH (d ++ signalled (st_force o) p)) as (sent & e & T & ->). exists (p :: sent), e. split.
      * apply ts_sent; [|exact T]. apply t_sent; [apply m_all, A|exact K].
      * cbn [flat_map]. rewrite app_assoc. reflexivity.
    + exists [], (Some x). split; [apply ts_stop, t_lost; [apply m_all, A|exact K]|]. rewrite app_nil_r. reflexivity.
Qed.
Lemma kill_pid_spec o z l : st_all o = false -> st_pid o = Some z -> z <> 0 -> NoDup (map v_pid l) -> exists sent e, turns o l sent e /\
  kill_pid (st_force o) (Some z) l = (res_of e, flat_map (signalled (st_force o)) sent).
Proof.
  intros A P Nz. induction l as [|p l IH]; intro ND; cbn [kill_pid].
  - exists [], None. split; [constructor|reflexivity].
  - cbn [map] in ND. apply NoDup_cons_iff in ND as [N1 N2]. destruct (eqb_spec (Some (v_pid p)) (Some z)) as [E|E].
    + assert (M : meant o p (Ok true)) by (apply (m_pid o p z); auto; split; congruence).
      destruct (kill_view_spec (st_force o) p) as [[K ->]|(x & K & ->)].
      * exists [p], None. split; [|cbn [flat_map]; rewrite app_nil_r; reflexivity]. apply ts_sent; [apply t_sent; assumption|].
        assert (Z : forall q, In q l -> v_pid q <> z). { intros q Hq X. apply N1, in_map_iff. exists q. split; [congruence|exact Hq]. }
        clear - A P Nz Z. induction l as [|q l IH]; [constructor|]. apply ts_pass; [|apply IH; intros; apply Z; right; assumption].
        apply t_pass, (m_pid o q z); auto. split; [discriminate|]. intro X. exfalso. apply (Z q); [left; reflexivity|exact X].
      * exists [], (Some x). split; [apply ts_stop, t_lost; assumption|reflexivity].
    + destruct (IH N2) as (sent & e & T & ->). exists sent, e. split; [|reflexivity]. apply ts_pass; [|exact T].
      apply t_pass, (m_pid o p z); auto. split; [discriminate|]. intro X. exfalso. apply E. congruence.
Qed.
Lemma kill_named_spec o n l : st_all o = false -> (st_pid o = None \/ st_pid o = Some 0) -> st_name o = Some n -> forall d, exists sent e, turns o l sent e /\
  kill_named (st_force o) (Some n) l d = (res_of e, d ++ flat_map (signalled (st_force o)) sent).
Proof.
  intros A P Nm. induction l as [|p l IH]; intro d; cbn [kill_named].
  - exists [], None. split; [constructor|]. rewrite app_nil_r. reflexivity.
  - destruct (name_again_spec p) as [(m & i & -> & -> & N)|[(i & -> & -> & N)|(x & -> & N)]].
    + destruct (eqb_spec (Some n) (Some m)) as [E|E].
      * assert (M : meant o p (Ok true)) by (apply (m_name o p n m); auto; split; congruence).
        destruct (kill_view_spec (st_force o) p) as [[K ->]|(x & K & ->)].
        -- destruct (IH (d ++ signalled (st_force o) p)) as (sent & e & T & ->). exists (p :: sent), e. split.
           ++ apply ts_sent; [apply t_sent; assumption|exact T].
           ++ cbn [flat_map]. rewrite app_assoc. reflexivity.
        -- exists [], (Some x). split; [apply ts_stop, t_lost; assumption|]. rewrite app_nil_r. reflexivity.
      * destruct (IH d) as (sent & e & T & ->). exists sent, e. split; [|reflexivity]. apply ts_pass; [|exact T].
        apply t_pass, (m_name o p n m); auto. split; [discriminate|]. intro X. exfalso. apply E. congruence.
    + exists [], (Some KeyError). split; [apply ts_stop, t_err, m_err; auto|]. rewrite app_nil_r. reflexivity.
    + exists [], (Some x). split; [apply ts_stop, t_err, m_err; auto|]. rewrite app_nil_r. reflexivity.
Qed.

(** What stop_task does: the tasks have their turns in the order of the process table, up to
    the first error; each process meant is signalled and the line that says so printed; after
    an error nothing more is done. *)
Theorem C141_stop :
  forall o l tasks said, NoDup (map v_pid l) -> active_views l = (Ok tasks, said) -> something_given o ->
    exists sent e, turns o tasks sent e /\
      stop_views o l = (res_of e, flat_map (signalled (st_force o)) sent ++ match e with None => closing (st_force o) sent | Some _ => [] end).
Proof.
  intros o l tasks said ND E Hg. destruct (C141_listing l (active_no_block l tasks said E)) as (f & E' & _).
  rewrite E in E'. injection E' as -> ->. assert (NDt := NoDup_map_filter v_pid f l ND). unfold stop_views. rewrite E.
  assert (G : negb (truthy_str (st_name o)) && negb (truthy_pid (st_pid o)) && negb (st_all o) = false).
  { destruct Hg as [->|[(z & -> & Nz)|(n & -> & Nn)]]; cbn.
    - rewrite andb_false_r. reflexivity.
    - destruct (Z.eqb_spec z 0) as [|]; [contradiction|]. cbn. rewrite andb_false_r. reflexivity.
    - destruct n; [contradiction|reflexivity]. }
  rewrite G.
  assert (K : exists sent e, turns o (filter f l) sent e /\ (if st_all o then kill_all (st_force o) (filter f l) []
       else if truthy_pid (st_pid o) then kill_pid (st_force o) (st_pid o) (filter f l)
       else kill_named (st_force o) (st_name o) (filter f l) []) = (res_of e, flat_map (signalled (st_force o)) sent)).
  { destruct (st_all o) eqn:A; [exact (kill_all_spec o _ A [])|]. destruct (truthy_pid (st_pid o)) eqn:Et.
    - destruct (st_pid o) as [z|] eqn:Ez; [|discriminate]. cbn in Et. apply negb_true_iff, Z.eqb_neq in Et. apply kill_pid_spec; assumption.
    - assert (P : st_pid o = None \/ st_pid o = Some 0).
      { destruct (st_pid o) as [z|]; [|auto]. right. cbn in Et. apply negb_false_iff, Z.eqb_eq in Et. congruence. }
      destruct (st_name o) as [n|] eqn:En; [|cbn in G; discriminate]. exact (kill_named_spec o n _ A P En []). }
  destruct K as (sent & e & T & ->). exists sent, e. split; [exact T|]. destruct e as [x|]; cbn [res_of]; [rewrite app_nil_r; reflexivity|].
  f_equal. f_equal. unfold closing. destruct sent as [|p sent]; [reflexivity|]. cbn [flat_map]. unfold signalled at 1. destruct (st_force o); reflexivity.
Qed.
Print Assumptions C141_stop.

(** The turns are determined by the answers. *)
Lemma name_again_one p r r' : name_again p r -> name_again p r' -> r = r'.
Proof.
  intros [c n E (i & Ei & En)|x E|c x E Ei|c i E Ei En] [c' n' E' (i' & Ei' & En')|x' E'|c' x' E' Ei'|c' i' E' Ei' En'];
    rewrite E in E'; injection E' as E' || discriminate; subst; try congruence; rewrite Ei in Ei'; injection Ei' as Ei' || discriminate; subst; congruence.
Qed.
Lemma meant_one o p r r' : meant o p r -> meant o p r' -> r = r'.
Proof.
  assert (B : forall (b b' : bool) (P : Prop), (b = true <-> P) -> (b' = true <-> P) -> b = b').
  { intros [] [] P H H'; try reflexivity; [symmetry; apply H', H|apply H, H']; reflexivity. }
  intros [A|z b A P Z H|n m b A P N Ha H|x A P Ha] [A'|z' b' A' P' Z' H'|n' m' b' A' P' N' Ha' H'|x' A' P' Ha']; try congruence;
    try (destruct P; congruence); try (destruct P'; congruence).
  - f_equal. apply (B b b' (v_pid p = z)); [exact H|]. replace z with z' by congruence. exact H'.
  - f_equal. assert (X := name_again_one p _ _ Ha Ha'). injection X as <-. apply (B b b' (n = m)); [exact H|]. replace n with n' by congruence. exact H'.
  - assert (X := name_again_one p _ _ Ha Ha'). discriminate.
  - assert (X := name_again_one p _ _ Ha Ha'). discriminate.
  - assert (X := name_again_one p _ _ Ha Ha'). congruence.
Qed.
Theorem C141_turns :
  forall o l sent e sent' e', turns o l sent e -> turns o l sent' e' -> sent = sent' /\ e = e'.
Proof.
  assert (T : forall o p r r', turn o p r -> turn o p r' -> r = r').
  { intros o p r r' [M|M K|x M K|x M] [M'|M' K'|x' M' K'|x' M']; assert (X := meant_one o p _ _ M M'); congruence. }
  intros o l sent e sent' e' H. revert sent' e'. induction H as [|p l sent e Ht H IH|p l sent e Ht H IH|p l x Ht]; intros sent' e' H'; inversion H'; subst;
    try (match goal with A : turn o p _, B : turn o p _ |- _ => assert (X := T o p _ _ A B); (discriminate X || (injection X as X; subst)) end).
  - auto.
  - apply IH. assumption.
  - match goal with A : turns o l _ _ |- _ => destruct (IH _ _ A) as [-> ->] end. auto.
  - auto.
Qed.
Print Assumptions C141_turns.

(** --all signals every task, if none of them has ended or is protected when its turn comes. *)
Theorem C141_all_partial :
  forall o l, NoDup (map v_pid l) -> st_all o = true -> (forall p x, In p l -> ~ blocks p x) -> (forall p, task_among l p -> v_kill p = Ok tt) ->
    fst (stop_views o l) = Ok tt /\
    forall z s, In (z, s) (signals (snd (stop_views o l))) <-> s = (if st_force o then SIGKILL else SIGTERM) /\ exists p, task_among l p /\ v_pid p = z.
Proof.
  intros o l ND A H K. destruct (C141_listing l H) as (f & E & Hf). unfold stop_views. rewrite E, A, andb_false_r.
  assert (G : forall ts d, (forall p, In p ts -> v_kill p = Ok tt) -> kill_all (st_force o) ts d = (Ok tt, d ++ flat_map (signalled (st_force o)) ts)).
  { clear. induction ts as [|p ts IH]; intros d Hk; cbn [kill_all flat_map]; [rewrite app_nil_r; reflexivity|].
    destruct (kill_view_spec (st_force o) p) as [[_ ->]|(x & X & _)]; [|rewrite (Hk p (or_introl eq_refl)) in X; discriminate].
    rewrite IH by (intros; apply Hk; right; assumption). rewrite app_assoc. reflexivity. }
  rewrite G by (intros p Hp; apply filter_In in Hp as [Hp Ef]; apply K, Hf; assumption). cbn [fst snd app]. split; [reflexivity|].
  intros z s. unfold signals. rewrite flat_map_app, in_app_iff.
  assert (C : forall a : list act, flat_map (fun x => match x with Signal z s => [(z, s)] | _ => [] end) match a with [] => [SayNothing] | _ :: _ => if st_force o then [] else [SayHint] end = []).
  { intros []; [reflexivity|]. destruct (st_force o); reflexivity. }
  rewrite C. rewrite in_flat_map. split.
  - intros [(x & Hx & X)|[]]. apply in_flat_map in Hx as (p & Hp & Hx). apply filter_In in Hp as [Hp Ef].
    assert (T : task_among l p) by (apply Hf; assumption). unfold signalled in Hx.
    destruct (st_force o); destruct Hx as [<-|[<-|[]]]; cbn in X; try contradiction; destruct X as [X|[]]; injection X as <- <-; eauto.
  - intros [-> (p & T & <-)]. left. exists (Signal (v_pid p) (if st_force o then SIGKILL else SIGTERM)). split; [|left; reflexivity].
    apply in_flat_map. exists p. split; [apply filter_In; split; [apply T|apply Hf; [apply T|exact T]]|]. unfold signalled. destruct (st_force o); left; reflexivity.
Qed.
Print Assumptions C141_all_partial.

(** In general a task after one that cannot be signalled is left running by --all. *)
Theorem C141_after_lost :
  forall o l a p b said x, st_all o = true -> active_views l = (Ok (a ++ p :: b), said) -> v_kill p = Err x -> (forall q, In q a -> v_kill q = Ok tt) ->
    stop_views o l = (Err x, flat_map (signalled (st_force o)) a).
Proof.
  intros o l a p b said x A E K Ha. unfold stop_views. rewrite E, A, andb_false_r.
  assert (G : forall d, kill_all (st_force o) (a ++ p :: b) d = (Err x, d ++ flat_map (signalled (st_force o)) a)); [|rewrite G; reflexivity].
  clear E. induction a as [|q a IH]; intro d; cbn [app kill_all flat_map].
  - unfold kill_view. rewrite K, app_nil_r. reflexivity.
  - destruct (kill_view_spec (st_force o) q) as [[_ ->]|(y & X & _)]; [|rewrite (Ha q (or_introl eq_refl)) in X; discriminate].
    rewrite IH by (intros; apply Ha; right; assumption). rewrite app_assoc. reflexivity.
Qed.
Print Assumptions C141_after_lost.

Lemma block_spec p : 
  (exists e c i n f, v_again p = Ok c /\ parse_task_info c = Ok i /\ ti_name i = Some n /\ ti_code i = Some f /\
     e = TEntry n (v_pid p) f (ti_out i) (ti_env i) (ti_debug i) c /\ block p (Ok e)) \/
  (exists x, block p (Err x) /\ forall l d, print_views (p :: l) d = (Err x, d)).
Proof.
  destruct (v_again p) as [c|x] eqn:Ec; [|right; exists x; split; [apply k_gone; exact Ec|]; intros; cbn [print_views]; rewrite Ec; reflexivity].
  destruct (parse_task_info c) as [i|x] eqn:Ei; [|right; exists x; split; [apply (k_odd p c); assumption|]; intros; cbn [print_views]; rewrite Ec, Ei; reflexivity].
  destruct (ti_name i) as [n|] eqn:En; [destruct (ti_code i) as [f|] eqn:Ef|].
  - left. eexists _, c, i, n, f. repeat (split; [first [reflexivity|eassumption]|]). apply k_ok; assumption.
  - right. exists KeyError. split; [apply (k_none p c i); auto|]. intros. cbn [print_views]. rewrite Ec, Ei, En, Ef. reflexivity.
  - right. exists KeyError. split; [apply (k_none p c i); auto|]. intros. cbn [print_views]. rewrite Ec, Ei, En. reflexivity.
Qed.
(** What get_tasks prints: the blocks of the tasks in the order of the process table, up to the
    first that cannot be made. *)
Theorem C141_shown :
  forall l tasks said, active_views l = (Ok tasks, said) ->
    (tasks = [] /\ list_views l = (Ok tt, [SayNoTasks])) \/
    (tasks <> [] /\ exists es e, blocks_of tasks es e /\ list_views l = (res_of e, SayTitle :: map SayBlock es)).
Proof.
  intros l tasks said E. destruct (C141_listing l (active_no_block l tasks said E)) as (f & E' & _). assert (X := E'). rewrite E in X. injection X as E1 E2.
  unfold list_views. rewrite E. destruct tasks as [|p tasks]; [left; split; [reflexivity|rewrite E2; reflexivity]|]. right. split; [discriminate|].
  assert (G : forall ts d, exists es e, blocks_of ts es e /\ print_views ts d = (res_of e, d ++ map SayBlock es)).
  { clear. induction ts as [|p ts IH]; intro d; [exists [], None; split; [constructor|]; cbn; rewrite app_nil_r; reflexivity|].
    destruct (block_spec p) as [(e & c & i & n & f & E1 & E2 & E3 & E4 & E5 & B)|(x & B & Hx)].
    - destruct (IH (d ++ [SayBlock e])) as (es & y & T & Hy). exists (e :: es), y. split; [apply bs_ok; assumption|].
      cbn [print_views]. rewrite E1, E2, E3, E4. rewrite <- E5, Hy, <- app_assoc. reflexivity.
    - exists [], (Some x). split; [apply bs_stop, B|]. rewrite Hx, app_nil_r. reflexivity. }
  exact (G _ [SayTitle]).
Qed.
Print Assumptions C141_shown.

(** The check before a start: processes that are the new one or its parent are passed over; the
    first other task whose name cannot be read refuses the start, whatever it was called. *)
Theorem C141_start :
  forall pid ppid name l tasks said, active_views l = (Ok tasks, said) ->
    match repeated_views pid ppid name l with
    | Ok true => exists a p b, tasks = a ++ p :: b /\ v_pid p <> pid /\ v_pid p <> ppid /\ name_again p (Ok name) /\
                   forall q, In q a -> v_pid q = pid \/ v_pid q = ppid \/ exists n, name_again q (Ok n) /\ n <> name
    | Ok false => forall p, In p tasks -> v_pid p = pid \/ v_pid p = ppid \/ exists n, name_again p (Ok n) /\ n <> name
    | Err x => exists a p b, tasks = a ++ p :: b /\ v_pid p <> pid /\ v_pid p <> ppid /\ name_again p (Err x) /\
                   forall q, In q a -> v_pid q = pid \/ v_pid q = ppid \/ exists n, name_again q (Ok n) /\ n <> name
    end.
Proof.
  intros pid ppid name l tasks said E. unfold repeated_views. rewrite E. cbn [fst rbind]. clear E.
  induction tasks as [|p ts IH]; cbn [same_view]; [intros p []|].
  assert (D : memb (v_pid p) [pid; ppid] = true \/ (memb (v_pid p) [pid; ppid] = false /\ v_pid p <> pid /\ v_pid p <> ppid)).
  { destruct (memb (v_pid p) [pid; ppid]) eqn:M; [auto|]. right. split; [reflexivity|]. split; intro X; assert (memb (v_pid p) [pid; ppid] = true); try congruence; apply memb_In; rewrite X; cbn; auto. }
  assert (Step : (v_pid p = pid \/ v_pid p = ppid \/ exists n, name_again p (Ok n) /\ n <> name) ->
    match same_view pid ppid name ts with
    | Ok true => exists a q b, p :: ts = a ++ q :: b /\ v_pid q <> pid /\ v_pid q <> ppid /\ name_again q (Ok name) /\
                   forall q, In q a -> v_pid q = pid \/ v_pid q = ppid \/ exists n, name_again q (Ok n) /\ n <> name
    | Ok false => forall q, In q (p :: ts) -> v_pid q = pid \/ v_pid q = ppid \/ exists n, name_again q (Ok n) /\ n <> name
    | Err x => exists a q b, p :: ts = a ++ q :: b /\ v_pid q <> pid /\ v_pid q <> ppid /\ name_again q (Err x) /\
                   forall q, In q a -> v_pid q = pid \/ v_pid q = ppid \/ exists n, name_again q (Ok n) /\ n <> name
    end).
  { intro Hp. destruct (same_view pid ppid name ts) as [[|]|x].
    - destruct IH as (a & q & b & -> & H1 & H2 & H3 & H4). exists (p :: a), q, b. repeat (split; [first [reflexivity|assumption]|]). intros q' [<-|Hq']; auto.
    - intros q [<-|Hq]; auto.
    - destruct IH as (a & q & b & -> & H1 & H2 & H3 & H4). exists (p :: a), q, b. repeat (split; [first [reflexivity|assumption]|]). intros q' [<-|Hq']; auto. }
  destruct D as [M|(M & N1 & N2)]; rewrite M.
  { apply Step. apply memb_In in M. cbn in M. intuition. }
  destruct (name_again_spec p) as [(m & i & -> & Hm & N)|[(i & -> & Hm & N)|(x & -> & N)]]; cbn [rbind]; [rewrite Hm|rewrite Hm|].
  - destruct (eqb_spec name m) as [->|Nm].
    + exists [], p, ts. repeat (split; [first [reflexivity|assumption]|]). intros q [].
    + apply Step. right. right. exists m. split; [exact N|congruence].
  - exists [], p, ts. repeat (split; [first [reflexivity|assumption]|]). intros q [].
  - exists [], p, ts. repeat (split; [first [reflexivity|assumption]|]). intros q [].
Qed.
Print Assumptions C141_start.

Lemma look_steady p : look (steady p) =
  if p_denied p then if p_python p then Err AccessDenied else Ok (false, None)
  else if mentions (p_cmd p) then Ok (true, Some (p_ppid p)) else Ok (false, None).
Proof. unfold look, denied, steady. cbn. destruct (p_denied p); [destruct (p_python p); reflexivity|]. destruct (mentions _); reflexivity. Qed.
Lemma scan_steady table : forall t ps, scan_views (map steady table) (map steady t) ps =
  match scan table t ps with Ok (ts, qs) => Ok (map steady ts, qs) | Err x => Err x end.
Proof.
  induction table as [|p l IH]; intros t ps; cbn [map scan_views scan]; [reflexivity|]. rewrite look_steady.
  destruct (p_denied p); [destruct (p_python p); [reflexivity|apply IH]|]. destruct (mentions (p_cmd p)); [|apply IH].
  rewrite <- IH, map_app. reflexivity.
Qed.
Lemma active_steady table : fst (active_views (map steady table)) = match get_active table with Ok ts => Ok (map steady ts) | Err x => Err x end.
Proof.
  unfold active_views, get_active. assert (S := scan_steady table [] []). cbn [map] in S. rewrite S. destruct (scan table [] []) as [[ts ps]|x]; cbn [rbind]; [|destruct x; reflexivity].
  cbn [fst]. f_equal. clear. induction ts as [|p ts IH]; [reflexivity|]. cbn [map filter]. cbn [steady v_pid]. destruct (negb (memb (p_pid p) ps)); cbn [map]; rewrite IH; reflexivity.
Qed.
(** On a process table that stands still the commands do what MTasks.v, MGetTasks.v and MStart.v
    say, so that what is proved of those holds here. *)
Theorem C141_steady :
  forall table,
    (forall o, fst (stop_views o (map steady table)) = fst (stop_task o table) /\ signals (snd (stop_views o (map steady table))) = sent_signals o table) /\
    (fst (list_views (map steady table)) = fst (get_tasks table) /\
     flat_map (fun a => match a with SayBlock e => [e] | _ => [] end) (snd (list_views (map steady table))) =
       match snd (get_tasks table) with Some (LBlocks es) => es | _ => [] end) /\
    (forall pid ppid name, repeated_views pid ppid name (map steady table) = exist_repeated pid ppid name table).
Proof.
  intro table. assert (Ea := active_steady table).
  assert (Es : forall ts said, active_views (map steady table) = (Ok ts, said) -> said = []).
  { intros ts said E. destruct (C141_listing _ (active_no_block _ _ _ E)) as (f & E' & _). congruence. }
  assert (Ex : forall x said, active_views (map steady table) = (Err x, said) -> signals said = [] /\ flat_map (fun a => match a with SayBlock e => [e] | _ => [] end) said = []).
  { unfold active_views. destruct (scan_views _ _ _) as [[ts ps]|x]; [discriminate|]. intros y said E. destruct x; injection E as _ <-; auto. }
  unfold stop_views, stop_task, list_views, get_tasks, repeated_views, exist_repeated, sent_signals, stop_task.
  destruct (active_views (map steady table)) as [r said] eqn:E. cbn [fst] in Ea. rewrite Ea in *. clear Ea. destruct (get_active table) as [ts|x]; cbn [rbind].
  2:{ destruct (Ex x said eq_refl) as [X1 X2]. cbn [fst snd]. split; [|split; [|reflexivity]].
      - intro o. split; [reflexivity|]. exact X1.
      - split; [reflexivity|]. exact X2. }
  rewrite (Es _ _ eq_refl). clear. split; [|split].
  - intro o. destruct (negb _ && _ && _) eqn:G; [cbn; auto|].
    assert (Sg : forall l d, signals (d ++ flat_map (signalled (st_force o)) (map steady l)) = signals d ++ map (fun z => (z, if st_force o then SIGKILL else SIGTERM)) (map p_pid l)).
    { intros l d. unfold signals at 1. rewrite flat_map_app. fold (signals d). f_equal. induction l as [|p l IH]; [reflexivity|]. cbn [map flat_map]. rewrite flat_map_app, IH.
      unfold signalled. destruct (st_force o); reflexivity. }
    assert (Cl : forall a, signals (a ++ match a with [] => [SayNothing] | _ :: _ => if st_force o then [] else [SayHint] end) = signals a).
    { intro a. unfold signals. rewrite flat_map_app. destruct a as [|y a]; [reflexivity|]. destruct (st_force o); cbn [flat_map]; rewrite app_nil_r; reflexivity. }
    assert (All : forall l d, kill_all (st_force o) (map steady l) d = (Ok tt, d ++ flat_map (signalled (st_force o)) (map steady l))).
    { induction l as [|p l IH]; intro d; cbn [map kill_all flat_map]; [rewrite app_nil_r; reflexivity|]. unfold kill_view at 1. cbn [steady v_kill].
      rewrite IH. fold (signalled (st_force o) (steady p)). rewrite app_assoc. reflexivity. }
    destruct (st_all o).
    + rewrite All. cbn [fst snd]. split; [reflexivity|]. rewrite Cl. apply (Sg ts []).
    + destruct (truthy_pid (st_pid o)).
      * assert (K : kill_pid (st_force o) (st_pid o) (map steady ts) =
                  (Ok tt, match find (fun p => eqb (Some (p_pid p)) (st_pid o)) ts with Some p => signalled (st_force o) (steady p) | None => [] end)).
        { induction ts as [|p ts IH]; [reflexivity|]. cbn [map kill_pid find]. cbn [steady v_pid]. destruct (eqb (Some (p_pid p)) (st_pid o)); [reflexivity|exact IH]. }
        rewrite K. cbn [fst snd]. split; [reflexivity|]. rewrite Cl. destruct (find _ ts) as [p|]; [|reflexivity]. unfold signalled. destruct (st_force o); reflexivity.
      * assert (K : forall l d sent, signals d = map (fun z => (z, if st_force o then SIGKILL else SIGTERM)) sent ->
                  fst (kill_named (st_force o) (st_name o) (map steady l) d) = fst (stop_named (st_name o) l sent) /\
                  signals (snd (kill_named (st_force o) (st_name o) (map steady l) d)) = map (fun z => (z, if st_force o then SIGKILL else SIGTERM)) (snd (stop_named (st_name o) l sent))).
        { induction l as [|p l IH]; intros d sent Hd; cbn [map kill_named stop_named]; [auto|]. cbn [steady v_again rbind].
          destruct (parse_task_info (p_cmd p)) as [i|x]; [|auto]. destruct (ti_name i) as [m|]; [|auto]. destruct (eqb (st_name o) (Some m)); [|apply IH, Hd].
          unfold kill_view. cbn [steady v_kill]. apply IH. rewrite map_app, <- Hd. unfold signals. rewrite flat_map_app. cbn [steady v_pid]. destruct (st_force o); reflexivity. }
        destruct (K ts [] [] eq_refl) as [K1 K2]. destruct (kill_named _ _ _ _) as [[u|x] a] eqn:Ek; cbn [fst snd] in *.
        -- rewrite Cl. split; [rewrite <- K1; destruct u; reflexivity|exact K2].
        -- auto.
  - destruct ts as [|p ts]; [cbn; auto|]. cbn [map].
    assert (K : forall l d es, flat_map (fun a => match a with SayBlock e => [e] | _ => [] end) d = es ->
              fst (print_views (map steady l) d) = fst (print_tasks l es) /\
              flat_map (fun a => match a with SayBlock e => [e] | _ => [] end) (snd (print_views (map steady l) d)) = snd (print_tasks l es)).
    { induction l as [|q l IH]; intros d es Hd; cbn [map print_views print_tasks]; [auto|]. cbn [steady v_again].
      destruct (parse_task_info (p_cmd q)) as [i|x]; [|auto]. destruct (ti_name i); [|auto]. destruct (ti_code i); [|auto].
      apply IH. rewrite flat_map_app, Hd. reflexivity. }
    destruct (K (p :: ts) [SayTitle] [] eq_refl) as [K1 K2]. cbn [map] in K1, K2. destruct (print_tasks (p :: ts) []) as [r es]. cbn [fst snd] in *. auto.
  - intros pid ppid name. cbn [fst rbind]. induction ts as [|p ts IH]; [reflexivity|]. cbn [map same_view same_name]. cbn [steady v_pid v_again rbind].
    rewrite IH. reflexivity.
Qed.
Print Assumptions C141_steady.

(** ** Witnesses *)
Definition va_cmd (n : str) : list str := [lit "python"; lit "-m"; lit "jqtrade"; lit "start_task"; lit "-n"; n; lit "-c"; lit "s.py"].
Definition va (pid : Z) (n : str) (again : res (list str)) (kill : res unit) : view := View pid (Ok (va_cmd n)) (Ok 1) (Ok true) again kill.
Definition va_live (pid : Z) (n : str) : view := va pid n (Ok (va_cmd n)) (Ok tt).
Definition va_ended (pid : Z) (n : str) : view := va pid n (Err NoSuchProcess) (Err NoSuchProcess).
(** False: --all signals every task that keeps running; a task that ends between being listed
    and its turn ends the command, and the tasks after it keep running. *)
Theorem C141_all_refuted :
  ~ (forall o l p, NoDup (map v_pid l) -> st_all o = true -> (forall q x, In q l -> ~ blocks q x) -> task_among l p -> v_kill p = Ok tt -> 
       exists s, In (v_pid p, s) (signals (snd (stop_views o l)))).
Proof.
  intro H. assert (S : forall n, speaks (va_cmd n)).
  { intro n. exists (lit "python -m "), (lit " start_task -n " ++ n ++ lit " -c s.py"), (lit "python -m jqtrade "), (lit " -n " ++ n ++ lit " -c s.py"). split; reflexivity. }
  destruct (H (StOpts None None true false) [va_live 5 (lit "a"); va_ended 6 (lit "b"); va_live 7 (lit "c")] (va_live 7 (lit "c"))) as (s & Hs).
  - repeat constructor; cbn; intuition discriminate.
  - reflexivity.
  - intros q x [<-|[<-|[<-|[]]]] B; destruct B as [[R|[_ R]] _|x [R|[_ R]] _|x R _ _|x _ R _ _]; discriminate.
  - split; [right; right; left; reflexivity|]. split; [exists (va_cmd (lit "c")); split; [reflexivity|apply S]|].
    intros (q & [<-|[<-|[<-|[]]]] & _ & X); discriminate.
  - reflexivity.
  - assert (E : signals (snd (stop_views (StOpts None None true false) [va_live 5 (lit "a"); va_ended 6 (lit "b"); va_live 7 (lit "c")])) = [(5, SIGTERM)]) by (vm_compute; reflexivity).
    rewrite E in Hs. destruct Hs as [X|[]]. discriminate X.
Qed.
Print Assumptions C141_all_refuted.
(** False: a start is refused only for a task of the same name; it fails as well when another
    task ends between being listed and being asked for its name.  get_tasks and --name fail then too. *)
Theorem C141_start_refuted :
  repeated_views 9 8 (lit "new") [va_live 5 (lit "a"); va_ended 6 (lit "b")] = Err NoSuchProcess /\
  fst (list_views [va_ended 6 (lit "b"); va_live 7 (lit "c")]) = Err NoSuchProcess /\
  stop_views (StOpts (Some (lit "c")) None false false) [va_ended 6 (lit "b"); va_live 7 (lit "c")] = (Err NoSuchProcess, []).
Proof. vm_compute. auto. Qed.
Print Assumptions C141_start_refuted.
(** A process that ends between the two questions of utils.py:29 and 32 stays in the list. *)
Example C141_half_seen :
  let p := View 6 (Ok (va_cmd (lit "b"))) (Err NoSuchProcess) (Err NoSuchProcess) (Err NoSuchProcess) (Err NoSuchProcess) in
  active_views [p] = (Ok [p], []) /\ fst (list_views [p]) = Err NoSuchProcess.
Proof. vm_compute. auto. Qed.
Example C141_demo :
  stop_views (StOpts None None true true) [va_live 5 (lit "a"); View 2 (Err NoSuchProcess) (Err NoSuchProcess) (Ok false) (Err NoSuchProcess) (Err NoSuchProcess); va_live 7 (lit "c")] =
    (Ok tt, [Signal 5 SIGKILL; SayForced 5; Signal 7 SIGKILL; SayForced 7]) /\
  stop_views (StOpts (Some (lit "c")) None false false) [va_live 5 (lit "a"); va_live 7 (lit "c")] = (Ok tt, [Signal 7 SIGTERM; SayTried 7; SayHint]) /\
  stop_views (StOpts (Some (lit "x")) None false false) [va_live 5 (lit "a"); va_live 7 (lit "c")] = (Ok tt, [SayNothing]) /\
  stop_views (StOpts None (Some 7) false false) [View 3 (Err AccessDenied) (Ok 1) (Ok true) (Err AccessDenied) (Ok tt); va_live 7 (lit "c")] = (Err AccessDenied, [SayDenied]) /\
  list_views [va_live 5 (lit "a"); va_ended 6 (lit "b")] =
    (Err NoSuchProcess, [SayTitle; SayBlock (TEntry (lit "a") 5 (lit "s.py") None None false (va_cmd (lit "a")))]).
Proof. vm_compute. auto 10. Qed.
