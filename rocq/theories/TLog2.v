(** C74, for strategies that set levels: exactly which lines are written. *)
From Verif Require Import PyBase PyStr MLog TLog.
Open Scope list_scope.
Open Scope Z_scope.

(** the level last set on a logger; 0 stands for none *)
Inductive last_set (n : lname) : list levent -> Z -> Prop :=
| ls_none past : (forall l, ~ In (LeLevel n l) past) -> last_set n past 0
| ls_some a l b : (forall l', ~ In (LeLevel n l') b) -> last_set n (a ++ LeLevel n l :: b) l.
(** whether a line is written: its level reaches the one set on its logger, or that of the
    task if none is set, and that of the destination *)
Definition admits (out : option str) (debug : bool) (past : list levent) (r : lrec) : Prop :=
  (exists own, last_set (r_name r) past own /\ (own = 0 -> least debug <= r_level r) /\ (own <> 0 -> own <= r_level r)) /\
  match target out with LogFile _ => least debug <= r_level r | _ => 0 <= r_level r end.
Inductive told (out : option str) (debug : bool) : list levent -> list levent -> list lrec -> Prop :=
| td_nil past : told out debug past [] []
| td_level past n l es rs : told out debug (past ++ [LeLevel n l]) es rs -> told out debug past (LeLevel n l :: es) rs
| td_yes past r es rs : admits out debug past r -> told out debug (past ++ [LeLog r]) es rs -> told out debug past (LeLog r :: es) (r :: rs)
| td_no past r es rs : ~ admits out debug past r -> told out debug (past ++ [LeLog r]) es rs -> told out debug past (LeLog r :: es) rs.

Definition level_of (n : lname) (s : logst) : Z := match n with LUser => lg_user s | LSystem => lg_system s end.
Lemma last_set_fun n past a b : last_set n past a -> last_set n past b -> a = b.
Proof.
  intros A B. destruct A as [past H|x l y H].
  - inversion B as [p H' |x' l' y' H' E]; subst; [reflexivity|]. exfalso. apply (H b). apply in_or_app. right. left. reflexivity.
  - inversion B as [p H' E|x' l' y' H' E]; subst; [exfalso; apply (H' l); apply in_or_app; right; left; reflexivity|].
    assert (K : forall x x' y y', x' ++ LeLevel n b :: y' = x ++ LeLevel n l :: y -> (forall k, ~ In (LeLevel n k) y) -> (forall k, ~ In (LeLevel n k) y') -> l = b).
    { clear. induction x as [|e x IH]; intros [|e' x'] y y' E H H'; cbn [app] in E; injection E; intros.
      - congruence.
      - subst. exfalso. apply (H b). apply in_or_app. right. left. reflexivity.
      - subst. exfalso. apply (H' l). apply in_or_app. right. left. reflexivity.
      - eapply IH; eassumption. }
    eapply K; eassumption.
Qed.
Lemma last_set_skip n past e own : (forall l, e <> LeLevel n l) -> last_set n past own -> last_set n (past ++ [e]) own.
Proof.
  intros N H. destruct H as [past H|a l b H].
  - constructor. intros l I. apply in_app_iff in I as [I|[I|[]]]; [exact (H l I)|exact (N l I)].
  - rewrite <- app_assoc. cbn [app]. constructor. intros l' I. apply in_app_iff in I as [I|[I|[]]]; [exact (H l' I)|exact (N l' I)].
Qed.

(** Exactly the lines that the levels admit are written, in order, to the one place. *)
Theorem C74_exact :
  forall out debug es, exists rs, told out debug [] es rs /\ task_log out debug es = map (fun r => (target out, r)) rs.
Proof.
  intros out debug es. unfold task_log.
  set (hl := match target out with LogFile _ => least debug | _ => 0 end).
  assert (G : forall es past s, lg_handlers s = [Handler (target out) hl] -> lg_root s = least debug -> (forall n, last_set n past (level_of n s)) ->
    exists rs, told out debug past es rs /\ lg_written (fold_left log_event es s) = lg_written s ++ map (fun r => (target out, r)) rs).
  { clear es. induction es as [|e es IH]; intros past s Hh Hr Hl; cbn [fold_left].
    { exists []. split; [constructor|]. rewrite app_nil_r. reflexivity. }
    destruct e as [r|n l]; cbn [log_event].
    - assert (Hl' : forall n, last_set n (past ++ [LeLog r]) (level_of n s)) by (intro n; apply last_set_skip; [discriminate|apply Hl]).
      assert (Ad : admits out debug past r <-> effective (r_name r) s <= r_level r /\ hl <= r_level r).
      { unfold admits, hl. assert (Q : (exists own, last_set (r_name r) past own /\ (own = 0 -> least debug <= r_level r) /\ (own <> 0 -> own <= r_level r)) <-> effective (r_name r) s <= r_level r).
        { assert (Ee : effective (r_name r) s = if level_of (r_name r) s =? 0 then least debug else level_of (r_name r) s) by (unfold effective, level_of; rewrite Hr; reflexivity).
          rewrite Ee. split.
          - intros (own & L & H1 & H2). rewrite (last_set_fun _ _ _ _ (Hl (r_name r)) L). destruct (Z.eqb_spec own 0); auto.
          - intro H. exists (level_of (r_name r) s). split; [apply Hl|]. destruct (Z.eqb_spec (level_of (r_name r) s) 0); split; intro; congruence || assumption. }
        rewrite Q. destruct (target out); reflexivity. }
      assert (No : forall s', lg_handlers s' = lg_handlers s -> lg_root s' = lg_root s -> lg_user s' = lg_user s -> lg_system s' = lg_system s ->
        exists rs, told out debug (past ++ [LeLog r]) es rs /\ lg_written (fold_left log_event es s') = lg_written s' ++ map (fun r => (target out, r)) rs).
      { intros s' E1 E2 E3 E4. apply IH; [congruence|congruence|]. intro n. replace (level_of n s') with (level_of n s) by (destruct n; cbn; congruence). apply Hl'. }
      unfold log_call. destruct (Z.leb_spec (effective (r_name r) s) (r_level r)) as [L1|L1].
      + rewrite Hh. cbn [filter map h_level h_dest]. destruct (Z.leb_spec hl (r_level r)) as [L2|L2]; cbn [map].
        * edestruct No as (rs & T & E); [..|exists (r :: rs); split; [apply td_yes; [apply Ad; auto|exact T]|etransitivity; [exact E|]]]; [symmetry; exact Hh|reflexivity..|].
          cbn [lg_written map]. rewrite <- app_assoc. reflexivity.
        * edestruct No as (rs & T & E); [..|exists rs; split; [apply td_no; [rewrite Ad; lia|exact T]|etransitivity; [exact E|]]]; [symmetry; exact Hh|reflexivity..|].
          cbn [lg_written]. rewrite app_nil_r. reflexivity.
      + destruct (No s) as (rs & T & E); try reflexivity. exists rs. split; [apply td_no; [rewrite Ad; lia|exact T]|exact E].
    - destruct (IH (past ++ [LeLevel n l]) (set_level n l s)) as (rs & T & E).
      + destruct n; exact Hh.
      + destruct n; exact Hr.
      + intro n'. assert (Same : level_of n (set_level n l s) = l) by (destruct n; reflexivity).
        destruct n, n'; try (cbn; apply (ls_some _ past l []); intros ? []); apply last_set_skip; try discriminate; apply Hl.
      + exists rs. split; [apply td_level, T|]. rewrite E. destruct n; reflexivity. }
  destruct (G es [] (runner_log out debug log_init)) as (rs & T & E).
  - unfold hl. destruct out as [[|c f]|], debug; reflexivity.
  - destruct out as [[|c f]|], debug; reflexivity.
  - intro n. replace (level_of n (runner_log out debug log_init)) with 0 by (destruct out as [[|c f]|], n; reflexivity). constructor. intros l [].
  - exists rs. split; [exact T|]. rewrite E. destruct out as [[|c f]|]; reflexivity.
Qed.
Print Assumptions C74_exact.
(** which is one outcome *)
Theorem C74_one : forall out debug past es rs rs', told out debug past es rs -> told out debug past es rs' -> rs = rs'.
Proof.
  intros out debug past es rs rs' T. revert rs'. induction T as [past|past n l es rs T IH|past r es rs A T IH|past r es rs A T IH]; intros rs' T'; inversion T'; subst; try contradiction; auto.
  f_equal. auto.
Qed.
Print Assumptions C74_one.
(** A strategy that asks for more on the standard output, then for less, then for the task's
    level again; a negative level is one like any other. *)
Example C74_exact_demo :
  let t k := LeLog (LRec LUser k (lit "x")) in
  task_log None false [t 10; LeLevel LUser 10; t 10; t 5; LeLevel LUser 40; t 30; LeLevel LUser 0; t 20; LeLevel LUser (-5); t 1; t (-1)] =
    map (fun k => (Stdout, LRec LUser k (lit "x"))) [10; 20; 1] /\
  admits None false [LeLevel LUser 10] (LRec LUser 10 (lit "x")) /\ ~ admits (Some (lit "f")) false [LeLevel LUser 10] (LRec LUser 10 (lit "x")).
Proof.
  cbv zeta. split; [vm_compute; reflexivity|]. split.
  - split; [|vm_compute; discriminate]. exists 10. split; [apply (ls_some LUser [] 10 []); intros ? []|]. cbn. split; lia.
  - intros [_ H]. vm_compute in H. apply H. reflexivity.
Qed.
