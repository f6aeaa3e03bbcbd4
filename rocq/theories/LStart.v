(** Lemmas for C91. *)
From Verif Require Import PyBase PyStr LStr LGate MUtils MTasks MLog SUtils STasks LUtils LTasks TUtils MStart SStart.
Open Scope list_scope.

(** ** The process table *)
Lemma scan_seen l : readable l -> forall t ps, scan l t ps = scan (seen l) t ps.
Proof.
  induction l as [|p l IH]; intros R t ps; [reflexivity|]. cbn [scan seen filter].
  assert (R' : readable l) by (intros q Hq; apply R; right; exact Hq).
  destruct (p_denied p) eqn:E; cbn [negb].
  - rewrite (R p (or_introl eq_refl) E). apply IH, R'.
  - cbn [scan]. rewrite E. destruct (mentions (p_cmd p)); apply IH, R'.
Qed.
Lemma scan_unreadable l : forall t ps, (exists r, scan l t ps = Ok r) -> readable l.
Proof.
  induction l as [|p l IH]; intros t ps [r H] q Hq Hd; [destruct Hq|]. cbn [scan] in H.
  destruct Hq as [->|Hq].
  - rewrite Hd in H. destruct (p_python q); [discriminate|reflexivity].
  - destruct (p_denied p); [destruct (p_python p); [discriminate|]|destruct (mentions (p_cmd p))];
      (eapply IH; [eexists; exact H|exact Hq|exact Hd]).
Qed.
Lemma same_name_iff pid ppid name l :
  same_name pid ppid name l = Ok false <-> forall p, In p l -> p_pid p <> pid -> p_pid p <> ppid -> exists n, named n (p_cmd p) /\ n <> name.
Proof.
  induction l as [|p l IH]; cbn [same_name]; [split; [intros _ p []|reflexivity]|].
  destruct (memb (p_pid p) [pid; ppid]) eqn:M.
  - apply memb_In in M. rewrite IH. split.
    + intros H q [<-|Hq] N1 N2; [|apply H; assumption]. destruct M as [M|[M|[]]]; congruence.
    + intros H q Hq. apply H. right. exact Hq.
  - assert (N1 : p_pid p <> pid) by (intro E; rewrite E in M; cbn [memb existsb] in M; rewrite eqb_refl in M; discriminate).
    assert (N2 : p_pid p <> ppid) by (intro E; rewrite E in M; cbn [memb existsb] in M; rewrite eqb_refl, orb_true_r in M; discriminate).
    split.
    + intro H. destruct (parse_task_info (p_cmd p)) as [i|x] eqn:E; [|discriminate]. cbn [rbind] in H.
      destruct (ti_name i) as [n|] eqn:En; [|discriminate]. destruct (eqb_spec name n) as [|Hne]; [discriminate|].
      intros q [<-|Hq] Q1 Q2; [|apply IH; assumption]. exists n. split; [exists i; auto|congruence].
    + intro H. destruct (H p (or_introl eq_refl) N1 N2) as (n & (i & E & En) & Hne). rewrite E. cbn [rbind]. rewrite En.
      destruct (eqb_spec name n) as [->|_]; [congruence|]. apply IH. intros q Hq. apply H. right. exact Hq.
Qed.
Lemma repeated_iff pid ppid name table :
  exist_repeated pid ppid name table = Ok false <-> readable table /\ free_name pid ppid name table.
Proof.
  assert (S : forall l, In l [seen table] -> forall p, In p l -> p_denied p = false).
  { intros l [<-|[]] p Hp. unfold seen in Hp. apply filter_In in Hp. apply negb_true_iff. tauto. }
  specialize (S _ (or_introl eq_refl)). destruct (get_active_spec (seen table) S) as (act & E & Ha & _).
  assert (G : readable table -> get_active table = Ok act).
  { intro R. unfold get_active in *. rewrite scan_seen by exact R. exact E. }
  unfold exist_repeated. split.
  - intro H. assert (R : readable table).
    { unfold get_active in H. destruct (scan table [] []) as [r|x] eqn:Es; [|discriminate]. eapply scan_unreadable. eexists. exact Es. }
    split; [exact R|]. rewrite (G R) in H. cbn [rbind] in H. intros p Hp. apply (proj1 (same_name_iff _ _ _ _) H). apply Ha, Hp.
  - intros [R F]. rewrite (G R). cbn [rbind]. apply same_name_iff. intros p Hp. apply F. apply Ha, Hp.
Qed.

(** ** The environment *)
Lemma environ_update_bad l : forall vars, fst (environ_update l vars) = Ok tt -> Forall (fun kv => fst kv <> []) l.
Proof.
  induction l as [|[k v] l IH]; intros vars H; [constructor|]. cbn [environ_update] in H. destruct k as [|c k]; [discriminate|].
  constructor; [discriminate|]. eapply IH, H.
Qed.
Lemma clean_of_text t : Forall (fun e => count_occ N.eq_dec e EQS = 1%nat) (split_on SEMI t) ->
  exists kvs, kvs <> [] /\ t = join_with SEMI (map entry_of kvs) /\ Forall clean_entry kvs.
Proof.
  intro H. pose proof (split_on_words SEMI t) as W. pose proof (join_split SEMI t) as J. pose proof (split_on_nonempty SEMI t) as Ne.
  assert (K : exists kvs, split_on SEMI t = map entry_of kvs /\ Forall clean_entry kvs).
  { clear J Ne. revert W. induction H as [|e l H1 _ IH]; intro W; [exists []; split; [reflexivity|constructor]|].
    inversion W as [|? ? W1 W2]; subst. destruct (IH W2) as (kvs & -> & Hc). apply split_two in H1. destruct H1 as (a & b & E).
    pose proof (join_split EQS e) as J. pose proof (split_on_words EQS e) as F. rewrite E in J, F. cbn in J. subst e.
    inversion F as [|? ? F1 F2]; subst. inversion F2 as [|? ? F3 _]; subst. apply has_char_false in F1, F3, W1.
    exists ((a, b) :: kvs). split; [reflexivity|]. constructor; [|exact Hc]. unfold clean_entry. cbn [fst snd].
    split; [intro X; apply W1, in_app_iff; left; exact X|]. split; [exact F1|]. split; [|exact F3].
    intro X. apply W1, in_app_iff. right. right. exact X. }
  destruct K as (kvs & E & Hc). exists kvs. rewrite E in J, Ne. split; [destruct kvs; [contradiction|discriminate]|]. split; [symmetry; exact J|exact Hc].
Qed.
(** the variables after the text was accepted *)
Definition env_done (kvs : list (str * str)) (p p' : penv) : Prop :=
  (forall k, dget k (pe_vars p') = var_after kvs (pe_vars p) k) /\
  pe_path p' = match last_value kvs (lit "PYTHONPATH") with Some v => split_on COLON v | None => [] end ++ pe_path p.
Lemma runner_env_wrote env kvs p : wrote env kvs -> exists p', runner_env env p = (Ok tt, p') /\ env_done kvs p p'.
Proof.
  intros [[He ->]|(Hne & -> & Hc & Hk)].
  - exists p. destruct p as [vars path]. split; [destruct He as [-> | ->]; reflexivity|]. split; reflexivity.
  - destruct (C50_environment_partial kvs p Hne Hc Hk) as (p' & E & H1 & H2 & H3). exists p'. split; [exact E|]. split; [exact H1|].
    destruct (last_value kvs (lit "PYTHONPATH")) as [v|] eqn:El; [apply H2; reflexivity|apply H3; reflexivity].
Qed.
Lemma runner_env_ok env p p' : runner_env env p = (Ok tt, p') -> exists kvs, wrote env kvs.
Proof.
  intro H. destruct env as [[|c t]|]; [exists []; left; auto| |exists []; left; auto].
  unfold runner_env in H. destruct (parse_env (c :: t)) as [l|x] eqn:E; [|discriminate].
  assert (F : Forall (fun e => count_occ N.eq_dec e EQS = 1%nat) (split_on SEMI (c :: t))) by (apply C120_accepted; eauto).
  destruct (clean_of_text _ F) as (kvs & Hne & Et & Hc). exists kvs. right. split; [exact Hne|]. split; [rewrite Et; reflexivity|]. split; [exact Hc|].
  intros kv Hin Hs. destruct (environ_update l (pe_vars p)) as [[u|x] vars] eqn:Eu; [|discriminate].
  assert (Fl : Forall (fun kv => fst kv <> []) l) by (apply (environ_update_bad l (pe_vars p)); rewrite Eu; destruct u; reflexivity).
  rewrite Et in E. rewrite (parse_env_join kvs Hne Hc) in E. apply Ok_inj in E.
  assert (L : dget [] l = last_value kvs []).
  { rewrite <- E, fold_dset_last. destruct (last_value kvs []); reflexivity. }
  assert (N : exists v, last_value kvs [] = Some v).
  { unfold last_value. destruct (find _ (rev kvs)) as [kv'|] eqn:Ef; [cbn; eauto|]. exfalso.
    eapply find_none in Ef; [|apply in_rev; rewrite rev_involutive; exact Hin]. cbv beta in Ef. rewrite Hs, eqb_refl in Ef. discriminate. }
  destruct N as (v & N). rewrite N in L. apply dget_In in L. eapply Forall_forall in Fl; [|exact L]. cbn in Fl. congruence.
Qed.

(** ** Paths in the home directory *)
Lemma drop_slashes s : exists k, s = repeat SLASH k ++ drop_while (N.eqb SLASH) s /\ forall r, drop_while (N.eqb SLASH) s <> SLASH :: r.
Proof.
  induction s as [|c s IH]; [exists O; split; [reflexivity|discriminate]|]. cbn [drop_while]. destruct (N.eqb_spec SLASH c) as [<-|Hne].
  - destruct IH as (k & E & H). exists (S k). split; [cbn [repeat app]; congruence|exact H].
  - exists O. split; [reflexivity|]. intros r E. injection E as E _. congruence.
Qed.
Lemma rstrip_slash_spec h : exists k, h = rstrip_slash h ++ repeat SLASH k /\ forall q', rstrip_slash h <> q' ++ [SLASH].
Proof.
  destruct (drop_slashes (rev h)) as (k & E & H). exists k. unfold rstrip_slash. split.
  - rewrite <- (rev_involutive h) at 1. rewrite E at 1. rewrite rev_app_distr. f_equal.
    clear. induction k as [|k IH]; [reflexivity|]. cbn [repeat rev]. rewrite IH. clear. induction k as [|k IH]; [reflexivity|]. cbn [repeat app]. congruence.
  - intros q' E'. apply (f_equal (@rev N)) in E'. rewrite rev_involutive, rev_app_distr in E'. cbn in E'. eapply H, E'.
Qed.
Lemma rstrip_slash_unique h q k : h = q ++ repeat SLASH k -> (forall q', q <> q' ++ [SLASH]) -> rstrip_slash h = q.
Proof.
  intros -> Hq. unfold rstrip_slash. rewrite rev_app_distr.
  assert (R : rev (repeat SLASH k) = repeat SLASH k).
  { clear. induction k as [|k IH]; [reflexivity|]. cbn [repeat rev]. rewrite IH. clear. induction k as [|k IH]; [reflexivity|]. cbn [repeat app]. congruence. }
  rewrite R, drop_while_all by (clear; induction k as [|k IH]; [reflexivity|cbn [repeat forallb]; rewrite IH, N.eqb_refl; reflexivity]).
  destruct (rev q) as [|c r] eqn:E; [apply (f_equal (@rev N)) in E; rewrite rev_involutive in E; subst; reflexivity|].
  cbn [drop_while]. destruct (N.eqb_spec SLASH c) as [<-|_].
  - exfalso. apply (f_equal (@rev N)) in E. rewrite rev_involutive in E. cbn in E. eapply Hq, E.
  - rewrite <- E, rev_involutive. reflexivity.
Qed.
Lemma user_path_names vars home c x :
  user_path vars home c = x <-> names (match dget (lit "HOME") vars with Some h => h | None => home end) c x.
Proof.
  set (h := match dget (lit "HOME") vars with Some h => h | None => home end). unfold user_path. fold h. split.
  - intros <-. destruct c as [|a r]; [apply n_plain; [discriminate|discriminate]|].
    destruct (N.eqb_spec a 126%N) as [->|Ha]; cbn [andb]; [|apply n_plain; congruence].
    destruct (rstrip_slash_spec h) as (k & Eh & Hq).
    destruct r as [|s r].
    + rewrite app_nil_r. destruct (rstrip_slash h) as [|d q] eqn:Eq.
      * apply (n_root h k). exact Eh.
      * rewrite <- (app_nil_r (d :: q)). apply (n_home h [] (d :: q) k); [left; reflexivity|exact Eh|exact Hq|discriminate].
    + destruct (N.eqb_spec s SLASH) as [->|Hs].
      * assert (Ne : rstrip_slash h ++ SLASH :: r <> []) by (destruct (rstrip_slash h); discriminate).
        destruct (rstrip_slash h ++ SLASH :: r) as [|d q] eqn:Eq; [congruence|]. rewrite <- Eq in *.
        apply (n_home h (SLASH :: r) (rstrip_slash h) k); [right; eauto|exact Eh|exact Hq|exact Ne].
      * apply n_plain; [discriminate|]. intros r' E. injection E as E _. unfold SLASH in Hs. congruence.
  - intro H. destruct H as [r q k Hr Eh Hq Ne|k Eh|c H1 H2].
    + rewrite (rstrip_slash_unique h q k Eh Hq). rewrite N.eqb_refl. cbn [andb].
      replace (match r with [] => true | s :: _ => (s =? SLASH)%N end) with true by (destruct Hr as [->|(r' & ->)]; reflexivity).
      destruct (q ++ r); [congruence|reflexivity].
    + cbn [N.eqb andb]. rewrite (rstrip_slash_unique h [] k Eh); [reflexivity|]. intros q' E. destruct q'; discriminate.
    + destruct c as [|a r]; [reflexivity|]. destruct (N.eqb_spec a 126%N) as [->|Ha]; cbn [andb]; [|reflexivity].
      destruct r as [|s r]; [congruence|]. destruct (N.eqb_spec s SLASH) as [->|Hs]; [exfalso; apply (H2 r); reflexivity|reflexivity].
Qed.
