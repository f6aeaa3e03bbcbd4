(** Facts about the helpers of [MUtils]. *)
From Verif Require Import PyStr LStr LGate MUtils SUtils.
Open Scope list_scope.

(** ** retry *)
Lemma accepts_iff on e : accepts on e = true <-> retried on e.
Proof.
  unfold accepts, retried. destruct on as [p|]; split; intro H; try reflexivity; try discriminate.
  - intros q E. injection E as <-. exact H.
  - exact (H p eq_refl).
Qed.

Lemma retry_loop_spec {A} (out : nat -> res A) on left n0 :
  exists k, snd (retry_loop on (fun n => n) (fun n => (out n, S n)) left n0) = (n0 + S k)%nat /\
    fst (retry_loop on (fun n => n) (fun n => (out n, S n)) left n0) = out (n0 + k)%nat /\ (k <= left)%nat /\
    (forall j, (j < k)%nat -> exists e, out (n0 + j)%nat = Err e /\ retried on e) /\
    (forall e, out (n0 + k)%nat = Err e -> retried on e -> k = left).
Proof.
  revert n0; induction left as [|left IH]; intro n0; cbn [retry_loop].
  - exists O. rewrite !Nat.add_0_r. replace (n0 + 1)%nat with (S n0) by lia.
    split; [|split; [|split; [lia|split; [intros; lia|reflexivity]]]]; destruct (out n0) as [v|e]; try reflexivity; destruct (accepts on e); reflexivity.
  - destruct (out n0) as [v|e] eqn:E; [|destruct (accepts on e) eqn:Ea].
    + exists O. rewrite !Nat.add_0_r, E. cbn [fst snd]. split; [lia|]. split; [reflexivity|]. split; [lia|]. split; [intros; lia|discriminate].
    + destruct (IH (S n0)) as (k & H1 & H2 & H3 & H4 & H5). exists (S k).
      replace (n0 + S k)%nat with (S n0 + k)%nat by lia. split; [rewrite H1; lia|]. split; [exact H2|]. split; [lia|]. split.
      * intros j Hj. destruct j as [|j]; [exists e; rewrite Nat.add_0_r; split; [exact E|apply accepts_iff, Ea]|].
        replace (n0 + S j)%nat with (S n0 + j)%nat by lia. apply H4. lia.
      * intros e' He Hr. f_equal. exact (H5 e' He Hr).
    + exists O. rewrite !Nat.add_0_r, E. cbn [fst snd]. split; [lia|]. split; [reflexivity|]. split; [lia|]. split; [intros; lia|].
      intros e' H H0. injection H as <-. apply accepts_iff in H0. congruence.
Qed.

(** always failing function: exact number of calls *)
Fixpoint prod (ms : list Z) : nat := match ms with [] => 1 | m :: r => S (Z.to_nat m) * prod r end.
Lemma retry_fail {A} (c : nat) (f : nat -> res A * nat) e left :
  (forall n, f n = (Err e, n + c)%nat) -> forall n, retry_loop None (fun n => n) f left n = (Err e, n + S left * c)%nat.
Proof.
  intro Hf. induction left as [|k IH]; intro n; cbn [retry_loop]; rewrite Hf; cbn [accepts].
  - f_equal. lia.
  - rewrite IH. f_equal. lia.
Qed.
Lemma setups_fail {A} e ms n : @after_setups nat A ms (fun n => n) (fun n => (Err e, S n)) n = (Err e, n + prod ms)%nat.
Proof.
  revert n; induction ms as [|m ms IH]; intro n; cbn [after_setups prod].
  - f_equal. lia.
  - unfold simple_retry. rewrite (retry_fail (prod ms) _ e); [reflexivity|exact IH].
Qed.
Lemma retry_bound {A} (c : nat) (f : nat -> res A * nat) left :
  (forall n, snd (f n) <= n + c)%nat -> forall n, (snd (retry_loop None (fun n => n) f left n) <= n + S left * c)%nat.
Proof.
  intro Hf. induction left as [|k IH]; intro n; cbn [retry_loop]; pose proof (Hf n) as H;
    destruct (f n) as [[v|e] n1]; cbn [accepts snd] in *; try lia.
  specialize (IH n1). lia.
Qed.
Lemma setups_bound {A} (out : nat -> res A) ms n :
  (snd (after_setups ms (fun n => n) (fun n => (out n, S n)) n) <= n + prod ms)%nat.
Proof.
  revert n; induction ms as [|m ms IH]; intro n; cbn [after_setups prod]; [cbn; lia|].
  unfold simple_retry. apply retry_bound. exact IH.
Qed.

(** ** strip *)
Definition lstrip (s : str) : str := drop_while is_space s.
Definition rstrip (s : str) : str := rev (drop_while is_space (rev s)).
Lemma strip_lr s : strip s = rstrip (lstrip s). Proof. reflexivity. Qed.
Lemma drop_while_app f a c b : f c = false -> drop_while f (a ++ c :: b) = drop_while f a ++ c :: b.
Proof.
  intro Hc. induction a as [|x a IH]; cbn [drop_while app]; [rewrite Hc; reflexivity|]. destruct (f x); [exact IH|reflexivity].
Qed.
Lemma drop_while_twice f a : drop_while f (drop_while f a) = drop_while f a.
Proof. induction a as [|x a IH]; cbn [drop_while]; [reflexivity|]. destruct (f x) eqn:E; [exact IH|]. cbn [drop_while]. rewrite E. reflexivity. Qed.
Lemma drop_while_all f a b : forallb f a = true -> drop_while f (a ++ b) = drop_while f b.
Proof. induction a as [|x a IH]; cbn [forallb app drop_while]; [reflexivity|]. destruct (f x); [exact IH|discriminate]. Qed.
Lemma drop_while_nil f a : drop_while f a = [] -> forallb f a = true.
Proof. induction a as [|x a IH]; cbn [drop_while forallb]; [reflexivity|]. destruct (f x); [exact IH|discriminate]. Qed.
Lemma forallb_rev {A} (f : A -> bool) l : forallb f (rev l) = forallb f l.
Proof. induction l as [|x l IH]; [reflexivity|]. cbn [rev forallb]. rewrite forallb_app, IH. cbn. destruct (f x), (forallb f l); reflexivity. Qed.
Lemma rstrip_cons c s : rstrip (c :: s) = match rstrip s with [] => if is_space c then [] else [c] | r => c :: r end.
Proof.
  unfold rstrip. cbn [rev].
  destruct (drop_while is_space (rev s)) as [|x r] eqn:E.
  - cbn [rev]. rewrite drop_while_all by (apply drop_while_nil; exact E). cbn [drop_while]. destruct (is_space c); reflexivity.
  - assert (E2 : drop_while is_space (rev s ++ [c]) = (x :: r) ++ [c]).
    { rewrite <- E. clear -E. induction (rev s) as [|y l IH]; [discriminate|]. cbn [drop_while app] in *. destruct (is_space y); [exact (IH E)|reflexivity]. }
    rewrite E2, rev_app_distr. cbn [rev app]. destruct (rev r ++ [x]) eqn:E3; [destruct (rev r); discriminate|reflexivity].
Qed.
Lemma lr_comm s : lstrip (rstrip s) = rstrip (lstrip s).
Proof.
  induction s as [|c s IH]; [reflexivity|]. rewrite rstrip_cons. unfold lstrip at 2. cbn [drop_while]. destruct (is_space c) eqn:E.
  - destruct (rstrip s) as [|x r] eqn:R; [exact IH|]. unfold lstrip at 1. cbn [drop_while]. rewrite E. exact IH.
  - rewrite rstrip_cons. destruct (rstrip s); unfold lstrip; cbn [drop_while]; rewrite E; reflexivity.
Qed.
Lemma rstrip_twice s : rstrip (rstrip s) = rstrip s.
Proof. unfold rstrip. rewrite rev_involutive, drop_while_twice. reflexivity. Qed.
Lemma strip_lstrip s : strip (lstrip s) = strip s.
Proof. rewrite !strip_lr. unfold lstrip. rewrite drop_while_twice. reflexivity. Qed.
Lemma strip_rstrip s : strip (rstrip s) = strip s.
Proof. rewrite !strip_lr, lr_comm, rstrip_twice. reflexivity. Qed.
Lemma strip_mid a c b : is_space c = false -> strip (a ++ c :: b) = lstrip a ++ c :: rstrip b.
Proof.
  intro Hc. unfold strip, lstrip, rstrip. rewrite drop_while_app by exact Hc.
  rewrite rev_app_distr. cbn [rev]. rewrite <- app_assoc. cbn [app]. rewrite drop_while_app by exact Hc.
  rewrite rev_app_distr. cbn [rev]. rewrite rev_involutive, <- app_assoc. reflexivity.
Qed.
Lemma drop_while_In f x s : In x (drop_while f s) -> In x s.
Proof. induction s as [|c s IH]; cbn [drop_while]; [tauto|]. destruct (f c); cbn; tauto. Qed.
Lemma lstrip_In x s : In x (lstrip s) -> In x s. Proof. apply drop_while_In. Qed.
Lemma rstrip_In x s : In x (rstrip s) -> In x s.
Proof. unfold rstrip. rewrite <- in_rev. intro H. apply drop_while_In in H. rewrite <- in_rev in H. exact H. Qed.

(** ** parse_env *)
Lemma entry_split kv : clean_entry kv -> split_on EQS (strip (entry_of kv)) = [lstrip (fst kv); rstrip (snd kv)].
Proof.
  intros (H1 & H2 & H3 & H4). unfold entry_of. rewrite strip_mid by reflexivity.
  change 61%N with EQS. rewrite split_on_app by (apply has_char_false; intro H; apply H2, lstrip_In, H).
  rewrite split_on_none by (apply has_char_false; intro H; apply H4, rstrip_In, H). reflexivity.
Qed.
Lemma parse_envs_clean kvs : Forall clean_entry kvs -> forall ret,
  parse_envs (map entry_of kvs) ret = Ok (fold_left (fun d kv => dset (strip (fst kv)) (strip (snd kv)) d) kvs ret).
Proof.
  induction 1 as [|kv kvs Hk _ IH]; intro ret; cbn [map parse_envs fold_left]; [reflexivity|].
  rewrite entry_split by exact Hk. rewrite IH, strip_lstrip, strip_rstrip. reflexivity.
Qed.
Lemma find_app {A} (f : A -> bool) a b : find f (a ++ b) = match find f a with Some x => Some x | None => find f b end.
Proof. induction a as [|x a IH]; [reflexivity|]. cbn. destruct (f x); [reflexivity|exact IH]. Qed.
Lemma fold_dset_last k kvs : forall ret,
  dget k (fold_left (fun d kv => dset (strip (fst kv)) (strip (snd kv)) d) kvs ret) =
  match last_value kvs k with Some v => Some v | None => dget k ret end.
Proof.
  unfold last_value. induction kvs as [|kv kvs IH]; intro ret; [reflexivity|]. cbn [fold_left rev]. rewrite IH, find_app. cbn [find].
  destruct (find _ (rev kvs)); [reflexivity|]. cbn [option_map]. rewrite dget_dset. destruct (eqb k (strip (fst kv))); reflexivity.
Qed.
Lemma parse_env_join kvs : kvs <> [] -> Forall clean_entry kvs ->
  parse_env (join_with SEMI (map entry_of kvs)) = Ok (fold_left (fun d kv => dset (strip (fst kv)) (strip (snd kv)) d) kvs []).
Proof.
  intros Hne Hc. unfold parse_env. rewrite split_join.
  - apply parse_envs_clean, Hc.
  - destruct kvs; [congruence|discriminate].
  - apply Forall_map. eapply Forall_impl; [|exact Hc]. intros kv (H1 & _ & H3 & _). apply has_char_false. unfold entry_of.
    intro H. apply in_app_iff in H. destruct H as [H|[H|H]]; [tauto|discriminate|tauto].
Qed.
(** a text parses exactly when it is such a list of entries *)
Lemma strip_count s x : is_space x = false -> count_occ N.eq_dec (strip s) x = count_occ N.eq_dec s x.
Proof.
  intro Hx. assert (D : forall l, count_occ N.eq_dec (drop_while is_space l) x = count_occ N.eq_dec l x).
  { induction l as [|c l IH]; [reflexivity|]. cbn [drop_while]. destruct (is_space c) eqn:E; [|reflexivity].
    rewrite IH, count_occ_cons_neq; [reflexivity|congruence]. }
  unfold strip. rewrite count_occ_rev, D, count_occ_rev, D. reflexivity.
Qed.
Lemma split_two c s : count_occ N.eq_dec s c = 1%nat <-> exists a b, split_on c s = [a; b].
Proof.
  split.
  - intro H. assert (Hin : In c s) by (apply (count_occ_In N.eq_dec); lia). apply in_split in Hin. destruct Hin as (a & b & ->).
    assert (Ha : ~ In c a /\ ~ In c b).
    { rewrite count_occ_app, count_occ_cons_eq in H by reflexivity. split; apply (count_occ_not_In N.eq_dec); lia. }
    exists a, b. rewrite split_on_app by (apply has_char_false; tauto). rewrite split_on_none by (apply has_char_false; tauto). reflexivity.
  - intros (a & b & E). pose proof (join_split c s) as J. pose proof (split_on_words c s) as F. rewrite E in J, F. cbn in J. subst s.
    inversion F as [|? ? F1 F2]; subst. inversion F2 as [|? ? F3 _]; subst. apply has_char_false in F1, F3.
    rewrite count_occ_app, count_occ_cons_eq by reflexivity. apply (count_occ_not_In N.eq_dec) in F1, F3. lia.
Qed.
Lemma split_snoc c s : split_on c (s ++ [c]) = split_on c s ++ [[]].
Proof.
  induction s as [|a s IH]; cbn [app split_on].
  - rewrite N.eqb_refl. reflexivity.
  - rewrite IH. destruct (a =? c)%N; [reflexivity|]. pose proof (split_on_nonempty c s). destruct (split_on c s); [congruence|reflexivity].
Qed.
Lemma parse_envs_iff l ret : (exists d, parse_envs l ret = Ok d) <-> Forall (fun e => count_occ N.eq_dec e EQS = 1%nat) l.
Proof.
  revert ret; induction l as [|e l IH]; intro ret; cbn [parse_envs]; [split; [constructor|eauto]|].
  pose proof (strip_count e EQS eq_refl) as C. pose proof (split_two EQS (strip e)) as T. rewrite C in T.
  split.
  - intros [d H]. assert (X : exists a b, split_on EQS (strip e) = [a; b]) by (destruct (split_on EQS (strip e)) as [|a [|b [|]]]; try discriminate; eauto).
    constructor; [apply T, X|]. destruct X as (a & b & X). rewrite X in H. apply (IH (dset (strip a) (strip b) ret)). eauto.
  - intro F. inversion F as [|? ? F1 F2]; subst. apply T in F1. destruct F1 as (a & b & X). rewrite X. apply IH, F2.
Qed.
Lemma parse_envs_err l ret x : parse_envs l ret = Err x -> x = ValueError.
Proof.
  revert ret; induction l as [|e l IH]; intro ret; cbn [parse_envs]; [discriminate|].
  destruct (split_on EQS (strip e)) as [|a [|b [|]]]; intro H; try congruence. eauto.
Qed.
Lemma environ_update_ok l : Forall (fun kv => fst kv <> []) l -> forall vars,
  fst (environ_update l vars) = Ok tt /\ snd (environ_update l vars) = fold_left (fun d kv => dset (fst kv) (snd kv) d) l vars.
Proof.
  induction 1 as [|[k v] l Hk _ IH]; intro vars; cbn [environ_update fold_left fst snd]; [split; reflexivity|].
  cbn in Hk. destruct k as [|c k]; [congruence|]. apply IH.
Qed.
Lemma dget_fold_update (l : dict str str) : NoDup (dkeys l) -> forall k vars,
  dget k (fold_left (fun d kv => dset (fst kv) (snd kv) d) l vars) = match dget k l with Some v => Some v | None => dget k vars end.
Proof.
  induction l as [|[a v] l IH]; intros Hn k vars; [reflexivity|]. cbn [fold_left fst snd dget]. inversion Hn as [|? ? Hx Hy]; subst.
  rewrite IH by exact Hy. destruct (eqb_spec k a) as [->|Hne].
  - destruct (dget a l) eqn:E; [exfalso; apply Hx; eapply dget_key; exact E|]. apply dget_dset_same.
  - destruct (dget k l); [reflexivity|]. apply dget_dset_other. congruence.
Qed.
Lemma fold_insert l p : fold_left (fun path d => d :: path) (rev l) p = l ++ p :> list str.
Proof. rewrite <- fold_left_rev_right, rev_involutive. induction l as [|x l IH]; [reflexivity|]. cbn. rewrite IH. reflexivity. Qed.

(** ** configuration *)
Section Config.
  Context {V : Type}.
  Lemma load_get prefix (configs : dict str V) x : forall d,
    dget x (fold_left (fun d '(n, v) => if startswith prefix n then dset (lstrip_chars prefix n) v d else d) configs d) =
    match find (fun nv => startswith prefix (fst nv) && eqb x (lstrip_chars prefix (fst nv))) (rev configs) with
    | Some nv => Some (snd nv) | None => dget x d end.
  Proof.
    induction configs as [|[n v] c IH]; intro d; [reflexivity|]. cbn [fold_left rev]. rewrite IH, find_app.
    destruct (find _ (rev c)); [reflexivity|]. cbn [find fst snd]. destruct (startswith prefix n); cbn [andb]; [|reflexivity].
    rewrite dget_dset. destruct (eqb x (lstrip_chars prefix n)); reflexivity.
  Qed.
  Lemma load_nodup prefix (configs : dict str V) d : NoDup (dkeys d) ->
    NoDup (dkeys (fold_left (fun d '(n, v) => if startswith prefix n then dset (lstrip_chars prefix n) v d else d) configs d)).
  Proof.
    revert d; induction configs as [|[n v] c IH]; intros d Hd; [exact Hd|]. cbn [fold_left]. apply IH.
    destruct (startswith prefix n); [apply NoDup_dset|]; exact Hd.
  Qed.
  Lemma update_get (l : dict str V) : NoDup (dkeys l) -> forall k d,
    dget k (fold_left (fun d '(n, v) => dset n v d) l d) = match dget k l with Some v => Some v | None => dget k d end.
  Proof.
    induction l as [|[a v] l IH]; intros Hn k d; [reflexivity|]. cbn [fold_left dget]. inversion Hn as [|? ? Hx Hy]; subst.
    rewrite IH by exact Hy. destruct (eqb_spec k a) as [->|Hne].
    - destruct (dget a l) eqn:E; [exfalso; apply Hx; eapply dget_key; exact E|]. apply dget_dset_same.
    - destruct (dget k l); [reflexivity|]. apply dget_dset_other. congruence.
  Qed.
  Lemma setup_get prefix (configs cfg : dict str V) x :
    dget x (setup_config prefix configs cfg) =
    match find (fun nv => startswith prefix (fst nv) && eqb x (lstrip_chars prefix (fst nv))) (rev configs) with
    | Some nv => Some (snd nv) | None => dget x cfg end.
  Proof.
    unfold setup_config. rewrite update_get by (apply load_nodup; constructor). unfold load_config. rewrite load_get.
    destruct (find _ (rev configs)); reflexivity.
  Qed.
End Config.
Lemma lstrip_self prefix x : lstrip_chars prefix (prefix ++ x) = lstrip_chars prefix x.
Proof.
  unfold lstrip_chars. apply drop_while_all. apply forallb_forall. intros c Hc. apply has_char_In. exact Hc.
Qed.
Lemma lstrip_keep prefix c x : ~ In c prefix -> lstrip_chars prefix (c :: x) = c :: x.
Proof. intro H. apply drop_while_head. apply has_char_false. exact H. Qed.
Lemma drop_while_len f s : (length (drop_while f s) <= length s)%nat.
Proof. induction s as [|c s IH]; [cbn; lia|]. cbn [drop_while]. destruct (f c); cbn [length]; lia. Qed.
Lemma drop_while_hd f s c r : drop_while f s = c :: r -> f c = false.
Proof. induction s as [|x s IH]; [discriminate|]. cbn [drop_while]. destruct (f x) eqn:E; [exact IH|]. intro H. injection H as -> _. exact E. Qed.
