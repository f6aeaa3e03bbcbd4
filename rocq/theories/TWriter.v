(** Theorems for C34. *)
From Verif Require Import PyBase PyStr MGate MWriter SGate LGate2 SWriter LWriter LStr LGate.
Open Scope list_scope.

(** Proved where appending is atomic (POSIX), for any number of writers, any interleaving
    of their steps, time-outs and kills: the lines of the file are those it had, then the
    lines of exactly the completed submissions, each once, in order of completion; nothing
    is torn. *)
Theorem C34_lines_partial :
  forall header line s0 s, quiet s0 -> w_reach true header [NL] line s0 s -> whole_file (w_file s0) ->
    ~ In NL header -> (forall k, ~ In NL (line k)) -> (forall k, line k <> header) ->
    whole_file (w_file s) /\
    exists ks, NoDup ks /\ (forall k, In k ks <-> completed s0 s k) /\
      body header (w_file s) = body header (w_file s0) ++ map (fun k => line k ++ [NL]) ks.
Proof.
  intros header line s0 s Q R (ls & W & Ef) Hh Hl Hne. destruct (winv_reach _ _ _ _ _ Q R) as (done & [I1 I2 I7 I3 I4 I5 I6]). split.
  - exists (ls ++ concat (map (chunk_lines header line) done)). split; [apply Forall_app; split; [exact W|apply chunk_lines_whole; assumption]|].
    rewrite concat_app, <- chunks_lines, <- Ef. exact I3.
  - exists (map fst done). split; [exact I1|]. split; [exact I2|]. unfold body. rewrite I3, (file_lines _ _ _ _ ls W Ef Hh Hl), filter_app. f_equal.
    clear - Hne. induction done as [|[k h] done IH]; [reflexivity|]. cbn [map concat]. rewrite filter_app, IH. unfold chunk_lines. cbn [fst snd].
    rewrite filter_app. cbn [filter].
    assert (E : not_header header (line k ++ [NL]) = true).
    { unfold not_header. apply negb_true_iff. change (eqb (line k ++ [NL]) (header ++ [NL]) = false). apply eqb_false. intro E. apply app_inj_tail in E. apply (Hne k), E. }
    rewrite E. destruct h; [|reflexivity]. cbn [filter].
    assert (E' : not_header header (header ++ [NL]) = false); [|rewrite E'; reflexivity].
    unfold not_header. apply negb_false_iff. change (eqb (header ++ [NL]) (header ++ [NL]) = true). apply eqb_refl.
Qed.
Print Assumptions C34_lines_partial.
(** a new file starts with the header as soon as it has any contents *)
Theorem C115_header_first :
  forall header line s0 s, quiet s0 -> w_file s0 = [] -> w_reach true header [NL] line s0 s -> ~ In NL header -> w_file s <> [] -> exists r, lines_of (w_file s) = (header ++ [NL]) :: r.
Proof.
  intros header line s0 s Q E0 R Hh Hne. destruct (winv_reach _ _ _ _ _ Q R) as (done & [I1 I2 I7 I3 I4 I5 I6]). rewrite E0 in I3. rewrite I3 in *.
  destruct done as [|[k h] done]; [contradiction|]. specialize (I5 _ _ E0 ltac:(discriminate) eq_refl). cbn in I5. subst h. cbn [app map concat].
  unfold chunk. cbn [fst snd]. rewrite <- !app_assoc, app_assoc. rewrite lines_whole by (apply whole_line, Hh). eauto.
Qed.
Print Assumptions C115_header_first.
(** a file with contents gets no further header *)
Theorem C115_no_more_headers :
  forall header line s0 s, quiet s0 -> w_reach true header [NL] line s0 s -> whole_file (w_file s0) -> w_file s0 <> [] ->
    ~ In NL header -> (forall k, ~ In NL (line k)) -> (forall k, line k <> header) -> headers header (w_file s) = headers header (w_file s0).
Proof.
  intros header line s0 s Q R (ls & W & Ef) Hf Hh Hl Hne. destruct (winv_reach _ _ _ _ _ Q R) as (done & [I1 I2 I7 I3 I4 I5 I6]). unfold headers.
  rewrite I3, (file_lines _ _ _ _ ls W Ef Hh Hl), filter_app, app_length.
  enough (filter (fun l => negb (not_header header l)) (concat (map (chunk_lines header line) done)) = []) as -> by (cbn; lia).
  specialize (I6 Hf). clear - I6 Hne. induction done as [|[k h] done IH]; [reflexivity|]. cbn [map concat]. rewrite filter_app, IH by (intros; apply I6; right; assumption).
  specialize (I6 _ (or_introl eq_refl)). cbn in I6. subst h. unfold chunk_lines. cbn [fst snd app filter].
  assert (E : not_header header (line k ++ [NL]) = true).
  { unfold not_header. apply negb_true_iff. change (eqb (line k ++ [NL]) (header ++ [NL]) = false). apply eqb_false. intro E. apply app_inj_tail in E. apply (Hne k), E. }
  rewrite E. reflexivity.
Qed.
Print Assumptions C115_no_more_headers.
(** the lock excludes: whoever is between taking and releasing it is the one holding it, and no
    one else is *)
Theorem C103_exclusive :
  forall atomic header eol line s0 s, quiet s0 -> w_lock s0 = None -> w_reach atomic header eol line s0 s ->
    forall k, inside s k <-> w_lock s = Some k.
Proof.
  intros atomic header eol line s0 s Q L0 R. induction R as [|s k a s' R IH E].
  - intro k. rewrite L0. unfold inside. specialize (Q k). cbn in Q. split; [|discriminate].
    intros [(n & X)|(t & X)]; rewrite X in Q; destruct Q as [Q|[Q|[Q|[Q|[]]]]]; discriminate.
  - intro j. unfold inside in *. unfold w_step in E.
    assert (Hk : forall p, (w_ph s k = p -> (exists n, p = WLocked n) \/ (exists t, p = WBuffered t)) -> w_ph s k = p -> w_lock s = Some k)
      by (intros p Hp Ep; apply IH; rewrite Ep; auto).
    assert (Hn : forall p, w_ph s k = p -> (~ exists n, p = WLocked n) -> (~ exists t, p = WBuffered t) -> w_lock s <> Some k)
      by (intros p Ep N1 N2 X; apply IH in X; rewrite Ep in X; tauto).
    pose proof (IH j) as IHj. pose proof (IH k) as IHk. clear IH R Q L0.
    destruct a, (w_ph s k) eqn:Ep; try discriminate;
      try match type of E with match w_lock s with _ => _ end = _ => destruct (w_lock s) eqn:El; try discriminate end;
      try (destruct atomic); injection E as <-; unfold w_free;
      try match goal with |- context [match w_lock s with _ => _ end] => destruct (w_lock s) as [h|] eqn:El; [destruct (Nat.eqb_spec h k) as [->|Nh]|] end;
      cbn [w_set w_hold w_put w_ph w_lock]; destruct (Nat.eqb_spec j k) as [->|Nj]; try destruct late; rewrite ?Ep, ?El in *.
    all: try tauto; split; intro H; try discriminate H;
      try (destruct H as [(? & H)|(? & H)]; discriminate H);
      try (injection H as <-; contradiction);
      try (apply IHk in H; destruct H as [(? & H)|(? & H)]; discriminate H);
      try (apply IHj in H; try discriminate H; try (injection H as ->; contradiction));
      try (left; eexists; reflexivity); try (right; eexists; reflexivity); try reflexivity; try congruence; eauto.
    all: try (assert (X : Some h = Some k) by (apply IHk; eauto); injection X as ->; contradiction).
    all: try (assert (X : None = Some k) by (apply IHk; eauto); discriminate X).
    all: try (apply IHk; eauto).
Qed.
Print Assumptions C103_exclusive.
(** exactly one header if the first submission completes before another writer opens the file *)
Theorem C34_one_header_partial :
  forall header line k s0 s1 s, quiet s0 -> w_file s0 = [] ->
    w_run true header [NL] line [(k, AOpen); (k, ALock); (k, AWrite); (k, AUnlock); (k, AFlush)] s0 = Some s1 -> w_reach true header [NL] line s1 s ->
    ~ In NL header -> (forall j, ~ In NL (line j)) -> (forall j, line j <> header) -> headers header (w_file s) = 1%nat.
Proof.
  intros header line k s0 s1 s Q E0 E1 R Hh Hl Hne.
  assert (K : w_file s1 = header ++ [NL] ++ line k ++ [NL] /\ quiet s1).
  { cbn [w_run] in E1. unfold w_step in E1 at 1. destruct (w_ph s0 k) eqn:P0; try discriminate. rewrite E0 in E1. cbn [length] in E1.
    unfold w_step in E1 at 1. cbn [w_set w_ph w_lock] in E1. rewrite Nat.eqb_refl in E1. destruct (w_lock s0) eqn:L0; [discriminate|].
    unfold w_step in E1 at 1. cbn [w_set w_hold w_ph w_lock w_file] in E1. rewrite Nat.eqb_refl in E1.
    unfold w_step in E1 at 1. cbn [w_set w_hold w_ph w_lock w_file] in E1. rewrite Nat.eqb_refl in E1.
    unfold w_step in E1 at 1. cbn [w_set w_hold w_ph w_lock w_file] in E1. rewrite Nat.eqb_refl in E1. cbn in E1. injection E1 as <-.
    unfold w_free. cbn. rewrite ?Nat.eqb_refl. cbn. rewrite E0. cbn. split; [rewrite <- app_assoc; reflexivity|].
    intro j. specialize (Q j). cbn. destruct (Nat.eqb j k); [cbn; auto|exact Q]. }
  destruct K as [K1 K2].
  assert (W : whole_file (w_file s1)).
  { exists [header ++ [NL]; line k ++ [NL]]. split; [repeat constructor; apply whole_line; auto|]. cbn. rewrite K1, app_nil_r, <- app_assoc. reflexivity. }
  assert (N1 : w_file s1 <> []) by (rewrite K1; destruct header; discriminate).
  rewrite (C115_no_more_headers header line s1 s K2 R W N1 Hh Hl Hne). unfold headers. rewrite K1, app_assoc.
  rewrite lines_whole by (apply whole_line, Hh). rewrite <- (app_nil_r (line k ++ [NL])), lines_whole by (apply whole_line, Hl). cbn [lines_of filter].
  assert (E : not_header header (line k ++ [NL]) = true).
  { unfold not_header. apply negb_true_iff. change (eqb (line k ++ [NL]) (header ++ [NL]) = false). apply eqb_false. intro E. apply app_inj_tail in E. apply (Hne k), E. }
  assert (E' : not_header header (header ++ [NL]) = false).
  { unfold not_header. apply negb_false_iff. change (eqb (header ++ [NL]) (header ++ [NL]) = true). apply eqb_refl. }
  rewrite E, E'. reflexivity.
Qed.
Print Assumptions C34_one_header_partial.
(** False: two writers that open the new file before either closes it both write the header,
    although each holds the lock in turn. *)
Definition solo (k : nat) : list (nat * wact) := [(k, ALock); (k, AWrite); (k, AUnlock); (k, AFlush)].
Theorem C34_header_refuted :
  forall header l1 l2, exists s,
    w_run true header [NL] (fun k => match k with O => l1 | _ => l2 end) ([(0%nat, AOpen); (1%nat, AOpen)] ++ solo 0 ++ solo 1) (w_init []) = Some s /\
    w_file s = header ++ [NL] ++ l1 ++ [NL] ++ header ++ [NL] ++ l2 ++ [NL].
Proof. intros. eexists. split; [reflexivity|]. cbn. rewrite <- !app_assoc. reflexivity. Qed.
Print Assumptions C34_header_refuted.
(** False where appending is not atomic (Windows): a completed submission is overwritten. *)
Theorem C34_windows_refuted :
  forall header f l1 l2, f <> [] -> length l1 = length l2 -> exists s,
    w_run false header [NL] (fun k => match k with O => l1 | _ => l2 end)
      ([(0%nat, AOpen); (0%nat, ALock); (0%nat, AWrite); (0%nat, AUnlock); (1%nat, AOpen); (1%nat, ALock); (1%nat, AWrite); (1%nat, AUnlock);
        (0%nat, AFlush); (1%nat, AFlush); (0%nat, AFlush); (1%nat, AFlush)]) (w_init f) = Some s /\
    w_ph s 0%nat = WFinished /\ w_ph s 1%nat = WFinished /\ w_file s = f ++ l2 ++ [NL].
Proof.
  intros header f l1 l2 Hf Hl. destruct f as [|c f]; [contradiction|]. eexists. split; [reflexivity|]. split; [reflexivity|]. split; [reflexivity|].
  cbn. f_equal. unfold overwrite. rewrite firstn_all.
  assert (E : firstn (length f) (f ++ (l1 ++ [NL]) ++ skipn (length f + length (l1 ++ [NL])) f) = f)
    by (rewrite firstn_app, Nat.sub_diag, firstn_all; cbn; apply app_nil_r).
  rewrite E, (skipn_all2 (n := length f + length (l2 ++ [NL]))); [rewrite app_nil_r; reflexivity|].
  rewrite !app_length, skipn_length. cbn [length]. lia.
Qed.
Print Assumptions C34_windows_refuted.

(** Three writers, one waiting for the lock and trying again, one killed with its text in
    the buffer. *)
Example C34_demo :
  let line k := match k with O => lit "a,1" | 1%nat => lit "b,2" | _ => lit "c,3" end in
  match w_run true (lit "h") [NL] line
    ([(0%nat, AOpen); (0%nat, ALock); (1%nat, AOpen); (1%nat, ABusy false); (0%nat, AWrite); (0%nat, AUnlock); (2%nat, AOpen); (2%nat, ALock); (2%nat, AWrite); (2%nat, AKill);
      (0%nat, AFlush); (1%nat, AOpen)] ++ solo 1) (w_init []) with
  | Some s => w_file s = lit "h" ++ [NL] ++ lit "a,1" ++ [NL] ++ lit "b,2" ++ [NL] /\ w_ph s 2%nat = WKilled /\
      body (lit "h") (w_file s) = [lit "a,1" ++ [NL]; lit "b,2" ++ [NL]] /\ headers (lit "h") (w_file s) = 1%nat
  | None => False
  end /\ quiet (w_init []) /\ whole_file (lit "h" ++ [NL] ++ lit "x" ++ [NL]).
Proof.
  split; [vm_compute; auto|]. split; [intro k; cbn; auto|]. exists [lit "h" ++ [NL]; lit "x" ++ [NL]].
  split; [|reflexivity]. repeat constructor; apply whole_line; vm_compute; intuition discriminate.
Qed.
