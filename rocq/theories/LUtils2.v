(** Facts about the loader of [MUtils]. *)
From Verif Require Import PyStr LStr LGate MUtils SUtils LUtils.
Open Scope list_scope.

Lemma take_while_all f a c b : forallb f a = true -> f c = false -> take_while f (a ++ c :: b) = a.
Proof.
  intros H Hc. induction a as [|x a IH]; cbn [app take_while]; [rewrite Hc; reflexivity|].
  cbn [forallb] in H. destruct (f x); [|discriminate]. rewrite IH by exact H. reflexivity.
Qed.
Lemma take_while_whole f a : forallb f a = true -> take_while f a = a.
Proof. induction a as [|x a IH]; cbn [forallb take_while]; [reflexivity|]. destruct (f x); [|discriminate]. intro H. rewrite IH by exact H. reflexivity. Qed.
Lemma drop_while_whole f a : forallb f a = true -> drop_while f a = [].
Proof. induction a as [|x a IH]; cbn [forallb drop_while]; [reflexivity|]. destruct (f x); [exact IH|discriminate]. Qed.

Definition no_slash (c : N) : bool := negb (SLASH =? c)%N.
Lemma no_slash_all s : ~ In SLASH s -> forallb no_slash (rev s) = true.
Proof.
  intro H. rewrite forallb_rev. apply forallb_forall. intros c Hc. unfold no_slash. destruct (N.eqb_spec SLASH c); [congruence|reflexivity].
Qed.
Lemma split_bare f : ~ In SLASH f -> path_split f = ([], f).
Proof.
  intro H. pose proof (no_slash_all f H) as A. unfold path_split. fold no_slash.
  rewrite drop_while_whole, take_while_whole by exact A. rewrite rev_involutive. reflexivity.
Qed.
Lemma split_dir d f : ~ In SLASH f -> path_split (d ++ SLASH :: f) = (match rstrip_slash d with [] => d ++ [SLASH] | h => h end, f).
Proof.
  intro H. pose proof (no_slash_all f H) as A. unfold path_split. fold no_slash.
  rewrite rev_app_distr. cbn [rev]. rewrite <- app_assoc. cbn [app].
  rewrite take_while_all by (exact A || reflexivity). rewrite rev_involutive.
  rewrite drop_while_all by exact A. cbn [drop_while]. change (no_slash SLASH) with false. cbn iota. cbn [rev]. rewrite rev_involutive.
  assert (E : rstrip_slash (d ++ [SLASH]) = rstrip_slash d).
  { unfold rstrip_slash. rewrite rev_app_distr. reflexivity. }
  rewrite E. reflexivity.
Qed.
Lemma rstrip_slash_last d c : c <> SLASH -> rstrip_slash (d ++ [c]) = d ++ [c].
Proof.
  intro H. unfold rstrip_slash. rewrite rev_app_distr. cbn [rev app drop_while]. destruct (N.eqb_spec SLASH c) as [E|_]; [congruence|].
  cbn [rev]. rewrite rev_involutive. reflexivity.
Qed.

(** where the loader looks *)
Lemma loader_of d n p : code_path d n p -> loader_init p = (d, n ++ lit ".py").
Proof.
  intros (Hn & Hd & Hs & H). assert (F : ~ In SLASH (n ++ lit ".py")).
  { intro X. apply in_app_iff in X. destruct X as [X|X]; [tauto|]. vm_compute in X. intuition discriminate. }
  unfold loader_init. destruct H as [(-> & ->)|[(-> & ->)|(d' & c & -> & Hc & ->)]].
  - rewrite split_bare by exact F. reflexivity.
  - change (lit "/" ++ n ++ lit ".py") with ([] ++ SLASH :: (n ++ lit ".py")). rewrite split_dir by exact F. reflexivity.
  - change (lit "/" ++ n ++ lit ".py") with (SLASH :: (n ++ lit ".py")). rewrite split_dir by exact F.
    rewrite rstrip_slash_last by exact Hc. destruct (d' ++ [c]) eqn:E; [destruct d'; discriminate|reflexivity].
Qed.
Lemma name_of n : ~ In DOT n -> hd [] (split_on DOT (n ++ lit ".py")) = n.
Proof. intro H. change (lit ".py") with (DOT :: lit "py"). rewrite split_on_app by (apply has_char_false; exact H). reflexivity. Qed.
Lemma join_path d n p : code_path d n p -> p = path_join d n ++ lit ".py" \/ lit "./" ++ p = path_join d n ++ lit ".py".
Proof.
  intros (_ & _ & _ & [(-> & ->)|[(-> & ->)|(d' & c & -> & Hc & ->)]]); unfold path_join.
  - right. reflexivity.
  - left. reflexivity.
  - left. rewrite rstrip_slash_last by exact Hc. rewrite <- !app_assoc. reflexivity.
Qed.
Lemma find_first {A} (f : A -> bool) a x b : (forall y, In y a -> f y = false) -> f x = true -> find f (a ++ x :: b) = Some x.
Proof.
  intros H Hx. induction a as [|y a IH]; cbn [app find]; [rewrite Hx; reflexivity|]. rewrite (H y) by (left; reflexivity).
  apply IH. intros z Hz. apply H. right. exact Hz.
Qed.
Lemma import_file n i f : import_module n i = Ok (Some (OFile f)) -> In f (flat_map (fun d => candidates (im_ext i) d n) (im_path i)).
Proof.
  unfold import_module. intro H.
  assert (G : option_map OFile (find (im_file i) (flat_map (fun d => candidates (im_ext i) d n) (im_path i))) = Some (OFile f)).
  { destruct n; [discriminate|]. destruct (memb _ (im_modules i)); [discriminate|]. destruct (memb _ (im_builtin i)); [discriminate|]. apply Ok_inj in H. exact H. }
  destruct (find _ _) as [g|] eqn:E; [|discriminate]. injection G as <-. apply find_some in E. apply E.
Qed.
