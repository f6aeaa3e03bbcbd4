(** Lemmas for C34. *)
From Verif Require Import PyBase PyStr MGate MWriter SGate LGate2 SWriter LStr LGate.
From Coq Require Import Permutation.
Open Scope list_scope.

Section Inv.
  Context (header eol : str) (line : nat -> str) (s0 : wst).
  Notation f0 := (w_file s0).
  Definition chunk (p : nat * bool) : str := (if snd p then header ++ eol else []) ++ line (fst p) ++ eol.

  Definition good_text (k : nat) (t : str) (f : str) : Prop :=
    exists h, t = chunk (k, h) /\ (h = true -> f0 = []) /\ (f = [] -> h = true).
  Definition good_size (n : nat) (f : str) : Prop := (n = O -> f0 = []) /\ (f = [] -> n = O).
  Definition good_ph (s : wst) (k : nat) : Prop :=
    match w_ph s k with
    | WOpened n | WLocked n => good_size n (w_file s)
    | WBuffered t | WUnlocked t => good_text k t (w_file s)
    | WSeeked _ _ => False
    | _ => True
    end.
  Record winv (s : wst) (done : list (nat * bool)) : Prop := {
    wi_nodup : NoDup (map fst done);
    wi_done : forall k, In k (map fst done) <-> completed s0 s k;
    wi_old : forall k, w_ph s0 k = WFinished -> w_ph s k = WFinished;
    wi_file : w_file s = f0 ++ concat (map chunk done);
    wi_ph : forall k, good_ph s k;
    wi_head : forall p r, f0 = [] -> eol <> [] -> done = p :: r -> snd p = true;
    wi_tail : f0 <> [] -> forall p, In p done -> snd p = false
  }.

  Lemma inv_same s s' k p done : winv s done -> w_file s' = w_file s -> (forall j, w_ph s' j = if Nat.eqb j k then p else w_ph s j) ->
    w_ph s k <> WFinished -> p <> WFinished -> good_ph s' k -> winv s' done.
  Proof.
    intros I Ef Ep Hk Hp Hg. destruct I as [I1 I2 I7 I3 I4 I5 I6]. constructor; try assumption.
    - intro j. rewrite I2. unfold completed. rewrite Ep. destruct (Nat.eqb_spec j k) as [->|]; tauto.
    - intros j Hj. rewrite Ep. destruct (Nat.eqb_spec j k) as [->|]; [|auto]. apply I7 in Hj. contradiction.
    - rewrite Ef. exact I3.
    - intro j. destruct (Nat.eq_dec j k) as [->|N]; [exact Hg|]. specialize (I4 j). unfold good_ph in *. rewrite Ep, Ef.
      destruct (Nat.eqb_spec j k) as [->|]; [contradiction|exact I4].
  Qed.

  Lemma free_same k s : w_file (w_free k s) = w_file s /\ w_ph (w_free k s) = w_ph s.
  Proof. unfold w_free. destruct (w_lock s) as [j|]; [|auto]. destruct (Nat.eqb j k); auto. Qed.

  Lemma winv_step s k a s' done : winv s done -> w_step true header eol line k a s = Some s' -> exists done', winv s' done'.
  Proof.
    intros I E. pose proof (wi_ph s done I k) as Hg. unfold good_ph in Hg.
    unfold w_step in E.
    destruct a, (w_ph s k) eqn:Ep; try discriminate; try contradiction;
      try match type of E with match w_lock s with _ => _ end = _ => destruct (w_lock s) eqn:El; try discriminate end; try (injection E as <-).
    all: try (exists done; eapply (inv_same s); [exact I|first [exact (proj1 (free_same _ _))|reflexivity]
      |first [reflexivity | intro j; cbn; rewrite (proj2 (free_same _ _)); reflexivity]|congruence|first [discriminate|destruct late; discriminate]|unfold good_ph; cbn; rewrite ?Nat.eqb_refl, ?(proj1 (free_same _ _)); first [exact Hg|exact Logic.I|destruct late; exact Logic.I|idtac]]; fail).
    - exists done. eapply (inv_same s); [exact I|reflexivity|reflexivity|congruence|discriminate|].
      unfold good_ph. cbn. rewrite Nat.eqb_refl. split.
      + intro H. rewrite (wi_file s done I) in H. rewrite app_length in H. destruct (w_file s0); [reflexivity|cbn in H; lia].
      + intros ->. reflexivity.
    - exists done. eapply (inv_same s); [exact I|reflexivity|reflexivity|congruence|discriminate|].
      unfold good_ph. cbn. rewrite Nat.eqb_refl. destruct Hg as [G1 G2]. destruct size as [|n].
      + exists true. split; [reflexivity|]. split; [intros _; apply G1; reflexivity|reflexivity].
      + exists false. split; [reflexivity|]. split; [discriminate|]. intro H. specialize (G2 H). discriminate.
    - destruct Hg as (h & Et & G1 & G2). destruct I as [I1 I2 I7 I3 I4 I5 I6]. exists (done ++ [(k, h)]). constructor.
      + rewrite map_app. cbn [map fst]. assert (N : ~ In k (map fst done)) by (rewrite I2; unfold completed; rewrite Ep; intros [? _]; discriminate).
        clear - I1 N. induction (map fst done) as [|x l IH]; cbn in *; [repeat constructor; auto|].
        apply NoDup_cons_iff in I1. destruct I1 as [X Y]. constructor; [|apply IH; tauto]. rewrite in_app_iff. cbn. intros [H|[H|[]]]; [tauto|subst; tauto].
      + intro j. rewrite map_app, in_app_iff, I2. unfold completed. cbn. destruct (Nat.eqb_spec j k) as [->|]; [|split; [intros [H|[H|[]]]; [exact H|congruence]|tauto]].
        split; [|tauto]. intros _. split; [reflexivity|]. intro H. apply I7 in H. congruence.
      + intros j Hj. cbn. destruct (Nat.eqb_spec j k); [reflexivity|apply I7, Hj].
      + cbn. rewrite I3, map_app, concat_app, <- app_assoc. cbn [map concat]. rewrite app_nil_r, Et. reflexivity.
      + intro j. specialize (I4 j). unfold good_ph in *. cbn. destruct (Nat.eqb_spec j k) as [->|]; [exact Logic.I|].
        destruct (w_ph s j); try exact I4; try exact Logic.I.
        * split; [apply I4|]. intro H. apply app_eq_nil in H. apply I4, H.
        * split; [apply I4|]. intro H. apply app_eq_nil in H. apply I4, H.
        * destruct I4 as (h' & E' & A & B). exists h'. split; [exact E'|]. split; [exact A|]. intro H. apply app_eq_nil in H. apply B, H.
        * destruct I4 as (h' & E' & A & B). exists h'. split; [exact E'|]. split; [exact A|]. intro H. apply app_eq_nil in H. apply B, H.
      + intros p r E0 Ne Ed. destruct done as [|q done].
        * cbn in Ed. injection Ed as <- _. cbn. apply G2. rewrite I3, E0. reflexivity.
        * cbn in Ed. injection Ed as <- _. eapply I5; [exact E0|exact Ne|reflexivity].
      + intros N p Hp. apply in_app_iff in Hp. destruct Hp as [Hp|[<-|[]]]; [apply I6; assumption|]. cbn. destruct h; [|reflexivity]. exfalso. apply N, G1. reflexivity.
  Qed.

  Lemma winv_init : quiet s0 -> winv s0 [].
  Proof.
    intro Q. constructor; cbn.
    - constructor.
    - intro k. unfold completed. split; [intros []|tauto].
    - auto.
    - rewrite app_nil_r. reflexivity.
    - intro k. specialize (Q k). unfold good_ph. cbn in Q. destruct Q as [E|[E|[E|[E|[]]]]]; rewrite <- E; exact Logic.I.
    - discriminate.
    - intros _ p [].
  Qed.
  Lemma winv_reach s : quiet s0 -> w_reach true header eol line s0 s -> exists done, winv s done.
  Proof. intro Q. induction 1 as [|s k a s' _ [done IH] E]; [exists []; apply winv_init, Q|]. eapply winv_step; eassumption. Qed.
End Inv.

(** the file as lines *)
Lemma whole_line l : ~ In NL l -> whole (l ++ [NL]).
Proof. intro H. exists l. split; [reflexivity|exact H]. Qed.

Definition chunk_lines (header : str) (line : nat -> str) (p : nat * bool) : list str :=
  (if snd p then [header ++ [NL]] else []) ++ [line (fst p) ++ [NL]].
Lemma chunks_lines header line done : concat (map (chunk header [NL] line) done) = concat (concat (map (chunk_lines header line) done)).
Proof.
  induction done as [|[k h] done IH]; [reflexivity|]. cbn [map concat]. rewrite IH, concat_app. unfold chunk, chunk_lines. cbn [fst snd].
  rewrite concat_app. cbn [concat]. destruct h; cbn [concat]; rewrite ?app_nil_r; reflexivity.
Qed.
Lemma chunk_lines_whole header line done : ~ In NL header -> (forall k, ~ In NL (line k)) -> Forall whole (concat (map (chunk_lines header line) done)).
Proof.
  intros Hh Hl. apply Forall_concat. apply Forall_map, Forall_forall. intros [k h] _. unfold chunk_lines. cbn [fst snd].
  apply Forall_app. split; [|repeat constructor; apply whole_line, Hl]. destruct h; repeat constructor; apply whole_line, Hh.
Qed.
Lemma file_lines header line f0 done ls0 : Forall whole ls0 -> f0 = concat ls0 -> ~ In NL header -> (forall k, ~ In NL (line k)) ->
  lines_of (f0 ++ concat (map (chunk header [NL] line) done)) = lines_of f0 ++ concat (map (chunk_lines header line) done).
Proof.
  intros W -> Hh Hl. rewrite chunks_lines, <- concat_app.
  rewrite <- (app_nil_r (concat (ls0 ++ _))), lines_concat by (apply Forall_app; split; [exact W|apply chunk_lines_whole; assumption]).
  rewrite <- (app_nil_r (concat ls0)), lines_concat by exact W. cbn [lines_of]. rewrite !app_nil_r. reflexivity.
Qed.
