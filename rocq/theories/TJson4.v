(** C160: exactly which files json.load takes and what it makes of them. *)
From Coq Require Import String.
From Verif Require Import PyBase PyStr MOrder MJson SJson SJson2 LStr LJson LJson2 TJson2 TJson3.
Open Scope list_scope.
Open Scope N_scope.

Lemma ws_split s : forall c s', skip_ws s = c :: s' -> exists w, space w /\ s = w ++ c :: s'.
Proof.
  induction s as [|a s IH]; intros c s'; cbn [skip_ws]; [discriminate|].
  destruct (N.eqb_spec a 32), (N.eqb_spec a 9), (N.eqb_spec a 10), (N.eqb_spec a 13); cbn [orb]; intro H;
    try (destruct (IH _ _ H) as (w & Hw & ->); exists (a :: w); split; [constructor; [unfold blank; tauto|exact Hw]|reflexivity]).
  injection H as -> ->. exists []. split; [constructor|reflexivity].
Qed.
Lemma ws_pass w s : space w -> solid_head s -> skip_ws (w ++ s) = s.
Proof.
  intros Hw Hs. induction Hw as [|c w Hc _ IH]; [apply ws_solid, Hs|]. cbn [app skip_ws]. destruct Hc as [->|[->|[->| ->]]]; exact IH.
Qed.
Lemma ws_cut s : exists w, space w /\ s = w ++ skip_ws s.
Proof.
  destruct (skip_ws s) as [|c s'] eqn:E; [exists s; split; [apply ws_iff, E|symmetry; apply app_nil_r]|]. apply ws_split, E.
Qed.
Lemma solid_of c s : c <> 32 -> c <> 9 -> c <> 10 -> c <> 13 -> solid_head (c :: s).
Proof. intros. exists c, s. auto. Qed.
Lemma scan_quoted s t r : scan s = Some (t, r) -> exists q, quoted t q /\ 34 :: s = q ++ r.
Proof.
  intro H. apply C160_strings in H as (l & q & Hq & -> & Hm). exists (34 :: q ++ [34]). split; [econstructor; eassumption|]. cbn [app]. rewrite <- app_assoc. reflexivity.
Qed.
Lemma quoted_scan t q : quoted t q -> exists q', q = 34 :: q' /\ forall r, scan (q' ++ r) = Some (t, r).
Proof.
  intros [l q' t' Hq Hm]. exists (q' ++ [34]). split; [reflexivity|]. intro r. apply C160_strings. exists l, q'. repeat split; try assumption. rewrite <- app_assoc. reflexivity.
Qed.

(** what may follow a value *)
Definition after_v (r : str) : Prop := exists w c r', space w /\ r = w ++ c :: r' /\ (c = 44 \/ c = 125).
Definition sound {V} (read : str -> option (V * str)) (vt : V -> str -> Prop) : Prop :=
  forall s v r, read s = Some (v, r) -> exists x, s = x ++ r /\ vt v x.
Definition complete {V} (read : str -> option (V * str)) (vt : V -> str -> Prop) : Prop :=
  forall v x, vt v x -> solid_head x /\ forall r, after_v r -> read (x ++ r) = Some (v, r).

Section Obj.
  Context {V : Type} (read : str -> option (V * str)) (vt : V -> str -> Prop) (Hs : sound read vt) (Hc : complete read vt).
  Lemma pairs_sound fuel : forall s m r, pairs read fuel s = Some (m, r) -> exists x, 34 :: s = x ++ r /\ ptext vt m x.
  Proof.
    induction fuel as [|fuel IH]; intros s m r; cbn [pairs]; [discriminate|].
    destruct (scan s) as [[k s1]|] eqn:E1; [|discriminate]. destruct (skip_ws s1) as [|c s2] eqn:E2; [discriminate|].
    destruct (N.eqb_spec c 58) as [->|]; [|discriminate]. destruct (read (skip_ws s2)) as [[v s3]|] eqn:E3; [|discriminate].
    destruct (skip_ws s3) as [|d s4] eqn:E4; [discriminate|].
    apply scan_quoted in E1 as (q & Hq & ->). apply ws_split in E2 as (w1 & Hw1 & ->). apply Hs in E3 as (x & E3 & Hx). destruct (ws_cut s2) as (w2 & Hw2 & Es2). rewrite E3 in Es2. rewrite Es2. clear E3 Es2.
    apply ws_split in E4 as (w3 & Hw3 & ->). pose proof (mt_intro vt k v q w1 w2 x w3 Hq Hw1 Hw2 Hx Hw3) as M.
    destruct (N.eqb_spec d 125) as [->|].
    - intros [= <- <-]. eexists. split; [|apply p_last, M]. repeat (rewrite <- app_assoc; cbn [app]). reflexivity.
    - destruct (N.eqb_spec d 44) as [->|]; [|discriminate]. destruct (skip_ws s4) as [|q' s5] eqn:E5; [discriminate|]. destruct (N.eqb_spec q' 34) as [->|]; [|discriminate].
      destruct (pairs read fuel s5) as [[m' r']|] eqn:E6; [|discriminate]. intros [= <- <-]. apply ws_split in E5 as (w4 & Hw4 & ->).
      apply IH in E6 as (y & E6 & Hy). rewrite E6. eexists. split; [|apply p_more; [exact M|exact Hw4|exact Hy]]. repeat (rewrite <- app_assoc; cbn [app]). reflexivity.
  Qed.
  Lemma mtext_read kv x r : mtext vt kv x -> forall c r', r = c :: r' -> (c = 44 \/ c = 125) ->
    exists s, x ++ r = 34 :: s /\ forall fuel, pairs read (S fuel) s =
      (if c =? 125 then Some ([kv], r') else if c =? 44 then
         match skip_ws r' with
         | q :: s5 => if q =? 34 then match pairs read fuel s5 with Some (l, r) => Some (kv :: l, r) | None => None end else None
         | [] => None
         end else None).
  Proof.
    intros [k v q w1 w2 x' w3 Hq Hw1 Hw2 Hx Hw3] c r' -> Hcc. destruct (quoted_scan _ _ Hq) as (q' & -> & Hq'). destruct (Hc v x' Hx) as [Hh Hr].
    exists (q' ++ w1 ++ 58 :: w2 ++ x' ++ w3 ++ c :: r'). split; [cbn [app]; repeat (rewrite <- app_assoc; cbn [app]); reflexivity|]. intro fuel.
    cbn [pairs]. rewrite Hq'. rewrite (ws_pass w1) by (try assumption; apply solid_of; discriminate). change (58 =? 58) with true. cbn iota.
    rewrite (ws_pass w2) by (try assumption; apply solid_app, Hh). rewrite Hr by (exists w3, c, r'; repeat split; assumption).
    rewrite (ws_pass w3) by (try assumption; apply solid_of; destruct Hcc; subst; discriminate). reflexivity.
  Qed.
  Lemma pairs_complete m x : ptext vt m x -> (exists s, x = 34 :: s) /\ forall r s fuel, x ++ r = 34 :: s -> (List.length m <= fuel)%nat -> pairs read fuel s = Some (m, r).
  Proof.
    assert (Q : forall kv y, mtext vt kv y -> exists y', y = 34 :: y') by (intros kv y [k v q w1 w2 x' w3 Hq _ _ _ _]; destruct Hq; cbn [app]; eauto).
    induction 1 as [kv x M|kv x w m y M Hw Hy [(y' & ->) IH]].
    - split; [destruct (Q _ _ M) as (y' & ->); cbn [app]; eauto|]. intros r s fuel E L. cbn [List.length] in L. destruct fuel as [|fuel]; [lia|]. rewrite <- app_assoc in E. cbn [app] in E.
      destruct (mtext_read kv x (125 :: r) M 125 r eq_refl (or_intror eq_refl)) as (s' & E' & P). rewrite E in E'. injection E' as <-. rewrite P. reflexivity.
    - split; [destruct (Q _ _ M) as (y'' & ->); cbn [app]; eauto|]. intros r s fuel E L. cbn [List.length] in L. destruct fuel as [|fuel]; [lia|]. repeat (rewrite <- app_assoc in E; cbn [app] in E).
      destruct (mtext_read kv x _ M 44 (w ++ 34 :: y' ++ r) eq_refl (or_introl eq_refl)) as (s' & E' & P). rewrite E in E'. injection E' as <-. rewrite P.
      change (44 =? 125) with false. change (44 =? 44) with true. cbn iota. rewrite (ws_pass w) by (try assumption; apply solid_of; discriminate). change (34 =? 34) with true. cbn iota.
      rewrite (IH r (y' ++ r) fuel eq_refl ltac:(lia)). reflexivity.
  Qed.
  Lemma ptext_length m x : ptext vt m x -> (List.length m <= List.length x)%nat.
  Proof. induction 1; rewrite ?app_length; cbn [List.length]; rewrite ?app_length in *; cbn [List.length] in *; lia. Qed.
  Lemma obj_sound : sound (read_obj read) (otext vt).
  Proof.
    intros s o r. unfold read_obj. destruct s as [|c s1]; [discriminate|]. destruct (N.eqb_spec c 123) as [->|]; [|discriminate].
    destruct (skip_ws s1) as [|d s2] eqn:E; [discriminate|]. apply ws_split in E as (w & Hw & ->). destruct (N.eqb_spec d 125) as [->|].
    - intros [= <- <-]. exists (123 :: w ++ [125]). split; [cbn [app]; rewrite <- app_assoc; reflexivity|constructor; exact Hw].
    - destruct (N.eqb_spec d 34) as [->|]; [|discriminate]. destruct (pairs _ _ _) as [[m r']|] eqn:P; [|discriminate]. intros [= <- <-].
      apply pairs_sound in P as (x & P & Hx). exists (123 :: w ++ x). split; [cbn [app]; rewrite P, <- app_assoc; reflexivity|apply o_some; assumption].
  Qed.
  Lemma obj_complete o x r : otext vt o x -> read_obj read (x ++ r) = Some (o, r).
  Proof.
    intros [w Hw|w m y Hw Hy]; unfold read_obj; cbn [app]; change (123 =? 123) with true; cbn iota; rewrite <- app_assoc.
    - rewrite ws_pass by (try assumption; apply solid_of; discriminate). reflexivity.
    - destruct (pairs_complete m y Hy) as [(y' & ->) P]. cbn [app]. rewrite (ws_pass w) by (try assumption; apply solid_of; discriminate). change (34 =? 125) with false. change (34 =? 34) with true. cbn iota.
      rewrite (P r (y' ++ r)); [reflexivity|reflexivity|]. pose proof (ptext_length m _ Hy) as L. cbn [List.length] in *. rewrite !app_length. cbn [List.length]. rewrite app_length. lia.
  Qed.
  Lemma obj_complete' : complete (read_obj read) (otext vt).
  Proof.
    intros o x H. split; [destruct H; apply solid_of; discriminate|]. intros r _. apply obj_complete, H.
  Qed.
End Obj.
Lemma value_sound : sound value vtext.
Proof.
  intros s v r. unfold value. destruct s as [|c s1]; [discriminate|]. destruct (N.eqb_spec c 34) as [->|].
  - destruct (scan s1) as [[t r']|] eqn:E; [|discriminate]. intros [= <- <-]. apply scan_quoted in E as (q & Hq & ->). exists q. split; [reflexivity|constructor; exact Hq].
  - destruct (startswith (lit "null") (c :: s1)) eqn:E.
    + apply null_split in E as (y & ->). intros [= <- <-]. exists (lit "null"). split; [reflexivity|constructor].
    + destruct (span num_char (c :: s1)) as [a b] eqn:E'. destruct (is_num a) eqn:K; [|discriminate]. intros [= <- <-]. apply span_inv in E' as [-> _]. exists a. split; [reflexivity|constructor; apply C160_numbers, K].
Qed.
Lemma after_num r : after_v r -> match r with c :: _ => num_char c = false | [] => True end.
Proof.
  intros (w & c & r' & Hw & -> & Hc). destruct Hw as [|a w Ha _]; cbn [app]; [destruct Hc; subst; reflexivity|]. destruct Ha as [->|[->|[->| ->]]]; reflexivity.
Qed.
Lemma value_complete : complete value vtext.
Proof.
  intros v x [|t q Hq|s Hn].
  - split; [apply solid_of; discriminate|]. intros r _. reflexivity.
  - destruct (quoted_scan _ _ Hq) as (q' & -> & H). split; [apply solid_of; discriminate|]. intros r _. unfold value. cbn [app]. change (34 =? 34) with true. cbn iota. rewrite H. reflexivity.
  - split; [apply (value_head (JNum s)), Hn|]. intros r Hr. destruct (num_first s Hn) as (c & s' & E & Hc). pose proof (span_all num_char s r (num_chars s Hn) (after_num r Hr)) as S. pose proof (num_ok s Hn) as K.
    rewrite E in *. rewrite <- app_comm_cons in *. unfold value.
    assert (X : (c =? 34) = false /\ startswith (lit "null") (c :: s' ++ r) = false).
    { split; [apply N.eqb_neq; unfold dig in Hc; lia|]. unfold startswith, lit. cbn -[N.eqb]. destruct (N.eqb_spec 110 c); [unfold dig in Hc; lia|reflexivity]. }
    destruct X as [-> ->]. rewrite S, K. reflexivity.
Qed.

(** A text is taken for the save file of [o] just if it is one in the grammar of JSON, however it
    is laid out and its strings are escaped. *)
Theorem C160_grammar : forall s o, loads s = Some o <-> ftext o s.
Proof.
  intros s o. unfold loads. pose proof (obj_sound _ _ value_sound) as S1. pose proof (obj_complete' _ _ value_complete) as C1. split.
  - destruct (read_obj (read_obj value) (skip_ws s)) as [[o' r]|] eqn:E; [|discriminate]. destruct (skip_ws r) eqn:Er; [|discriminate]. intros [= <-].
    apply (obj_sound _ _ S1) in E as (x & E & Hx). destruct (ws_cut s) as (w & Hw & Es). rewrite Es, E. constructor; [exact Hw|exact Hx|apply ws_iff, Er].
  - intros [w o' x w' Hw Hx Hw']. rewrite ws_pass; [|exact Hw|apply solid_app; destruct Hx; apply solid_of; discriminate].
    rewrite (obj_complete _ _ C1 o' x w' Hx), (proj2 (ws_iff w') Hw'). reflexivity.
Qed.
Print Assumptions C160_grammar.
Example C160_demo_grammar :
  let f := lit "{ ""a"" : {""k"":1,""k"" : ""x""} , ""b"":{ } }" ++ [10] in
  loads f = Some [(lit "a", [(lit "k", JStr (lit "x"))]); (lit "b", [])] /\ loads (lit "{""a"":{},}") = None /\ loads (lit "{""a"" {}}") = None /\ loads (lit "{'a':{}}") = None.
Proof. repeat split. Qed.
