(** C84: the decoder accepts exactly UTF-8. *)
From Verif Require Import PyBase PyStr MCodec SCodec SUtf8 TCodec.
Open Scope list_scope.
Open Scope N_scope.

Lemma scalar_iff c : scalar c = true <-> unicode c.
Proof. unfold scalar, unicode. rewrite orb_true_iff, andb_true_iff, !N.ltb_lt, N.leb_le. lia. Qed.
Lemma pattern_char c b : pattern c b -> b = utf8_char c.
Proof.
  intro H. unfold utf8_char. destruct H as [c Hc|x y Hx Hy Hc|x y z Hx Hy Hz Hc|w x y z Hw Hx Hy Hz Hc].
  - rewrite ltb_t by lia. reflexivity.
  - rewrite ltb_f, ltb_t by lia. assert (D : (64 * x + y) / 64 = x) by (symmetry; apply N.div_unique with y; lia).
    assert (M : (64 * x + y) mod 64 = y) by (symmetry; apply N.mod_unique with x; lia). rewrite D, M. reflexivity.
  - rewrite ltb_f, ltb_f, ltb_t by lia. set (c := 4096 * x + 64 * y + z) in *.
    assert (D : c / 4096 = x) by (symmetry; apply N.div_unique with (64 * y + z); lia).
    assert (D2 : c / 64 = 64 * x + y) by (symmetry; apply N.div_unique with z; lia).
    assert (M : c mod 64 = z) by (symmetry; apply N.mod_unique with (64 * x + y); lia).
    assert (M2 : (64 * x + y) mod 64 = y) by (symmetry; apply N.mod_unique with x; lia). rewrite D, D2, M, M2. reflexivity.
  - rewrite ltb_f, ltb_f, ltb_f by lia. set (c := 262144 * w + 4096 * x + 64 * y + z) in *.
    assert (D : c / 262144 = w) by (symmetry; apply N.div_unique with (4096 * x + 64 * y + z); lia).
    assert (D2 : c / 4096 = 64 * w + x) by (symmetry; apply N.div_unique with (64 * y + z); lia).
    assert (D3 : c / 64 = 64 * (64 * w + x) + y) by (symmetry; apply N.div_unique with z; lia).
    assert (M : c mod 64 = z) by (symmetry; apply N.mod_unique with (64 * (64 * w + x) + y); lia).
    assert (M2 : (64 * w + x) mod 64 = x) by (symmetry; apply N.mod_unique with w; lia).
    assert (M3 : (64 * (64 * w + x) + y) mod 64 = y) by (symmetry; apply N.mod_unique with (64 * w + x); lia).
    rewrite D, D2, D3, M, M2, M3. reflexivity.
Qed.
Lemma cont_iff b : cont b = true <-> exists y, y < 64 /\ b = 128 + y.
Proof.
  unfold cont. rewrite andb_true_iff, N.leb_le, N.ltb_lt. split; [intro; exists (b - 128); lia|intros (y & ? & ->); lia].
Qed.
Lemma dec_sound f : forall s t, utf8_dec f s = Some t -> exists bs, Forall2 utf8 t bs /\ s = concat bs.
Proof.
  induction f as [|f IH]; intros s t H; [discriminate|]. cbn [utf8_dec] in H.
  assert (More : forall c p s', pattern c p -> (if scalar c then option_map (cons c) (utf8_dec f s') else None) = Some t ->
            exists bs, Forall2 utf8 t bs /\ p ++ s' = concat bs).
  { intros c p s' P E. destruct (scalar c) eqn:S; [|discriminate]. destruct (utf8_dec f s') as [t'|] eqn:D; [|discriminate]. cbn [option_map] in E. injection E as <-.
    destruct (IH s' t' D) as (bs & F & ->). exists (p :: bs). split; [|reflexivity]. constructor; [|exact F]. split; [apply scalar_iff; exact S|exact P]. }
  destruct s as [|a s1]; [injection H as <-; exists []; split; [constructor|reflexivity]|].
  destruct (N.ltb_spec a 128) as [A|A]; [apply (More a [a] s1); [constructor; lia|exact H]|].
  destruct (N.ltb_spec a 192) as [A2|A2]; [discriminate|]. destruct s1 as [|b s2]; [discriminate|].
  destruct (cont b) eqn:B; [|discriminate]. cbn [negb] in H. apply cont_iff in B. destruct B as (y & Hy & ->).
  destruct (N.ltb_spec a 224) as [A3|A3].
  { cbv zeta in H. destruct (N.ltb_spec ((a - 192) * 64 + (128 + y - 128)) 128) as [L|L]; [discriminate|].
    apply (More ((a - 192) * 64 + (128 + y - 128)) [a; 128 + y] s2); [|exact H].
    replace ((a - 192) * 64 + (128 + y - 128)) with (64 * (a - 192) + y) in * by lia. replace a with (192 + (a - 192)) at 2 by lia. constructor; lia. }
  destruct s2 as [|d s3]; [discriminate|]. destruct (cont d) eqn:D; [|discriminate]. cbn [negb] in H. apply cont_iff in D. destruct D as (z & Hz & ->).
  destruct (N.ltb_spec a 240) as [A4|A4].
  { cbv zeta in H. destruct (N.ltb_spec ((a - 224) * 4096 + (128 + y - 128) * 64 + (128 + z - 128)) 2048) as [L|L]; [discriminate|].
    apply (More ((a - 224) * 4096 + (128 + y - 128) * 64 + (128 + z - 128)) [a; 128 + y; 128 + z] s3); [|exact H].
    replace ((a - 224) * 4096 + (128 + y - 128) * 64 + (128 + z - 128)) with (4096 * (a - 224) + 64 * y + z) in * by lia.
    replace a with (224 + (a - 224)) at 2 by lia. constructor; lia. }
  destruct s3 as [|e s4]; [discriminate|]. destruct (cont e) eqn:E; [|discriminate]. cbn [negb] in H. apply cont_iff in E. destruct E as (w & Hw & ->).
  destruct (N.ltb_spec a 248) as [A5|A5]; [|discriminate]. cbv zeta in H.
  destruct (N.ltb_spec ((a - 240) * 262144 + (128 + y - 128) * 4096 + (128 + z - 128) * 64 + (128 + w - 128)) 65536) as [L|L]; [discriminate|].
  apply (More ((a - 240) * 262144 + (128 + y - 128) * 4096 + (128 + z - 128) * 64 + (128 + w - 128)) [a; 128 + y; 128 + z; 128 + w] s4); [|exact H].
  replace ((a - 240) * 262144 + (128 + y - 128) * 4096 + (128 + z - 128) * 64 + (128 + w - 128)) with (262144 * (a - 240) + 4096 * y + 64 * z + w) in * by lia.
  replace a with (240 + (a - 240)) at 2 by lia. constructor; lia.
Qed.
Theorem C84_utf8_exact : forall s t, utf8_decode s = Some t <-> exists bs, Forall2 utf8 t bs /\ s = concat bs.
Proof.
  intros s t. split; [apply dec_sound|]. intros (bs & F & ->).
  assert (X : concat bs = bytes utf8_char t /\ Forall (fun c => scalar c = true) t).
  { induction F as [|c b t bs [U P] _ [I1 I2]]; [split; [reflexivity|constructor]|]. split; [|constructor; [apply scalar_iff; exact U|exact I2]].
    cbn [concat]. unfold bytes in *. cbn [flat_map]. rewrite <- (pattern_char c b P), I1. reflexivity. }
  destruct X as [-> Hs]. apply (proj2 C84_utf8). exact Hs.
Qed.
Print Assumptions C84_utf8_exact.
(** every character has its bytes *)
Theorem C84_utf8_all : forall c, unicode c -> utf8 c (utf8_char c).
Proof.
  intros c U. split; [exact U|]. unfold utf8_char. destruct U as [U _].
  pose proof (N.div_mod' c 64) as E1. pose proof (N.mod_lt c 64 ltac:(lia)) as M1.
  pose proof (N.div_mod' (c / 64) 64) as E2. pose proof (N.mod_lt (c / 64) 64 ltac:(lia)) as M2. rewrite N.div_div in E2 by lia. change (64 * 64) with 4096 in E2.
  pose proof (N.div_mod' (c / 4096) 64) as E3. pose proof (N.mod_lt (c / 4096) 64 ltac:(lia)) as M3. rewrite N.div_div in E3 by lia. change (4096 * 64) with 262144 in E3.
  set (r2 := c / 64 mod 64) in *. set (r3 := c / 4096 mod 64) in *. clearbody r2 r3.
  set (r1 := c mod 64) in *. set (q1 := c / 64) in *. set (q2 := c / 4096) in *. set (q3 := c / 262144) in *. clearbody r1 q1 q2 q3.
  destruct (N.ltb_spec c 128) as [H|H]; [constructor; lia|].
  destruct (N.ltb_spec c 2048) as [H2|H2]; [replace c with (64 * q1 + r1) by lia; constructor; lia|].
  destruct (N.ltb_spec c 65536) as [H3|H3]; [replace c with (4096 * q2 + 64 * r2 + r1) by lia; constructor; lia|].
  replace c with (262144 * q3 + 4096 * r3 + 64 * r2 + r1) by lia. constructor; lia.
Qed.
Print Assumptions C84_utf8_all.
Example C84_utf8_demo : utf8_decode [195; 169; 238; 128; 128] = Some [233; 57344] /\ utf8_decode [192; 128] = None /\ utf8_decode [237; 160; 128] = None /\
  utf8_decode [244; 144; 128; 128] = None /\ utf8_decode [244; 143; 191; 191] = Some [1114111] /\ unicode 57344.
Proof. vm_compute. repeat split; try discriminate. intros [X Y]. apply Y. reflexivity. Qed.

(** Latin-1: every byte is the character of that number *)
Theorem C84_latin1_exact : forall s t, latin1_decode s = Some t <-> s = t /\ Forall (fun b => b <= 255) s.
Proof.
  intros s t. unfold latin1_decode. destruct (forallb (fun b => b <? 256) s) eqn:F.
  - assert (G : Forall (fun b => b <= 255) s).
    { apply Forall_forall. intros b Hb. rewrite forallb_forall in F. apply F in Hb. apply N.ltb_lt in Hb. lia. }
    split; [intro H; injection H as <-; auto|intros [-> _]; reflexivity].
  - split; [discriminate|]. intros [_ G]. rewrite (proj2 (forallb_forall _ _)) in F; [discriminate|].
    intros b Hb. rewrite Forall_forall in G. apply G in Hb. apply N.ltb_lt. lia.
Qed.
Print Assumptions C84_latin1_exact.
