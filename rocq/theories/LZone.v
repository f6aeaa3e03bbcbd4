(** Lemmas on zones with a changing offset. *)
From Coq Require Import Lia.
From Verif Require Import PyBase MTime MZone SZone.
Open Scope Z_scope.

Section Zone.
  Context (off : Z -> Z).
  Context (ZO : zone_ok off).

  (** case analysis on [mktime] with one change around [t] *)
  Lemma mktime_cases t u0 A B : - 86400 <= A <= 86400 -> - 86400 <= B <= 86400 -> - 86400 <= A - B <= 86400 -> change_at off t 432000 u0 A B ->
    (t - A < u0 /\ mktime off t = t - A) \/ (u0 <= t - A /\ u0 <= t - B /\ mktime off t = t - B) \/
    (u0 <= t - A /\ t - B < u0 /\ mktime off t = t - A).
  Proof.
    intros HA HB HD C. unfold change_at in C.
    assert (Ca : off t = if t <? u0 then A else B) by (apply C; lia).
    unfold mktime, localtime, MAX_FOLD. rewrite Ca.
    assert (E : forall x, - 259200 <= x - t <= 259200 -> off x = if x <? u0 then A else B) by (intros; apply C; lia).
    destruct (Z.eq_dec A B) as [Q|Q].
    { assert (E' : forall x, - 259200 <= x - t <= 259200 -> off x = A) by (intros x X; rewrite (E x X); destruct (x <? u0); congruence).
      replace (if t <? u0 then A else B) with A by (destruct (t <? u0); congruence). replace (t - (t + A - t)) with (t - A) by lia.
      rewrite (E' (t - A)) by lia. rewrite (E' (t - A - 86400)) by lia. replace (t - A + A) with t by lia. rewrite Z.eqb_refl.
      replace (t - A - 86400 + A - (t - A - 86400)) with (t + A - t) by lia. rewrite Z.eqb_refl. cbn [andb]. destruct (Z_lt_le_dec (t - A) u0); [left|right; left]; lia. }
    destruct (Z.ltb_spec t u0) as [L|L].
    - replace (t - (t + A - t)) with (t - A) by lia. rewrite (E (t - A)) by lia.
      destruct (Z.ltb_spec (t - A) u0) as [L1|L1].
      + replace (t - A + A) with t by lia. rewrite Z.eqb_refl. rewrite (E (t - A - 86400)) by lia.
        destruct (Z.ltb_spec (t - A - 86400) u0); [|lia]. replace (t - A - 86400 + A - (t - A - 86400)) with (t + A - t) by lia. rewrite Z.eqb_refl. cbn [andb]. left. split; [lia|reflexivity].
      + destruct (Z.eqb_spec (t - A + B) t) as [Q1|Q1]; [lia|].
        * cbn [andb]. replace (t - (t - A + B - (t - A))) with (t - B) by lia. rewrite (E (t - B)) by lia. destruct (Z.ltb_spec (t - B) u0) as [L2|L2].
          -- destruct (Z.eqb_spec (t - B + A) t); [lia|]. right. right. split; [lia|]. split; [lia|]. lia.
          -- replace (t - B + B) with t by lia. rewrite Z.eqb_refl. right. left. lia.
    - replace (t - (t + B - t)) with (t - B) by lia. rewrite (E (t - B)) by lia.
      destruct (Z.ltb_spec (t - B) u0) as [L1|L1].
      + destruct (Z.eqb_spec (t - B + A) t) as [Q1|Q1]; [lia|].
        * cbn [andb]. replace (t - (t - B + A - (t - B))) with (t - A) by lia. rewrite (E (t - A)) by lia. destruct (Z.ltb_spec (t - A) u0) as [L2|L2].
          -- replace (t - A + A) with t by lia. rewrite Z.eqb_refl. left. lia.
          -- destruct (Z.eqb_spec (t - A + B) t); [lia|]. right. right. split; [lia|]. split; [lia|]. lia.
      + replace (t - B + B) with t by lia. rewrite Z.eqb_refl. rewrite (E (t - B - 86400)) by lia. cbn [andb].
        set (b := t - B - 86400 + (if t - B - 86400 <? u0 then A else B) - (t - B - 86400)).
        assert (Eb : b = if t - B - 86400 <? u0 then A else B) by (unfold b; lia). rewrite Eb. destruct (Z.ltb_spec (t - B - 86400) u0) as [L2|L2].
        * destruct (Z.eqb_spec (t + B - t) A) as [Q1|Q1].
          -- lia.
          -- rewrite (E (t - A)) by lia. destruct (Z.ltb_spec (t - A) u0) as [L3|L3].
             ++ replace (t - A + A) with t by lia. rewrite Z.eqb_refl. left. lia.
             ++ destruct (Z.eqb_spec (t - A + B) t); [lia|]. right. left. lia.
        * destruct (Z.eqb_spec (t + B - t) B); [|lia]. right. left. lia.
  Qed.

  (** solutions near [t] *)
  Lemma shows_near t u : shows_at off t u -> - 86400 <= u - t <= 86400.
  Proof. intro S. unfold shows_at in S. pose proof (proj1 ZO u). lia. Qed.

  Lemma mktime_shown t : shown off t -> first_shown off t (mktime off t).
  Proof.
    intros [u S]. destruct (proj2 ZO t) as (u0 & A & B & HA & HB & HD & C). unfold change_at in C.
    assert (N : forall v, shows_at off t v -> (v < u0 /\ v = t - A) \/ (u0 <= v /\ v = t - B)).
    { intros v V. pose proof (shows_near t v V). unfold shows_at in V. rewrite (C v) in V by lia. destruct (Z.ltb_spec v u0); lia. }
    assert (M : forall v, - 86400 <= v - t <= 86400 -> off v = if v <? u0 then A else B) by (intros; apply C; lia).
    destruct (mktime_cases t u0 A B HA HB HD C) as [[H ->]|[(H & H' & ->)|(H & H' & ->)]].
    - split; [unfold shows_at; rewrite M by lia; destruct (Z.ltb_spec (t - A) u0); lia|]. intros v V. destruct (N v V) as [[]|[]]; lia.
    - split; [unfold shows_at; rewrite M by lia; destruct (Z.ltb_spec (t - B) u0); lia|]. intros v V. destruct (N v V) as [[]|[]]; lia.
    - destruct (N u S) as [[]|[]]; lia.
  Qed.

  Lemma mktime_near t : - 86400 <= mktime off t - t <= 86400.
  Proof.
    destruct (proj2 ZO t) as (u0 & A & B & HA & HB & HD & C).
    destruct (mktime_cases t u0 A B HA HB HD C) as [[H ->]|[(H & H' & ->)|(H & H' & ->)]]; lia.
  Qed.

  (** times that are not shown *)
  Lemma mktime_gap u t0 n t : jump off u t0 n -> t0 <= t < t0 + n -> mktime off t = u + (t - t0) /\ localtime off (mktime off t) = t + n.
  Proof.
    intros (P & J1 & J2) R. pose proof (proj1 ZO (u - 1)). pose proof (proj1 ZO u).
    destruct (proj2 ZO t) as (u0 & A & B & HA & HB & HD & C). pose proof C as C'. unfold change_at in C'.
    assert (n <= 172800) by lia.
    rewrite (C' (u - 1)) in J1 by lia. rewrite (C' u) in J2 by lia.
    destruct (Z.ltb_spec (u - 1) u0); destruct (Z.ltb_spec u u0); try lia. assert (u = u0) by lia. subst u0.
    destruct (mktime_cases t u A B HA HB HD C) as [[K3 E]|[(K3 & K4 & E)|(K3 & K4 & E)]]; try lia.
    split; [lia|]. unfold localtime. rewrite (C' (mktime off t)) by lia. destruct (Z.ltb_spec (mktime off t) u); lia.
  Qed.

  Lemma mktime_order t1 t2 : t1 < t2 -> shown off t1 -> shown off t2 -> mktime off t1 < mktime off t2.
  Proof.
    intros L S1 S2. destruct (Z_lt_le_dec (t1 + 172800) t2) as [F|F].
    - pose proof (mktime_near t1). pose proof (mktime_near t2). lia.
    - destruct (mktime_shown t1 S1) as [W1 F1]. destruct (mktime_shown t2 S2) as [W2 F2].
      pose proof (shows_near _ _ W1). pose proof (shows_near _ _ W2).
      destruct (proj2 ZO t1) as (u0 & A & B & HA & HB & HD & C). unfold change_at in C.
      assert (E1 : off (mktime off t1) = if mktime off t1 <? u0 then A else B) by (apply C; lia).
      assert (E2 : off (mktime off t2) = if mktime off t2 <? u0 then A else B) by (apply C; lia).
      unfold shows_at in W1, W2. rewrite E1 in W1. rewrite E2 in W2.
      destruct (Z.ltb_spec (mktime off t1) u0); destruct (Z.ltb_spec (mktime off t2) u0); try lia.
      (* t2 before the change, t1 after it: then t1 is also shown before it *)
      exfalso. assert (S : shows_at off t1 (t1 - A)) by (unfold shows_at; rewrite (C (t1 - A)) by lia; destruct (Z.ltb_spec (t1 - A) u0); lia).
      specialize (F1 _ S). lia.
  Qed.

  (** a start that is no second showing of its time *)
  Lemma start_order w0 t : (forall v, shows_at off (localtime off w0) v -> w0 <= v) -> localtime off w0 <= t -> w0 <= mktime off t.
  Proof.
    intros F L. unfold localtime in *. pose proof (proj1 ZO w0).
    destruct (Z_lt_le_dec (w0 + off w0 + 172800) t) as [X|X]; [pose proof (mktime_near t); lia|].
    destruct (proj2 ZO t) as (u0 & A & B & HA & HB & HD & C). pose proof C as C'. unfold change_at in C'.
    assert (E0 : off w0 = if w0 <? u0 then A else B) by (apply C'; lia).
    destruct (mktime_cases t u0 A B HA HB HD C) as [[K3 ->]|[(K3 & K4 & ->)|(K3 & K4 & ->)]]; destruct (Z.ltb_spec w0 u0); try lia.
    assert (S : shows_at off (w0 + off w0) (w0 + off w0 - A)).
    { unfold shows_at. rewrite (C' (w0 + off w0 - A)) by lia. destruct (Z.ltb_spec (w0 + off w0 - A) u0); lia. }
    specialize (F _ S). lia.
  Qed.
End Zone.
