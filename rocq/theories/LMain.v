(** Lemmas for C92: argparse with options only. *)
From Verif Require Import PyBase PyStr MTasks PyArgs MMain SMain LStr LGate.
From Coq Require Import Lia.
Open Scope list_scope.

Lemma eqb_no {A} {e : Eqb A} (x y : A) : x <> y -> eqb x y = false.
Proof. intro H. destruct (eqb x y) eqn:E; [|reflexivity]. apply eqb_true in E. contradiction. Qed.
Lemma split_eq_at s v : ~ In 61%N s -> split_eq (s ++ 61%N :: v) = Some (s, v).
Proof.
  induction s as [|c s IH]; intro H; [reflexivity|]. cbn [app split_eq].
  destruct (N.eqb_spec c 61) as [->|_]; [exfalso; apply H; left; reflexivity|]. rewrite IH; [reflexivity|]. intro; apply H; right; assumption.
Qed.
Lemma split_eq_none s : ~ In 61%N s -> split_eq s = None.
Proof.
  induction s as [|c s IH]; intro H; [reflexivity|]. cbn [split_eq].
  destruct (N.eqb_spec c 61) as [->|_]; [exfalso; apply H; left; reflexivity|]. rewrite IH; [reflexivity|]. intro; apply H; right; assumption.
Qed.
Lemma split_eq_some t p e : split_eq t = Some (p, e) -> t = p ++ 61%N :: e /\ ~ In 61%N p.
Proof.
  revert p. induction t as [|c t IH]; cbn [split_eq]; [discriminate|]. intros p. destruct (N.eqb_spec c 61) as [->|Nc].
  - intro E. injection E as <- <-. split; [reflexivity|intros []].
  - destruct (split_eq t) as [[a b]|]; cbn; [|discriminate]. intro E. injection E as <- <-. destruct (IH _ eq_refl) as [-> H]. split; [reflexivity|].
    intros [X|X]; [congruence|auto].
Qed.

Lemma sw_prefix p s : startswith p s = true <-> prefix p s.
Proof. apply startswith_iff. Qed.

(** an option string: a dash and a letter, or two dashes and a word *)
Definition key_ok (s : str) : Prop :=
  (exists c, s = [DASH; c] /\ c <> DASH /\ c <> 61%N /\ c <> 46%N /\ is_digit c = false) \/ (exists c w, s = DASH :: DASH :: c :: w /\ ~ In 61%N (c :: w)).

Section Args.
  Context {K : Type} (reg : list (str * (K * bool))) (names_nodup : NoDup (map fst reg)) (names_ok : Forall key_ok (map fst reg)).

  Lemma key_of s o : In (s, o) reg -> key_ok s.
  Proof. intro H. apply (proj1 (Forall_forall _ _) names_ok). apply in_map_iff. exists (s, o). auto. Qed.
  Lemma key_no_eq s : key_ok s -> ~ In 61%N s.
  Proof.
    intros [(c & -> & H1 & H2 & _)|(c & w & -> & H)] X.
    - destruct X as [X|[X|[]]]; [discriminate X|congruence].
    - destruct X as [X|[X|X]]; [discriminate X|discriminate X|apply H, X].
  Qed.
  Lemma key_head s : key_ok s -> exists c w, s = DASH :: c :: w.
  Proof. intros [(c & -> & _)|(c & w & -> & _)]; eauto. Qed.
  Lemma dget_reg s o : In (s, o) reg -> dget s reg = Some o.
  Proof using names_nodup.
    clear names_ok. revert names_nodup. induction reg as [|[s' o'] r IH]; cbn [In map fst dget]; intros ND H0; [contradiction|]. destruct H0 as [E|H].
    - injection E as -> ->. rewrite eqb_refl. reflexivity.
    - apply NoDup_cons_iff in ND. destruct ND as [N1 N2]. destruct (eqb_spec s s') as [->|_]; [|apply IH; assumption].
      exfalso. apply N1. apply in_map_iff. exists (s', o). auto.
  Qed.
  Lemma dget_none s : (forall o, ~ In (s, o) reg) -> dget s reg = None.
  Proof. intro H. destruct (dget s reg) as [o|] eqn:E; [|reflexivity]. apply dget_In in E. exfalso. exact (H o E). Qed.

  (** only one option string matches *)
  Lemma one_match {B} (f : str * (K * bool) -> list B) s o (b : B) :
    In (s, o) reg -> f (s, o) = [b] -> (forall s' o', In (s', o') reg -> s' <> s -> f (s', o') = []) -> flat_map f reg = [b].
  Proof using names_nodup.
    clear names_ok. revert names_nodup. induction reg as [|[s1 o1] r IH]; cbn [In map fst flat_map]; intros ND H E O; [contradiction|].
    apply NoDup_cons_iff in ND. destruct ND as [N1 N2]. destruct H as [X|H].
    - injection X as -> ->. rewrite E. cbn [app]. f_equal.
      assert (Z : forall l, incl l r -> flat_map f l = []); [|apply Z, incl_refl].
      induction l as [|[s2 o2] l IHl]; intro I; [reflexivity|]. cbn [flat_map]. rewrite IHl; [|intros y Y; apply I; right; exact Y].
      rewrite (O s2 o2); [reflexivity|right; apply I; left; reflexivity|]. intros ->. apply N1. apply in_map_iff. exists (s, o2). split; [reflexivity|apply I; left; reflexivity].
    - rewrite (O s1 o1); [|left; reflexivity|].
      + cbn [app]. apply IH; auto.
      + intros ->. apply N1. apply in_map_iff. exists (s, o). auto.
  Qed.

  Lemma class_dash (t : str) : (exists c w, t = DASH :: c :: w) ->
    class_of reg t = match dget t reg with
      | Some o => COpt (Some (t, o)) None
      | None =>
        match match split_eq t with
              | Some (p, e) => match dget p reg with Some o => Some (COpt (Some (p, o)) (Some e)) | None => None end
              | None => None end with
        | Some k => k
        | None =>
          match option_tuples_of reg t with
          | _ :: _ :: _ => CAmbiguous
          | [(so, e)] => COpt (Some so) e
          | [] => if negative_number t then CArg else if has_char 32%N t then CArg else COpt None None
          end
        end
      end.
  Proof. intros (c & w & ->). reflexivity. Qed.
  Lemma tuples_long (t : str) : (exists w, t = DASH :: DASH :: w) ->
    option_tuples_of reg t = let '(p, e) := match split_eq t with Some (p, e) => (p, Some e) | None => (t, None) end in
          flat_map (fun '(s, o) => if startswith p s then [((s, o), e)] else []) reg.
  Proof. intros (w & ->). reflexivity. Qed.

  Lemma class_name s o : In (s, o) reg -> class_of reg s = COpt (Some (s, o)) None.
  Proof using names_nodup names_ok.
    intro H. rewrite (class_dash s) by exact (key_head _ (key_of _ _ H)). rewrite (dget_reg _ _ H). reflexivity.
  Qed.

  Definition stands (p s : str) : Prop :=
    p = s \/ ((exists c w, p = DASH :: DASH :: c :: w) /\ ~ In 61%N p /\ prefix p s /\ forall s' o', In (s', o') reg -> prefix p s' -> s' = s).

  Lemma class_stands p s o : In (s, o) reg -> stands p s -> class_of reg p = COpt (Some (s, o)) None.
  Proof using names_nodup names_ok.
    intros H [->|((c & w & E) & Ne & P & U)]; [apply class_name, H|].
    destruct (dget p reg) as [o'|] eqn:D.
    { apply dget_In in D. assert (p = s) as -> by (apply (U p o' D); exists []; rewrite app_nil_r; reflexivity). apply class_name, H. }
    assert (O : option_tuples_of reg p = [((s, o), None)]).
    { rewrite (tuples_long p) by eauto. rewrite split_eq_none by exact Ne. cbv beta iota zeta.
      eapply one_match with (s := s) (o := o); [exact H| |].
      - apply sw_prefix in P. rewrite P. reflexivity.
      - intros s' o' H' Ns. destruct (startswith p s') eqn:S; [|reflexivity]. apply sw_prefix in S. destruct (Ns (U _ _ H' S)). }
    rewrite (class_dash p) by eauto. rewrite D, O, split_eq_none by exact Ne. reflexivity.
  Qed.

  Lemma class_equals p s o v : In (s, o) reg -> stands p s -> class_of reg (p ++ 61%N :: v) = COpt (Some (s, o)) (Some v).
  Proof using names_nodup names_ok.
    intros H St.
    assert (Np : ~ In 61%N p) by (destruct St as [->|(_ & N & _)]; [eapply key_no_eq, key_of, H|exact N]).
    assert (Hd : exists c w, p = DASH :: c :: w) by (destruct St as [->|((c & w & E) & _)]; [eapply key_head, key_of, H|eauto]).
    destruct Hd as (c & w & E).
    assert (Q : forall q : str, q = p ++ 61%N :: v -> class_of reg q = COpt (Some (s, o)) (Some v)); [|apply Q; reflexivity].
    intros q Eq. assert (Sq : split_eq q = Some (p, v)) by (rewrite Eq; apply split_eq_at, Np).
    assert (Hq : exists c w, q = DASH :: c :: w) by (rewrite Eq, E; cbn [app]; eauto).
    assert (D : dget q reg = None).
    { apply dget_none. intros o' X. rewrite Eq in X. apply key_of, key_no_eq in X. apply X, in_or_app. right; left; reflexivity. }
    assert (X : class_of reg q = match dget p reg with Some o => COpt (Some (p, o)) (Some v) | None =>
        match option_tuples_of reg q with
        | _ :: _ :: _ => CAmbiguous | [(so, e)] => COpt (Some so) e
        | [] => if negative_number q then CArg else if has_char 32%N q then CArg else COpt None None end end).
    { rewrite (class_dash q) by exact Hq. rewrite D, Sq.
      destruct (dget p reg); reflexivity. }
    rewrite X. destruct St as [->|((c' & w' & E') & _ & P & U)]; [rewrite (dget_reg _ _ H); reflexivity|].
    destruct (dget p reg) as [o'|] eqn:Dp.
    { apply dget_In in Dp. assert (p = s) as -> by (apply (U p o' Dp); exists []; rewrite app_nil_r; reflexivity). 
      pose proof (dget_reg _ _ H) as A. rewrite (dget_reg _ _ Dp) in A. injection A as ->. reflexivity. }
    assert (O : option_tuples_of reg q = [((s, o), Some v)]).
    { rewrite (tuples_long q) by (rewrite Eq, E'; cbn [app]; eauto).
      rewrite Sq. cbv beta iota zeta.
      eapply one_match with (s := s) (o := o); [exact H| |].
      - apply sw_prefix in P. rewrite P. reflexivity.
      - intros s' o' H' Ns. destruct (startswith p s') eqn:S; [|reflexivity]. apply sw_prefix in S. destruct (Ns (U _ _ H' S)). }
    rewrite O. reflexivity.
  Qed.

  (** an option string of one dash has nothing after its letter *)
  Lemma short_key c x w o : c <> DASH -> ~ In (DASH :: c :: x :: w, o) reg.
  Proof using names_ok. intros Nc H. apply key_of in H. destruct H as [(c' & E & _)|(c' & w' & E & _)]; [discriminate E|]. injection E as -> _. contradiction. Qed.

  Lemma class_attached c x v o : In ([DASH; c], o) reg -> c <> DASH -> x <> 61%N ->
    class_of reg (DASH :: c :: x :: v) = COpt (Some ([DASH; c], o)) (Some (x :: v)).
  Proof using names_nodup names_ok.
    intros H Nc Nx.
    assert (Q : forall q k : str, q = DASH :: c :: x :: v -> k = [DASH; c] -> class_of reg q = COpt (Some (k, o)) (Some (x :: v))); [|apply Q; reflexivity].
    intros q k Eq Ek. rewrite <- Ek in H.
    assert (D : dget q reg = None) by (apply dget_none; rewrite Eq; intro; apply short_key, Nc).
    assert (O : option_tuples_of reg q = [((k, o), Some (x :: v))]).
    { rewrite Eq. unfold option_tuples_of. rewrite (proj2 (N.eqb_neq c DASH) Nc). rewrite <- Eq, <- Ek.
      eapply one_match with (s := k) (o := o); [exact H| |].
      - rewrite eqb_refl. reflexivity.
      - intros s' o' H' Ns. cbv beta iota. match goal with |- (if ?e then _ else _) = _ => destruct e eqn:Es end; [apply (eqb_true (A := str)) in Es; contradiction|].
        destruct (startswith q s') eqn:S; [|reflexivity]. apply sw_prefix in S. destruct S as [r E]. rewrite Eq in E. cbn [app] in E. rewrite E in H'.
        destruct (short_key _ _ _ _ Nc H'). }
    rewrite class_dash by eauto. rewrite D, O.
    destruct (split_eq q) as [[p e]|] eqn:S; [|reflexivity].
    apply split_eq_some in S. destruct S as [S _]. rewrite (dget_none p); [reflexivity|]. intros o' X. rewrite Eq in S.
    destruct p as [|p0 p]; [discriminate S|]. cbn [app] in S. injection S as <- S. destruct p as [|p1 p].
    { injection S as S _. eapply key_no_eq; [eapply key_of, H|]. rewrite Ek, S. right; left; reflexivity. }
    cbn [app] in S. injection S as <- S. destruct p as [|p2 p]; [injection S as S _; contradiction|]. exact (short_key _ _ _ _ Nc X).
  Qed.

  Lemma digits_ok d : Forall (fun c => (48 <= c <= 57)%N) d <-> forallb is_digit d = true.
  Proof.
    clear. rewrite forallb_forall, Forall_forall. unfold is_digit. split; intros H x Hx; specialize (H x Hx).
    - apply andb_true_iff. rewrite !N.leb_le. exact H.
    - apply andb_true_iff in H. rewrite !N.leb_le in H. exact H.
  Qed.
  Lemma digits_no_dot d : forallb is_digit d = true -> has_char 46%N d = false.
  Proof.
    clear. intro H. apply has_char_false. intro X. rewrite forallb_forall in H. discriminate (H _ X).
  Qed.
  Lemma negative_iff t : negative_number t = true <-> negative t.
  Proof.
    clear. split.
    - destruct t as [|c t]; [discriminate|]. cbn [negative_number]. destruct (N.eqb_spec c DASH) as [->|]; [|discriminate]. cbn [andb].
      pose proof (join_split 46%N t) as J. destruct (split_on 46%N t) as [|d [|f [|]]]; try discriminate.
      + cbn [join_with] in J. subst d. destruct t as [|x t]; [discriminate|]. intro H. apply neg_int; [discriminate|]. apply digits_ok, H.
      + cbn [join_with] in J. subst t. intro H. apply andb_true_iff in H as [H1 H2]. destruct f as [|x f]; [discriminate H2|].
        apply neg_frac; [discriminate|]. apply digits_ok. rewrite forallb_app, H1, H2. reflexivity.
    - intros [d Nd F|d f Nf F]; apply digits_ok in F; cbn [negative_number]; change (45 =? DASH)%N with true; cbn [andb].
      + rewrite split_on_none by apply digits_no_dot, F. destruct d; [contradiction|exact F].
      + rewrite forallb_app in F. apply andb_true_iff in F as [F1 F2].
        rewrite split_on_app by apply digits_no_dot, F1. rewrite split_on_none by apply digits_no_dot, F2. rewrite F1. destruct f; [contradiction|exact F2].
  Qed.
  Lemma class_negative v : negative v -> class_of reg v = CArg.
  Proof using names_ok.
    intro N.
    assert (S : exists c w, v = DASH :: c :: w /\ (c = 46%N \/ is_digit c = true)).
    { destruct N as [d Nd F|d f Nf F]; [destruct d as [|c d]; [contradiction|]|destruct d as [|c d]]; cbn [app]; [| |]; eexists _, _; (split; [reflexivity|]); auto;
        right; apply Forall_inv in F; unfold is_digit; apply andb_true_iff; rewrite !N.leb_le; exact F. }
    destruct S as (c & w & E & Hc).
    assert (Nd : c <> DASH) by (intros ->; destruct Hc as [Hc|Hc]; discriminate Hc).
    assert (K0 : forall u o, ~ In (DASH :: c :: u, o) reg).
    { intros u o I. apply key_of in I. destruct I as [(c' & X & _ & _ & H1 & H2)|(c' & w' & X & _)]; injection X; intros.
      - subst c'. destruct Hc as [->|Hc]; [exact (H1 eq_refl)|congruence].
      - contradiction. }
    assert (D : dget v reg = None) by (apply dget_none; rewrite E; apply K0).
    rewrite class_dash by eauto. rewrite D.
    assert (O : option_tuples_of reg v = []).
    { rewrite E. unfold option_tuples_of. rewrite (proj2 (N.eqb_neq c DASH) Nd).
      assert (Z : forall l, incl l reg -> flat_map (fun '(s, o) => if eqb s [DASH; c] then [((s, o), Some w)] else if startswith (DASH :: c :: w) s then [((s, o), @None str)] else []) l = []); [|apply Z, incl_refl].
      induction l as [|[s o] l IH]; intro I; [reflexivity|]. cbn [flat_map]. rewrite IH by (intros y Y; apply I; right; exact Y).
      assert (I0 := I _ (or_introl eq_refl)).
      rewrite eqb_no by (intros ->; exact (K0 _ _ I0)). destruct (startswith (DASH :: c :: w) s) eqn:St; [|reflexivity].
      apply sw_prefix in St as [r ->]. exfalso. exact (K0 _ _ I0). }
    rewrite O, (proj2 (negative_iff v) N). destruct (split_eq v) as [[p e]|] eqn:S; [|reflexivity].
    apply split_eq_some in S as [S _]. rewrite (dget_none p); [reflexivity|]. intros o X. rewrite E in S.
    pose proof (key_head _ (key_of _ _ X)) as (c1 & w1 & ->). cbn [app] in S. injection S as <- _. exact (K0 _ _ X).
  Qed.
  Lemma class_plain v : plain v -> class_of reg v = CArg /\ eqb v (lit "--") = false.
  Proof using names_ok.
    intros [->|[->|[(c & w & -> & Nc)|Ng]]].
    - split; reflexivity.
    - split; [|reflexivity]. unfold class_of. change (lit "-") with [DASH]. change (negb (DASH =? DASH)%N) with false. cbn match.
      rewrite dget_none; [reflexivity|]. intros o X. apply key_of, key_head in X. destruct X as (? & ? & X). discriminate X.
    - split; [unfold class_of; rewrite (proj2 (N.eqb_neq c DASH) Nc); reflexivity|]. apply eqb_no. intro E.
      injection E as E _. contradiction.
    - split; [apply class_negative, Ng|]. apply eqb_no. intros ->. apply negative_iff in Ng. discriminate Ng.
  Qed.

  (** the tokens of one option *)
  Inductive wr (k : K) (val : bool) : option str -> list str -> Prop :=
  | wr_flag p s : In (s, (k, val)) reg -> stands p s -> val = false -> wr k val None [p]
  | wr_sep p s v : In (s, (k, val)) reg -> stands p s -> val = true -> plain v -> wr k val (Some v) [p; v]
  | wr_eq p s v : In (s, (k, val)) reg -> stands p s -> val = true -> wr k val (Some v) [p ++ 61%N :: v]
  | wr_att c x v : In ([DASH; c], (k, val)) reg -> c <> DASH -> x <> 61%N -> val = true -> wr k val (Some (x :: v)) [DASH :: c :: x :: v].

  Lemma stands_not_dd p s o : In (s, o) reg -> stands p s -> eqb p (lit "--") = false.
  Proof using names_ok.
    intros H St. apply eqb_no. intros ->. destruct St as [<-|((c & w & E) & _)]; [|discriminate E].
    apply key_of in H. destruct H as [(c & E & Nc & _)|(c & w & E & _)]; [injection E as E; subst c; exact (Nc eq_refl)|discriminate E].
  Qed.

  Lemma args_wr k val ov toks rest : wr k val ov toks -> args reg (toks ++ rest) = option_map (cons (k, ov)) (args reg rest).
  Proof using names_nodup names_ok.
    intros [p s H St Hv|p s v H St Hv Pv|p s v H St Hv|c x v H Nc Nx Hv]; subst val; cbn [app args].
    - rewrite (stands_not_dd _ _ _ H St), (class_stands _ _ _ H St). reflexivity.
    - rewrite (stands_not_dd _ _ _ H St), (class_stands _ _ _ H St). destruct (class_plain v Pv) as [C1 C2]. rewrite C2, C1. destruct (args reg rest); reflexivity.
    - rewrite (class_equals _ _ _ v H St). replace (eqb (p ++ 61%N :: v) (lit "--")) with false.
      { unfold joined. destruct v; reflexivity. }
      symmetry. apply eqb_no. intro E.
      assert (X : In 61%N (lit "--")) by (rewrite <- E; apply in_or_app; right; left; reflexivity). cbn in X. destruct X as [X|[X|[]]]; discriminate X.
    - rewrite (class_attached _ _ v _ H Nc Nx). replace (eqb (DASH :: c :: x :: v) (lit "--")) with false by (symmetry; apply eqb_no; discriminate).
      reflexivity.
  Qed.

  Lemma args_items (vals : K -> bool) items :
    Forall (fun '(k, v, toks) => wr k (vals k) v toks) items -> args reg (tokens items) = Some (map fst items).
  Proof using names_nodup names_ok.
    induction items as [|[[k v] toks] items IH]; intro F; [reflexivity|]. inversion F as [|? ? F1 F2]; subst.
    unfold tokens. cbn [flat_map snd]. rewrite (args_wr _ _ _ _ _ F1). unfold tokens in IH. rewrite (IH F2). reflexivity.
  Qed.

  (** ** where the actions come from *)

  Lemma joined_values s k val arg l n : joined reg s k val arg = Some (l, n) -> forall k' v, In (k', Some v) l -> suffix v arg.
  Proof.
    clear names_nodup names_ok. revert s k val l n. induction arg as [|a arg IH]; intros s k val l n.
    - cbn [joined]. destruct val; [|destruct s as [|? [|? ?]]; discriminate]. intro E. injection E as <- <-. intros k' v [X|[]]. injection X as <- <-. exists []. reflexivity.
    - cbn [joined]. destruct val.
      + intro E. injection E as <- <-. intros k' v [X|[]]. injection X as <- <-. exists []. reflexivity.
      + destruct s as [|d [|c s]]; try discriminate. destruct (c =? DASH)%N; [discriminate|]. destruct (dget [d; a] reg) as [[k1 v1]|]; [|discriminate].
        destruct arg as [|b arg'].
        * destruct v1; intro E; injection E as <- <-; intros k' v; cbn [In]; intros X; decompose [or] X; try contradiction; discriminate.
        * destruct (joined reg [d; a] k1 v1 (b :: arg')) as [[l1 n1]|] eqn:J; cbn [option_map]; [|discriminate]. intro E. injection E as <- <-.
          intros k' v [X|X]; [discriminate X|]. destruct (IH _ _ _ _ _ J k' v X) as [y Y]. exists (a :: y). cbn [app]. f_equal. exact Y.
  Qed.
  (** an option reached through others written before it has a name of one letter *)
  Lemma joined_from s k val arg l n : joined reg s k val arg = Some (l, n) ->
    (forall k' ov, In (k', ov) l -> k' = k \/ exists d c o, hd_error s = Some d /\ dget [d; c] reg = Some (k', o)) /\
    (forall k', n = Some k' -> exists d c o, hd_error s = Some d /\ dget [d; c] reg = Some (k', o)).
  Proof.
    clear names_nodup names_ok. revert s k val l n. induction arg as [|a arg IH]; intros s k val l n.
    - cbn [joined]. destruct val; [|destruct s as [|? [|? ?]]; discriminate]. intro E. injection E as <- <-. split; [|discriminate]. intros k' v [X|[]]. injection X as <- <-. auto.
    - cbn [joined]. destruct val.
      + intro E. injection E as <- <-. split; [|discriminate]. intros k' v [X|[]]. injection X as <- <-. auto.
      + destruct s as [|d [|c s]]; try discriminate. destruct (c =? DASH)%N; [discriminate|]. destruct (dget [d; a] reg) as [[k1 v1]|] eqn:D; [|discriminate].
        assert (Q : forall k', k' = k1 -> exists d0 c0 o, hd_error (d :: c :: s) = Some d0 /\ dget [d0; c0] reg = Some (k', o)) by (intros k' ->; exists d, a, v1; auto).
        destruct arg as [|b arg'].
        * destruct v1; intro E; injection E as <- <-; (split; [|intros k' E; first [discriminate E|injection E as <-; auto]]).
          -- intros k' v [X|[]]. injection X as <- <-. auto.
          -- intros k' v [X|[X|[]]]; injection X as <- <-; auto.
        * destruct (joined reg [d; a] k1 v1 (b :: arg')) as [[l1 n1]|] eqn:J; cbn [option_map]; [|discriminate]. intro E. injection E as <- <-.
          destruct (IH _ _ _ _ _ J) as [A B]. split.
          -- intros k' v [X|X]; [injection X as <- <-; auto|]. right. destruct (A _ _ X) as [->|Y]; auto.
          -- intros k' E. apply B in E. exact E.
  Qed.

  Lemma joined_first s k arg l n : joined reg s k false arg = Some (l, n) -> In (k, None) l /\ exists d c w, s = d :: c :: w /\ c <> DASH.
  Proof.
    clear names_nodup names_ok. destruct arg as [|a arg]; cbn [joined]; destruct s as [|d [|c s]]; try discriminate.
    destruct (N.eqb_spec c DASH) as [|Nc]; [discriminate|]. intro E. split; [|exists d, c, s; auto]. revert E. destruct (dget [d; a] reg) as [[k1 v1]|]; [|discriminate].
    destruct arg as [|b arg'].
    - destruct v1; intro E; injection E as <- <-; left; reflexivity.
    - destruct (joined reg [d; a] k1 v1 (b :: arg')) as [[l1 n1]|]; cbn [option_map]; [|discriminate]. intro E. injection E as <- <-. left; reflexivity.
  Qed.

  (** the token an action comes from, and the name it stands for *)
  Definition token_for (l : list (K * option str)) (k : K) (t : str) : Prop :=
    exists s k0 val e, class_of reg t = COpt (Some (s, (k0, val))) e /\
      (val = true \/ e = None \/ (In (k0, None) l /\ exists d c w, s = d :: c :: w /\ c <> DASH)) /\
      (k = k0 \/ (e <> None /\ val = false /\ exists d c o, hd_error s = Some d /\ dget [d; c] reg = Some (k, o))).
  Lemma token_mono l l' k t : incl l l' -> token_for l k t -> token_for l' k t.
  Proof.
    clear names_nodup names_ok. intros I (s & k0 & val & e & A & [B|[B|(B & B')]] & C); exists s, k0, val, e; split; auto. split; [|exact C]. right; right. split; [apply I, B|exact B'].
  Qed.

  Lemma joined_flag s k arg l n : joined reg s k true arg = Some (l, n) -> l = [(k, Some arg)] /\ n = None.
  Proof. destruct arg; cbn [joined]; intro E; injection E as <- <-; auto. Qed.

  Lemma args_from toks : forall l, args reg toks = Some l -> forall k ov, In (k, ov) l -> exists t, In t toks /\ token_for l k t.
  Proof.
    clear names_nodup names_ok. remember (length toks) as n eqn:En. revert toks En. induction n as [n IH] using (well_founded_induction Wf_nat.lt_wf).
    intros toks En l. destruct toks as [|t rest]; cbn [args]; [intro E; injection E as <-; intros k ov []|].
    destruct (eqb t (lit "--")); [discriminate|]. destruct (class_of reg t) as [|[[s [k0 val]]|] e|] eqn:C; try discriminate.
    set (J := match e with Some arg => joined reg s k0 val arg | None => Some (if val then ([], Some k0) else ([(k0, None)], None)) end).
    assert (HJ : forall l1 n1, J = Some (l1, n1) -> (forall k ov, In (k, ov) l1 -> token_for l1 k t) /\ (forall k, n1 = Some k -> token_for l1 k t)).
    { intros l1 n1. unfold J. destruct e as [arg|].
      - intro E. destruct val.
        + destruct (joined_flag _ _ _ _ _ E) as [-> ->]. split; [|discriminate]. intros k ov [X|[]]. injection X as <- <-. exists s, k0, true, (Some arg). auto.
        + destruct (joined_from _ _ _ _ _ _ E) as [A B]. pose proof (joined_first _ _ _ _ _ E) as F. split.
          * intros k ov X. exists s, k0, false, (Some arg). split; [exact C|]. split; [right; right; exact F|].
            destruct (A _ _ X) as [->|Y]; [left; reflexivity|right]. split; [discriminate|]. split; [reflexivity|exact Y].
          * intros k X. exists s, k0, false, (Some arg). split; [exact C|]. split; [right; right; exact F|]. right. split; [discriminate|]. split; [reflexivity|]. apply B, X.
      - destruct val; intro E; injection E as <- <-; split.
        + intros k ov [].
        + intros k X. injection X as <-. exists s, k0, true, None. auto.
        + intros k ov [X|[]]. injection X as <- <-. exists s, k0, false, None. auto.
        + discriminate. }
    destruct J as [[l1 [k'|]]|] eqn:EJ; [| |discriminate].
    - destruct rest as [|v rest']; [discriminate|]. destruct (eqb v (lit "--")); [discriminate|]. destruct (class_of reg v); try discriminate.
      destruct (args reg rest') as [a|] eqn:A; cbn [option_map]; [|discriminate]. intro E. injection E as <-. intros k ov X.
      assert (I1 : incl l1 (l1 ++ (k', Some v) :: a)) by (intros y Y; apply in_app_iff; left; exact Y).
      destruct (HJ _ _ eq_refl) as [J1 J2]. apply in_app_iff in X. destruct X as [X|[X|X]].
      + exists t. split; [left; reflexivity|eapply token_mono, J1, X; exact I1].
      + injection X as <- <-. exists t. split; [left; reflexivity|eapply token_mono, J2; [exact I1|reflexivity]].
      + destruct (IH (length rest')) with (toks := rest') (l := a) (k := k) (ov := ov) as (u & U1 & U2); auto; [subst n; cbn; lia|]. exists u. split; [right; right; exact U1|].
        eapply token_mono, U2. intros y Y. apply in_app_iff. right; right; exact Y.
    - destruct (args reg rest) as [a|] eqn:A; cbn [option_map]; [|discriminate]. intro E. injection E as <-. intros k ov X.
      assert (I1 : incl l1 (l1 ++ a)) by (intros y Y; apply in_app_iff; left; exact Y).
      destruct (HJ _ _ eq_refl) as [J1 _]. apply in_app_iff in X. destruct X as [X|X].
      + exists t. split; [left; reflexivity|eapply token_mono, J1, X; exact I1].
      + destruct (IH (length rest)) with (toks := rest) (l := a) (k := k) (ov := ov) as (u & U1 & U2); auto; [subst n; cbn; lia|]. exists u. split; [right; exact U1|].
        eapply token_mono, U2. intros y Y. apply in_app_iff. right; exact Y.
  Qed.

  Lemma flat_map_inv {B} (f : str * (K * bool) -> list B) b : In b (flat_map f reg) -> exists s o, In (s, o) reg /\ In b (f (s, o)).
  Proof. clear names_nodup names_ok. intro H. apply in_flat_map in H. destruct H as ([s o] & H1 & H2). eauto. Qed.

  (** what a token that is an option looks like *)
  Lemma class_shape t s o e : class_of reg t = COpt (Some (s, o)) e ->
    In (s, o) reg /\ (match e with None => prefix t s | Some v => suffix v t /\ (t = s ++ 61%N :: v \/ (exists w, t = DASH :: DASH :: w ++ 61%N :: v /\ prefix (DASH :: DASH :: w) s) \/ t = s ++ v) end).
  Proof using names_ok.
    intro Hc. assert (Ht : exists c w, t = DASH :: c :: w).
    { destruct t as [|c0 [|c1 t1]]; [discriminate Hc| |].
      - exfalso. unfold class_of in Hc. destruct (negb (c0 =? DASH)%N); [discriminate|]. rewrite dget_none in Hc; [discriminate Hc|].
        intros o1 X. apply key_of, key_head in X. destruct X as (? & ? & X). discriminate X.
      - unfold class_of in Hc. destruct (N.eqb_spec c0 DASH) as [->|]; [eauto|discriminate Hc]. }
    rewrite (class_dash t Ht) in Hc. destruct Ht as (c1 & t1 & Et). revert Hc.
    destruct (dget t reg) as [o1|] eqn:D.
    { intro E. injection E as <- <- <-. split; [apply dget_In, D|]. exists []. rewrite app_nil_r. reflexivity. }
    assert (G : match option_tuples_of reg t with
        | _ :: _ :: _ => CAmbiguous | [(so, e)] => COpt (Some so) e
        | [] => if negative_number t then CArg else if has_char 32%N t then CArg else COpt None None end = COpt (Some (s, o)) e ->
      In (s, o) reg /\ (match e with None => prefix t s | Some v => suffix v t /\ (t = s ++ 61%N :: v \/ (exists w, t = DASH :: DASH :: w ++ 61%N :: v /\ prefix (DASH :: DASH :: w) s) \/ t = s ++ v) end)).
    { intro E. destruct (option_tuples_of reg t) as [|[so e0] [|? ?]] eqn:O; [destruct (negative_number t), (has_char 32%N t); discriminate| |discriminate].
      injection E as -> ->. assert (X : In ((s, o), e) (option_tuples_of reg t)) by (rewrite O; left; reflexivity). clear O.
      unfold option_tuples_of in X. rewrite Et in X. cbn match in X. rewrite <- Et in X.
      destruct (c1 =? DASH)%N eqn:Ec.
      - destruct (split_eq t) as [[p e1]|] eqn:S; cbv beta iota zeta in X; apply flat_map_inv in X; destruct X as (s1 & o1 & I & X).
        + destruct (startswith p s1) eqn:P; [|contradiction]. destruct X as [X|[]]. injection X as -> -> <-. split; [exact I|]. apply split_eq_some in S. destruct S as [S _].
          split; [exists (p ++ [61%N]); rewrite S, <- app_assoc; reflexivity|]. right; left. rewrite Et in S.
          destruct p as [|p0 p]; [discriminate S|]. cbn [app] in S. injection S as <- S. destruct p as [|p1 p]; [injection S as S _; rewrite S in Ec; discriminate Ec|].
          cbn [app] in S. injection S as <- S. apply N.eqb_eq in Ec. rewrite Ec in Et, P. exists p. split; [rewrite Et, S; reflexivity|apply sw_prefix, P].
        + destruct (startswith t s1) eqn:P; [|contradiction]. destruct X as [X|[]]. injection X as -> -> <-. split; [exact I|apply sw_prefix, P].
      - apply flat_map_inv in X. destruct X as (s1 & o1 & I & X). cbv beta iota in X. match type of X with In _ (if ?b then _ else _) => destruct b eqn:Es end.
        + apply (eqb_true (A := str)) in Es. destruct X as [X|[]]. injection X as -> -> <-. split; [exact I|]. rewrite Es.
          split; [exists [DASH; c1]; exact Et|]. right; right. exact Et.
        + destruct (startswith t s1) eqn:P; [|contradiction]. destruct X as [X|[]]. injection X as -> -> <-. split; [exact I|apply sw_prefix, P]. }
    destruct (split_eq t) as [[p e1]|] eqn:S; [|exact G]. destruct (dget p reg) as [o1|] eqn:Dp; [|exact G].
    intro E. injection E as <- <- <-. apply split_eq_some in S. destruct S as [S _]. split; [apply dget_In, Dp|].
    split; [exists (p ++ [61%N]); rewrite S, <- app_assoc; reflexivity|left; exact S].
  Qed.

  Lemma args_values toks : forall l, args reg toks = Some l -> forall k v, In (k, Some v) l -> exists t, In t toks /\ suffix v t.
  Proof using names_ok.
    clear names_nodup. remember (length toks) as n eqn:En. revert toks En. induction n as [n IH] using (well_founded_induction Wf_nat.lt_wf).
    intros toks En l. destruct toks as [|t rest]; cbn [args]; [intro E; injection E as <-; intros k v []|].
    destruct (eqb t (lit "--")); [discriminate|]. destruct (class_of reg t) as [|[[s [k0 val]]|] e|] eqn:C; try discriminate.
    set (J := match e with Some arg => joined reg s k0 val arg | None => Some (if val then ([], Some k0) else ([(k0, None)], None)) end).
    assert (HJ : forall l1 n1, J = Some (l1, n1) -> forall k v, In (k, Some v) l1 -> suffix v t).
    { intros l1 n1. unfold J. destruct e as [arg|].
      - intros E k v X. destruct (joined_values _ _ _ _ _ _ E _ _ X) as [y Y]. destruct (class_shape _ _ _ _ C) as (_ & (x & Ex) & _). exists (x ++ y). rewrite Ex, Y, app_assoc. reflexivity.
      - destruct val; intro E; injection E as <- <-; intros k v; [intros []|]. intros [X|[]]. discriminate X. }
    destruct J as [[l1 [k'|]]|] eqn:EJ; [| |discriminate].
    - destruct rest as [|v0 rest']; [discriminate|]. destruct (eqb v0 (lit "--")); [discriminate|]. destruct (class_of reg v0); try discriminate.
      destruct (args reg rest') as [a|] eqn:A; cbn [option_map]; [|discriminate]. intro E. injection E as <-. intros k v X.
      apply in_app_iff in X. destruct X as [X|[X|X]].
      + exists t. split; [left; reflexivity|eapply (HJ _ _ eq_refl), X].
      + injection X as <- <-. exists v0. split; [right; left; reflexivity|exists []; reflexivity].
      + destruct (IH (length rest')) with (toks := rest') (l := a) (k := k) (v := v) as (u & U1 & U2); auto; [subst n; cbn; lia|]. exists u. split; [right; right; exact U1|exact U2].
    - destruct (args reg rest) as [a|] eqn:A; cbn [option_map]; [|discriminate]. intro E. injection E as <-. intros k v X.
      apply in_app_iff in X. destruct X as [X|X].
      + exists t. split; [left; reflexivity|eapply (HJ _ _ eq_refl), X].
      + destruct (IH (length rest)) with (toks := rest) (l := a) (k := k) (v := v) as (u & U1 & U2); auto; [subst n; cbn; lia|]. exists u. split; [right; exact U1|exact U2].
  Qed.
End Args.

(** ** the three commands *)
Ltac nodup_tac := repeat (apply NoDup_cons; [cbn; intuition discriminate|]); apply NoDup_nil.
Ltac keys_tac := repeat (apply Forall_cons; [first [left; eexists; split; [reflexivity|split; [discriminate|split; [discriminate|split; [discriminate|reflexivity]]]]|right; do 2 eexists; split; [reflexivity|cbn; intuition discriminate]]|]); apply Forall_nil.
Lemma start_nodup : NoDup (map fst start_reg).
Proof. cbn [start_reg map fst]. nodup_tac. Qed.
Lemma start_keys : Forall key_ok (map fst start_reg).
Proof. cbn [start_reg map fst]. keys_tac. Qed.
Lemma stop_nodup : NoDup (map fst stop_reg).
Proof. cbn [stop_reg map fst]. nodup_tac. Qed.
Lemma stop_keys : Forall key_ok (map fst stop_reg).
Proof. cbn [stop_reg map fst]. keys_tac. Qed.

Lemma start_in k s : In s (start_names k) -> In (s, (k, start_valued k)) start_reg.
Proof. destruct k; cbn [start_names start_valued In start_reg]; intros H; decompose [or] H; subst; try contradiction; tauto. Qed.
Lemma stop_in k s : In s (stop_names k) -> In (s, (k, stop_valued k)) stop_reg.
Proof. destruct k; cbn [stop_names stop_valued In stop_reg]; intros H; decompose [or] H; subst; try contradiction; tauto. Qed.
Lemma start_all_of s o : In (s, o) start_reg -> In s start_all.
Proof. intro H. apply (in_map fst) in H. cbn in H |- *. tauto. Qed.
Lemma stop_all_of s o : In (s, o) stop_reg -> In s stop_all.
Proof. intro H. apply (in_map fst) in H. cbn in H |- *. tauto. Qed.

Lemma spelling_wr {K} (reg : list (str * (K * bool))) all names k val v toks :
  (forall s, In s names -> In (s, (k, val)) reg) -> (forall s o, In (s, o) reg -> In s all) ->
  valued_ok val v -> spelling all names v toks -> wr reg k val v toks.
Proof.
  intros Hn Ha Hv S.
  assert (St : forall p s, calls all p s -> stands reg p s).
  { intros p s [->|(C1 & C2 & C3 & C4)]; [left; reflexivity|right]. split; [exact C1|]. split; [exact C2|]. split; [exact C3|]. intros s' o' H. apply C4, (Ha _ _ H). }
  destruct S as [p s H C|p s v H C Pv|p s v H C|c x v H Nc Nx].
  - apply (wr_flag _ _ _ p s); auto. destruct val; [contradiction (Hv eq_refl)|reflexivity].
  - apply (wr_sep _ _ _ p s v); auto. destruct val; [reflexivity|discriminate Hv].
  - apply (wr_eq _ _ _ p s v); auto. destruct val; [reflexivity|discriminate Hv].
  - apply wr_att; auto. destruct val; [reflexivity|discriminate Hv].
Qed.
Lemma start_args items : start_typed items -> args start_reg (tokens items) = Some (map fst items).
Proof.
  intro H. apply args_items with (vals := start_valued); [exact start_nodup|exact start_keys|]. eapply Forall_impl; [|exact H].
  intros [[k v] toks] (_ & V & S). eapply spelling_wr; [apply start_in|apply start_all_of|exact V|exact S].
Qed.
Lemma stop_args items : stop_typed items -> args stop_reg (tokens items) = Some (map fst items).
Proof.
  intro H. apply args_items with (vals := stop_valued); [exact stop_nodup|exact stop_keys|]. eapply Forall_impl; [|exact H].
  intros [[k v] toks] (_ & V & S). eapply spelling_wr; [apply stop_in|apply stop_all_of|exact V|exact S].
Qed.

(** ** the value asked for *)
Lemma asked_other {K} (k k' : K) items ov v toks : asked k items ov -> (k' <> k \/ v = None) -> asked k (items ++ [(k', v, toks)]) ov.
Proof.
  intros A N. assert (Q : forall v' toks', ~ In (k, Some v', toks') [(k', v, toks)]).
  { intros v' toks' [E|[]]. injection E as -> -> ->. destruct N as [N|N]; [exact (N eq_refl)|discriminate N]. }
  destruct A as [items H|a v0 t0 b H].
  - apply ak_none. intros v' toks' X. apply in_app_iff in X. destruct X as [X|X]; [exact (H _ _ X)|exact (Q _ _ X)].
  - rewrite <- app_assoc. cbn [app]. apply ak_last. intros v' toks' X. apply in_app_iff in X. destruct X as [X|X]; [exact (H _ _ X)|exact (Q _ _ X)].
Qed.
Lemma asked_new {K} (k : K) items v toks : asked k (items ++ [(k, Some v, toks)]) (Some v).
Proof. apply ak_last. intros v' toks' []. Qed.
Lemma asked_nil {K} (k : K) : asked k [] None.
Proof. apply ak_none. intros v toks []. Qed.
Lemma given_snoc {K} (k k' : K) items v toks : given k (items ++ [(k', v, toks)]) <-> given k items \/ k' = k.
Proof.
  split.
  - intros (v0 & t0 & X). apply in_app_iff in X. destruct X as [X|[X|[]]]; [left; eexists; eexists; exact X|right]. congruence.
  - intros [(v0 & t0 & X)| ->]; [exists v0, t0; apply in_app_iff; left; exact X|exists v, toks; apply in_app_iff; right; left; reflexivity].
Qed.
Lemma asked_given {K} (k : K) items v : asked k items (Some v) -> given k items.
Proof. intro A. inversion A as [|a v0 t0 b H E1 E2]; subst. exists (Some v), t0. apply in_app_iff. right; left; reflexivity. Qed.
Lemma asked_fun {K} (k : K) items a b : asked k items a -> asked k items b -> a = b.
Proof.
  intros A B. destruct A as [items H|x v t y H].
  - inversion B as [|x v t y H']; subst; [reflexivity|]. exfalso. apply (H v t). apply in_app_iff. right; left; reflexivity.
  - inversion B as [? H' E|x' v' t' y' H' E]; subst.
    + exfalso. apply (H' v t). apply in_app_iff. right; left; reflexivity.
    + f_equal. clear B. revert x' E. induction x as [|e x IH]; intros [|e' x'] E; cbn [app] in E.
      * congruence.
      * injection E as E1 E2. exfalso. apply (H v' t'). rewrite <- E2. apply in_app_iff. right; left; reflexivity.
      * injection E as E1 E2. exfalso. apply (H' v t). rewrite E2. apply in_app_iff. right; left; reflexivity.
      * injection E as _ E. exact (IH _ E).
Qed.

Lemma start_snoc l x s : start_actions (l ++ [x]) s = match start_actions l s with Some s' => start_actions [x] s' | None => None end.
Proof. revert s. induction l as [|[k v] l IH]; intro s; [reflexivity|]. cbn [app start_actions]. destruct k, v; try apply IH; reflexivity. Qed.
Lemma stop_snoc l x s : stop_actions (l ++ [x]) s = match stop_actions l s with Some s' => stop_actions [x] s' | None => None end.
Proof. revert s. induction l as [|[k v] l IH]; intro s; [reflexivity|]. cbn [app stop_actions]. destruct k, v; try apply IH; try reflexivity. destruct (py_int s0); [apply IH|reflexivity]. Qed.

Lemma start_state items : start_typed items ->
  exists s, start_actions (map fst items) (ApSt None None None None None false) = Some s /\
    asked OName items (ap_name s) /\ asked OCode items (ap_code s) /\ asked OOut items (ap_out s) /\ asked OEnv items (ap_env s) /\ asked OConfig items (ap_config s) /\
    (ap_debug s = true <-> given ODebug items).
Proof.
  induction items as [|[[k v] toks] items IH] using rev_ind; intro H.
  - eexists. split; [reflexivity|]. repeat split; try apply asked_nil; [discriminate|]. intros (v & t & []).
  - apply Forall_app in H. destruct H as [H1 H2]. pose proof (Forall_inv H2) as HV. cbv beta iota in HV. destruct HV as (Nh & V & _). destruct (IH H1) as (s & E & A1 & A2 & A3 & A4 & A5 & A6).
    rewrite map_app. cbn [map fst]. rewrite start_snoc, E.
    assert (O : forall k' ov, k' <> k -> asked k' items ov -> asked k' (items ++ [(k, v, toks)]) ov) by (intros k' ov N A; apply asked_other; auto).
    assert (G : (ap_debug s = true <-> given ODebug items) -> k <> ODebug -> (ap_debug s = true <-> given ODebug (items ++ [(k, v, toks)]))).
    { intros X N. rewrite given_snoc, X. split; [auto|intros [Y|Y]; [exact Y|contradiction]]. }
    destruct k; cbn [start_valued valued_ok] in V; try contradiction (Nh eq_refl); try (destruct v as [v|]; [|contradiction (V eq_refl)]).
    all: try (eexists; split; [cbn; reflexivity|]; cbn [ap_set ap_name ap_code ap_out ap_env ap_config ap_debug]; repeat match goal with |- _ /\ _ => split end;
      first [apply asked_new|apply O; [discriminate|assumption]|apply (G A6); discriminate]).
    subst v. exists (ap_flag s). split; [reflexivity|]. cbn [ap_flag ap_name ap_code ap_out ap_env ap_config ap_debug].
    split; [apply O; [discriminate|assumption]|]. split; [apply O; [discriminate|assumption]|]. split; [apply O; [discriminate|assumption]|].
    split; [apply O; [discriminate|assumption]|]. split; [apply O; [discriminate|assumption]|]. rewrite given_snoc. split; auto.
Qed.

(** the pid asked for *)
Definition pid_asked (items : list (kopt * option str * list str)) (p : option Z) : Prop :=
  exists ov, asked KPid items ov /\ p = match ov with Some v => py_int v | None => None end.
Lemma stop_state items : stop_typed items ->
  (forall v toks, In (KPid, Some v, toks) items -> exists z, py_int v = Some z) ->
  exists o, stop_actions (map fst items) (StOpts None None false false) = Some o /\
    asked KName items (st_name o) /\ pid_asked items (st_pid o) /\ (st_all o = true <-> given KAll items) /\ (st_force o = true <-> given KForce items).
Proof.
  induction items as [|[[k v] toks] items IH] using rev_ind; intros H P.
  - eexists. split; [reflexivity|]. split; [apply asked_nil|]. split; [exists None; split; [apply asked_nil|reflexivity]|]. split; (split; [discriminate|intros (v & t & [])]).
  - apply Forall_app in H. destruct H as [H1 H2]. pose proof (Forall_inv H2) as HV. cbv beta iota in HV. destruct HV as (Nh & V & _).
    destruct (IH H1) as (o & E & A1 & (ov & A2 & A2') & A3 & A4); [intros v0 t0 X; apply (P v0 t0), in_app_iff; left; exact X|].
    rewrite map_app. cbn [map fst]. rewrite stop_snoc, E.
    assert (O : forall k' ov', k' <> k -> asked k' items ov' -> asked k' (items ++ [(k, v, toks)]) ov') by (intros k' ov' N A; apply asked_other; auto).
    assert (G : forall k' b, (b = true <-> given k' items) -> k <> k' -> (b = true <-> given k' (items ++ [(k, v, toks)]))).
    { intros k' b X N. rewrite given_snoc, X. split; [auto|intros [Y|Y]; [exact Y|contradiction]]. }
    destruct k; cbn [stop_valued valued_ok] in V; try contradiction (Nh eq_refl); try (destruct v as [v|]; [|contradiction (V eq_refl)]).
    + eexists. split; [reflexivity|]. cbn [st_name st_pid st_all st_force]. split; [apply asked_new|]. split; [exists ov; split; [apply O; [discriminate|exact A2]|exact A2']|].
      split; [apply G; [exact A3|discriminate]|apply G; [exact A4|discriminate]].
    + destruct (P v toks) as [z Z]; [apply in_app_iff; right; left; reflexivity|]. cbn [stop_actions]. rewrite Z. eexists. split; [reflexivity|]. cbn [st_name st_pid st_all st_force].
      split; [apply O; [discriminate|exact A1]|]. split; [exists (Some v); split; [apply asked_new|auto]|].
      split; [apply G; [exact A3|discriminate]|apply G; [exact A4|discriminate]].
    + subst v. eexists. split; [reflexivity|]. cbn [st_name st_pid st_all st_force]. split; [apply O; [discriminate|exact A1]|].
      split; [exists ov; split; [apply O; [discriminate|exact A2]|exact A2']|]. split; [rewrite given_snoc; split; auto|apply G; [exact A4|discriminate]].
    + subst v. eexists. split; [reflexivity|]. cbn [st_name st_pid st_all st_force]. split; [apply O; [discriminate|exact A1]|].
      split; [exists ov; split; [apply O; [discriminate|exact A2]|exact A2']|]. split; [apply G; [exact A3|discriminate]|rewrite given_snoc; split; auto].
Qed.
Lemma stop_bad l o v : In (KPid, Some v) l -> py_int v = None -> stop_actions l o = None.
Proof.
  revert o. induction l as [|[k w] l IH]; intros o H Z; [contradiction|]. cbn [stop_actions]. destruct H as [X|X].
  - injection X as -> ->. rewrite Z. reflexivity.
  - destruct k, w; try reflexivity; try (apply IH; assumption). destruct (py_int s); [apply IH; assumption|reflexivity].
Qed.

(** ** what the results come from *)
Lemma stop_actions_from l : forall o o', stop_actions l o = Some o' ->
  (forall v, st_name o' = Some v -> st_name o = Some v \/ In (KName, Some v) l) /\
  (forall z, st_pid o' = Some z -> st_pid o = Some z \/ exists v, In (KPid, Some v) l /\ py_int v = Some z) /\
  (st_all o' = true -> st_all o = true \/ exists w, In (KAll, w) l) /\
  (st_force o' = true -> st_force o = true \/ exists w, In (KForce, w) l) /\
  (forall w, ~ In (KHelp, w) l).
Proof.
  induction l as [|[k w] l IH]; intros o o'.
  - cbn. intro E. injection E as <-. repeat split; auto.
  - assert (St : forall o1, stop_actions l o1 = Some o' -> k <> KHelp ->
      (forall v, st_name o1 = Some v -> st_name o = Some v \/ In (KName, Some v) ((k, w) :: l)) ->
      (forall z, st_pid o1 = Some z -> st_pid o = Some z \/ exists v, In (KPid, Some v) ((k, w) :: l) /\ py_int v = Some z) ->
      (st_all o1 = true -> st_all o = true \/ exists w', In (KAll, w') ((k, w) :: l)) ->
      (st_force o1 = true -> st_force o = true \/ exists w', In (KForce, w') ((k, w) :: l)) ->
      (forall v, st_name o' = Some v -> st_name o = Some v \/ In (KName, Some v) ((k, w) :: l)) /\
      (forall z, st_pid o' = Some z -> st_pid o = Some z \/ exists v, In (KPid, Some v) ((k, w) :: l) /\ py_int v = Some z) /\
      (st_all o' = true -> st_all o = true \/ exists w', In (KAll, w') ((k, w) :: l)) /\
      (st_force o' = true -> st_force o = true \/ exists w', In (KForce, w') ((k, w) :: l)) /\
      (forall w', ~ In (KHelp, w') ((k, w) :: l))).
    { intros o1 E Nk B1 B2 B3 B4. destruct (IH _ _ E) as (C1 & C2 & C3 & C4 & C5).
      split; [intros v X; destruct (C1 v X) as [Y|Y]; [exact (B1 v Y)|right; right; exact Y]|].
      split; [intros z X; destruct (C2 z X) as [Y|(v & Y & Y')]; [exact (B2 z Y)|right; exists v; split; [right; exact Y|exact Y']]|].
      split; [intros X; destruct (C3 X) as [Y|(v & Y)]; [exact (B3 Y)|right; exists v; right; exact Y]|].
      split; [intros X; destruct (C4 X) as [Y|(v & Y)]; [exact (B4 Y)|right; exists v; right; exact Y]|].
      intros w' [X|X]; [congruence|exact (C5 _ X)]. }
    cbn [stop_actions]. destruct k, w as [v|]; try discriminate.
    + intro E. apply (St _ E); cbn [st_name st_pid st_all st_force]; auto; [discriminate|]. intros v' X. injection X as ->. right; left; reflexivity.
    + destruct (py_int v) as [z|] eqn:Z; [|discriminate]. intro E. apply (St _ E); cbn [st_name st_pid st_all st_force]; auto; [discriminate|].
      intros z' X. injection X as ->. right. exists v. split; [left; reflexivity|exact Z].
    + intro E. apply (St _ E); cbn [st_name st_pid st_all st_force]; auto; [discriminate|]. intros _. right. eexists. left. reflexivity.
    + intro E. apply (St _ E); cbn [st_name st_pid st_all st_force]; auto; [discriminate|]. intros _. right. eexists. left. reflexivity.
    + intro E. apply (St _ E); cbn [st_name st_pid st_all st_force]; auto; [discriminate|]. intros _. right. eexists. left. reflexivity.
    + intro E. apply (St _ E); cbn [st_name st_pid st_all st_force]; auto; [discriminate|]. intros _. right. eexists. left. reflexivity.
Qed.
Lemma start_actions_from l : forall s s', start_actions l s = Some s' ->
  forall f k, In (k, f) [(OName, ap_name); (OCode, ap_code); (OOut, ap_out); (OEnv, ap_env); (OConfig, ap_config)] ->
  forall v, f s' = Some v -> f s = Some v \/ In (k, Some v) l.
Proof.
  induction l as [|[k0 w] l IH]; intros s s'.
  - cbn. intro E. injection E as <-. auto.
  - intros E f k F v X.
    assert (St : forall s1, start_actions l s1 = Some s' -> (f s1 = Some v -> f s = Some v \/ In (k, Some v) ((k0, w) :: l)) -> f s = Some v \/ In (k, Some v) ((k0, w) :: l)).
    { intros s1 E1 B. destruct (IH _ _ E1 f k F v X) as [Y|Y]; [exact (B Y)|right; right; exact Y]. }
    cbn [start_actions] in E. destruct k0, w as [u|]; try discriminate E; apply (St _ E); clear St E X IH;
      cbn [In] in F; decompose [or] F; clear F; try contradiction;
      match goal with H : (_, _) = (_, _) |- _ => injection H as <- <- end; cbn; auto; intro Y; injection Y as ->; auto.
Qed.

(** ** start_task's parser is the one of C47 *)
Definition forget (c : class (K := aopt)) : aclass :=
  match c with CArg => AArg | COpt o e => AOpt (option_map (fun x => fst (snd x)) o) e | CAmbiguous => AAmbiguous end.
Lemma dget_forget (t : str) : dget t registered = option_map fst (dget t start_reg).
Proof.
  change registered with (map (fun x : str * (aopt * bool) => (fst x, fst (snd x))) start_reg). induction start_reg as [|[s [k b]] r IH]; [reflexivity|].
  cbn [map dget fst snd]. destruct (eqb t s); [reflexivity|exact IH].
Qed.
Lemma flat_forget (f : str -> list (option str)) :
  flat_map (fun '(s, o) => map (fun e => (o, e)) (f s)) registered =
  map (fun x => (fst (snd (fst x)), snd x)) (flat_map (fun '(s, o) => map (fun e => ((s, o), e)) (f s)) start_reg).
Proof.
  change registered with (map (fun x : str * (aopt * bool) => (fst x, fst (snd x))) start_reg). induction start_reg as [|[s [k b]] r IH]; [reflexivity|].
  cbn [map flat_map fst snd]. rewrite IH, map_app, map_map. reflexivity.
Qed.
Lemma tuples_forget (t : str) : option_tuples t = map (fun x => (fst (snd (fst x)), snd x)) (option_tuples_of start_reg t).
Proof.
  destruct t as [|a [|b r]]; [reflexivity|reflexivity|]. unfold option_tuples, option_tuples_of. destruct (b =? DASH)%N.
  - assert (Q : forall (p : str) (e : option str), flat_map (fun '(s, o) => if startswith p s then [(o, e)] else []) registered =
      map (fun x => (fst (snd (fst x)), snd x)) (flat_map (fun '(s, o) => if startswith p s then [((s, o), e)] else []) start_reg)).
    { intros p e. pose proof (flat_forget (fun s => if startswith p s then [e] else [])) as F.
      etransitivity; [|etransitivity; [exact F|]].
      + apply flat_map_ext. intros [s o]. destruct (startswith p s); reflexivity.
      + f_equal. apply flat_map_ext. intros [s o]. destruct (startswith p s); reflexivity. }
    destruct (split_eq (a :: b :: r)) as [[p e]|]; apply Q.
  - assert (Q : forall g : str -> bool, flat_map (fun '(s, o) => if g s then [(o, Some r)] else if startswith (a :: b :: r) s then [(o, None)] else []) registered =
      map (fun x => (fst (snd (fst x)), snd x)) (flat_map (fun '(s, o) => if g s then [((s, o), Some r)] else if startswith (a :: b :: r) s then [((s, o), None)] else []) start_reg)).
    { intro g. pose proof (flat_forget (fun s => if g s then [Some r] else if startswith (a :: b :: r) s then [None] else [])) as F.
      etransitivity; [|etransitivity; [exact F|]].
      + apply flat_map_ext. intros [s o]. destruct (g s), (startswith (a :: b :: r) s); reflexivity.
      + f_equal. apply flat_map_ext. intros [s o]. destruct (g s), (startswith (a :: b :: r) s); reflexivity. }
    exact (Q (fun s => eqb s [a; b])).
Qed.
Lemma classify_forget (t : str) : classify t = forget (class_of start_reg t).
Proof.
  destruct t as [|c t']; [reflexivity|]. unfold classify, class_of. destruct (negb (c =? DASH)%N); [reflexivity|].
  pose proof (dget_forget (c :: t')) as D. pose proof (tuples_forget (c :: t')) as T. unfold str in D, T |- *. rewrite D.
  destruct (dget (c :: t') start_reg) as [o|]; [reflexivity|]. cbn [option_map]. destruct t' as [|c1 t1]; [reflexivity|].
  destruct (split_eq (c :: c1 :: t1)) as [[p e]|].
  - pose proof (dget_forget p) as Dp. unfold str in Dp |- *. rewrite Dp. destruct (@dget (list N) _ _ p start_reg) as [o|]; [reflexivity|]. cbn [option_map]. rewrite T.
    destruct (option_tuples_of start_reg (c :: c1 :: t1)) as [|[so e0] [|? ?]]; cbn [map fst snd]; try reflexivity.
    destruct (negative_number (c :: c1 :: t1)), (has_char 32 (c :: c1 :: t1)); reflexivity.
  - rewrite T. destruct (option_tuples_of start_reg (c :: c1 :: t1)) as [|[so e0] [|? ?]]; cbn [map fst snd]; try reflexivity.
    destruct (negative_number (c :: c1 :: t1)), (has_char 32 (c :: c1 :: t1)); reflexivity.
Qed.
Lemma loop_forget toks : forall s, match args start_reg toks with Some l => start_actions l s | None => None end = ap_loop toks s.
Proof.
  remember (length toks) as n eqn:En. revert toks En. induction n as [n IH] using (well_founded_induction Wf_nat.lt_wf). intros toks En s.
  destruct toks as [|t rest]; [reflexivity|]. cbn [args ap_loop]. destruct (eqb t (lit "--")); [reflexivity|]. rewrite classify_forget.
  destruct (class_of start_reg t) as [|[[s0 [k val]]|] e|] eqn:C; try reflexivity. cbn [forget option_map fst snd].
  destruct (class_shape start_reg start_keys _ _ _ _ C) as [I _].
  assert (R : forall s1, match args start_reg rest with Some l => start_actions l s1 | None => None end = ap_loop rest s1)
    by (intro s1; apply (IH (length rest)); [subst n; cbn; lia|reflexivity]).
  assert (R' : forall v rest', rest = v :: rest' -> forall s1, match args start_reg rest' with Some l => start_actions l s1 | None => None end = ap_loop rest' s1)
    by (intros v rest' E s1; apply (IH (length rest')); [subst n rest; cbn; lia|reflexivity]).
  destruct val.
  - (* an option with a value *)
    assert (Nk : k <> OHelp /\ k <> ODebug) by (clear - I; cbn in I; decompose [or] I; try contradiction; split; congruence).
    destruct e as [arg|].
    + assert (J : joined start_reg s0 k true arg = Some ([(k, Some arg)], None)) by (destruct arg; reflexivity). rewrite J.
      transitivity (match args start_reg rest with Some l => start_actions l (ap_set k arg s) | None => None end).
      { destruct (args start_reg rest) as [l|]; cbn [option_map app]; [|reflexivity]. destruct k; try reflexivity; destruct Nk as [N1 N2]; contradiction. }
      rewrite R. destruct k; try reflexivity; destruct Nk as [N1 N2]; contradiction.
    + transitivity (match rest with v :: rest' => if eqb v (lit "--") then None else match classify v with AArg => ap_loop rest' (ap_set k v s) | _ => None end | [] => None end).
      2: destruct k; try reflexivity; destruct Nk as [N1 N2]; contradiction.
      destruct rest as [|v rest']; [reflexivity|]. destruct (eqb v (lit "--")); [reflexivity|]. rewrite classify_forget.
      destruct (class_of start_reg v); try reflexivity. cbn [forget]. rewrite <- (R' v rest' eq_refl).
      destruct (args start_reg rest') as [l|]; cbn [option_map app]; [|reflexivity]. destruct k; try reflexivity; destruct Nk as [N1 N2]; contradiction.
  - (* a flag *)
    assert (Nk : k = OHelp \/ k = ODebug /\ s0 = lit "--debug") by (clear - I; cbn in I; decompose [or] I; try contradiction;
        match goal with H : _ = (s0, _) |- _ => injection H; intros; subst; first [discriminate|left; reflexivity|right; split; reflexivity] end).
    destruct Nk as [->|[-> ->]].
    + destruct e as [arg|].
      * transitivity (@None apst); [|reflexivity]. destruct (joined start_reg s0 OHelp false arg) as [[l nk]|] eqn:J; [|reflexivity].
        assert (X : exists w l', l = (OHelp, w) :: l').
        { destruct arg as [|a arg]; cbn [joined] in J; [destruct s0 as [|? [|? ?]]; discriminate J|]. destruct s0 as [|d [|c s0]]; try discriminate J.
          destruct (c =? DASH)%N; [discriminate J|]. destruct (dget [d; a] start_reg) as [[k' v']|]; [|discriminate J].
          destruct arg as [|b arg]; [destruct v'; injection J as <- <-; eauto|]. destruct (joined start_reg [d; a] k' v' (b :: arg)) as [[l1 n1]|]; [|discriminate J].
          injection J as <- <-. eauto. }
        destruct X as (w & l' & ->). destruct nk as [k'|].
        -- destruct rest as [|v rest']; [reflexivity|]. destruct (eqb v (lit "--")); [reflexivity|]. destruct (class_of start_reg v); try reflexivity. destruct (args start_reg rest'); reflexivity.
        -- destruct (args start_reg rest); reflexivity.
      * destruct (args start_reg rest); reflexivity.
    + destruct e as [arg|].
      * destruct arg; reflexivity.
      * rewrite <- R. destruct (args start_reg rest); reflexivity.
Qed.
