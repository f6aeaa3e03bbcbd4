(** C85: an order sync while the broker writes. *)
From Verif Require Import PyBase PyStr LStr MTime MOrder MAccount MApi MGate MGrow SGate LGate LGate2 LGate3 LSync2 SGrow TGate.
From Coq Require Import Sorted.
Open Scope Z_scope.
Open Scope list_scope.

Lemma first_line s l k : lines_of s = l :: k -> (whole l /\ exists y, s = l ++ y) \/ (~ In NL s /\ l = s).
Proof.
  revert l k. induction s as [|c s IH]; intros l k H; [discriminate|]. cbn [lines_of] in H.
  destruct (N.eqb_spec c NL) as [->|Hc].
  - injection H as <- _. left. split; [exists []; split; [reflexivity|intros []]|exists s; reflexivity].
  - destruct (lines_of s) as [|l' k'] eqn:E; injection H as <- _.
    + right. assert (Hs : s = []). { destruct s; [reflexivity|]. cbn [lines_of] in E. destruct (_ =? _)%N; [discriminate|]. destruct (lines_of s); discriminate. }
      subst s. split; [intros [X|[]]; apply Hc; exact X|reflexivity].
    + destruct (IH _ _ eq_refl) as [[(b & -> & Hb) (y & Hy)]|[H1 ->]].
      * left. split; [|exists y; rewrite Hy; reflexivity]. exists (c :: b). split; [reflexivity|]. intros [X|X]; [apply Hc; exact X|exact (Hb X)].
      * right. split; [|reflexivity]. intros [X|X]; [apply Hc; exact X|exact (H1 X)].
Qed.
Definition longer (a b : str) : Prop := exists x, b = a ++ x.
Lemma skipn_start {A} (a b : list A) n : n = List.length a -> skipn n (a ++ b) = b.
Proof. intros ->. rewrite skipn_app, skipn_all, Nat.sub_diag. reflexivity. Qed.

Section Frozen.
  Context (go : gopts) (step : str -> dict str oinfo -> lres) (n : nat).
  Context (Hstop : forall t o, t <> [] -> pending n t -> step t o = LStop).

  Lemma live_frozen see : forall pos off o r,
    StronglySorted longer see -> Forall (settled n) see -> Forall (line_start pos) see ->
    live_loop go step see pos off o = Some r ->
    exists t, In t see /\ read_loop go step (lines_of (skipn pos t)) pos off o = r.
  Proof.
    induction see as [|t see IH]; intros pos off o r Hs Hc Hp H; [discriminate|]. cbn [live_loop] in H.
    inversion Hs as [|? ? S1 S2]; subst. inversion Hc as [|? ? C1 C2]; subst. inversion Hp as [|? ? P1 P2]; subst.
    destruct (lines_of (skipn pos t)) as [|l k] eqn:El.
    { injection H as <-. exists t. split; [left; reflexivity|]. rewrite El. reflexivity. }
    destruct (step l o) as [|o'| |o' x] eqn:E.
    { injection H as <-. exists t. split; [left; reflexivity|]. rewrite El. cbn [read_loop]. rewrite E. reflexivity. }
    all: assert (Hw : whole l /\ exists y, skipn pos t = l ++ y).
    1, 3, 5: destruct P1 as (ls & x0 & E1 & F1 & E2); rewrite E1, (skipn_start _ _ _ E2) in El |- *;
      destruct (first_line _ _ _ El) as [G|[G1 ->]]; [exact G|exfalso];
      destruct C1 as (ls' & x' & E3 & F3 & Q); rewrite E1 in E3;
      destruct (prefix_lines ls x0 ls' x' F1 F3 (proj1 Q) E3) as (M & -> & Hx);
      (assert (M = []) by (destruct M as [|m M]; [reflexivity|]; exfalso; apply G1; rewrite Hx; apply Forall_app in F3; destruct F3 as [_ F3];
         inversion F3 as [|? ? W _]; subst; destruct W as (b & -> & _); cbn; rewrite !in_app_iff; left; left; right; left; reflexivity));
      subst M; cbn in Hx; subst x';
      (assert (N0 : x0 <> []) by (intros ->; discriminate El)); rewrite (Hstop x0 o N0 Q) in E; discriminate.
    all: assert (Hn : Forall (fun t' => lines_of (skipn pos t') = l :: lines_of (skipn (pos + List.length l) t') /\ line_start (pos + List.length l) t') see).
    1, 3, 5: apply Forall_forall; intros t' Ht'; rewrite Forall_forall in S2; destruct (S2 t' Ht') as (z & ->);
      destruct Hw as (W & y & Hy); destruct P1 as (ls & x0 & E1 & F1 & E2); rewrite E1, (skipn_start _ _ _ E2) in Hy; subst x0; rewrite E1;
      (split; [|exists (ls ++ [l]), (y ++ z); rewrite concat_app; cbn [concat]; rewrite app_nil_r, <- !app_assoc;
         split; [reflexivity|]; split; [apply Forall_app; split; [exact F1|repeat constructor; exact W]|rewrite app_length; lia]]);
      rewrite <- !app_assoc, (skipn_start _ _ _ E2), lines_whole by exact W; f_equal;
      rewrite (app_assoc (concat ls)), (skipn_start (concat ls ++ l)) by (rewrite app_length; lia); reflexivity.
    all: assert (P3 : Forall (line_start (pos + List.length l)) see) by (eapply Forall_impl; [|exact Hn]; intros a Ha; apply Ha).
    - destruct (IH _ _ _ _ S1 C2 P3 H) as (t' & Ht' & R). exists t'. split; [right; exact Ht'|].
      rewrite Forall_forall in Hn. destruct (Hn _ Ht') as [-> _]. cbn [read_loop]. rewrite E. exact R.
    - destruct (IH _ _ _ _ S1 C2 P3 H) as (t' & Ht' & R). exists t'. split; [right; exact Ht'|].
      rewrite Forall_forall in Hn. destruct (Hn _ Ht') as [-> _]. cbn [read_loop]. rewrite E. exact R.
    - destruct (go_ignore go) eqn:Ei.
      + destruct (IH _ _ _ _ S1 C2 P3 H) as (t' & Ht' & R). exists t'. split; [right; exact Ht'|].
        rewrite Forall_forall in Hn. destruct (Hn _ Ht') as [-> _]. cbn [read_loop]. rewrite E, Ei. exact R.
      + injection H as <-. exists t. split; [left; reflexivity|]. rewrite El. cbn [read_loop]. rewrite E, Ei. reflexivity.
  Qed.
End Frozen.

Lemma save_files r u g : save_orders (set_bfiles r u g) = (fst (save_orders g), set_bfiles r u (snd (save_orders g))).
Proof. unfold save_orders. cbn. repeat match goal with |- context [if ?b then _ else _] => destruct b | |- context [match ?b with _ => _ end] => destruct b end; reflexivity. Qed.
Lemma ignoring_ok go step ls : forall pos off o, go_ignore go = true -> fst (fst (read_loop go step ls pos off o)) = None.
Proof.
  induction ls as [|l ls IH]; intros pos off o H; cbn [read_loop]; [reflexivity|].
  destruct (step l o); try (apply IH; exact H); [reflexivity|]. rewrite H. apply IH. exact H.
Qed.
Lemma start_longer off a b : longer a b -> line_start off a -> line_start off b.
Proof. intros (x & ->) (ls & y & -> & F & E). exists ls, (y ++ x). rewrite <- app_assoc. auto. Qed.
Lemma sorted_map {A B} (f : A -> B) (R : A -> A -> Prop) (S : B -> B -> Prop) l :
  (forall a b, R a b -> S (f a) (f b)) -> StronglySorted R l -> StronglySorted S (map f l).
Proof.
  intros H. induction 1 as [|a l Hl IH Ha]; cbn; constructor; [exact IH|]. apply Forall_map. eapply Forall_impl; [|exact Ha]. intros b. apply H.
Qed.
Lemma sorted_app {A} (R : A -> A -> Prop) a b : StronglySorted R (a ++ b) ->
  StronglySorted R a /\ StronglySorted R b /\ forall x y, In x a -> In y b -> R x y.
Proof.
  induction a as [|c a IH]; cbn [app]; intro H; [split; [constructor|split; [exact H|intros ? ? []]]|].
  inversion H as [|? ? H1 H2]; subst. destruct (IH H1) as (A1 & A2 & A3). rewrite Forall_forall in H2.
  split; [constructor; [exact A1|apply Forall_forall; intros x Hx; apply H2, in_or_app; left; exact Hx]|].
  split; [exact A2|]. intros x y [<-|Hx] Hy; [apply H2, in_or_app; right; exact Hy|apply A3; assumption].
Qed.
Lemma grown_fst a b : grown a b -> longer (fst a) (fst b).
Proof. intros (x & _ & E & _). exists x. exact E. Qed.
Lemma grown_snd a b : grown a b -> longer (snd a) (snd b).
Proof. intros (_ & y & _ & E). exists y. exact E. Qed.

(** C85 wants the files of one moment.  Proved: if no unfinished line seen is long enough to be
    taken for a finished one, a sync does what it would do with the result file of one moment
    and the update file of a later one, both while it runs. *)
Theorem C85_two_moments_partial :
  forall ptime f3 f4 go g r0 u0 tl1 tl2 rf uf x g', let d := ge_date (gs_env g) in
    dget d (gs_rfile g) = Some r0 -> dget d (gs_ufile g) = Some u0 ->
    timeline ((r0, u0) :: tl1 ++ tl2) -> line_start (gs_roff g) r0 -> line_start (gs_uoff g) u0 ->
    Forall (fun m => settled 5 (fst m)) tl1 -> Forall (fun m => settled 19 (snd m)) tl2 ->
    sync_live ptime f3 f4 go (map fst tl1) (map snd tl2) rf uf g = Some (x, g') ->
    exists m1 m2, In m1 tl1 /\ In m2 (m1 :: tl2) /\ (go_ignore go = true -> In m2 tl2) /\
      let s := gate_sync_orders ptime f3 f4 go (at_moment d (fst m1) (snd m2) g) in x = fst s /\ g' = set_bfiles rf uf (snd s).
Proof.
  intros ptime f3 f4 go g r0 u0 tl1 tl2 rf uf x g' d Hr Hu Ht Lr Lu Sr Su H.
  unfold timeline in Ht. inversion Ht as [|? ? T1 T2]; subst. destruct (sorted_app _ _ _ T1) as (A1 & A2 & A3).
  apply Forall_app in T2. destruct T2 as [B1 B2].
  unfold sync_live in H. fold d in H. rewrite Hr, Hu in H.
  destruct (live_loop go result_line (map fst tl1) (gs_roff g) (gs_roff g) (gs_orders g)) as [[[x1 roff] o1]|] eqn:E1; [|discriminate].
  apply (live_frozen go result_line 5) in E1.
  2: intros t o; apply result_stop.
  2: exact (sorted_map fst grown longer tl1 grown_fst A1).
  2: apply Forall_map; exact Sr.
  2: apply Forall_map; eapply Forall_impl; [|exact B1]; intros a Ha; exact (start_longer _ _ _ (grown_fst _ _ Ha) Lr).
  destruct E1 as (t1 & Hin1 & E1). apply in_map_iff in Hin1. destruct Hin1 as (m1 & <- & Hm1).
  destruct x1 as [e|].
  - injection H as <- <-. exists m1, m1. split; [exact Hm1|]. split; [left; reflexivity|].
    split; [intro Hi; pose proof (ignoring_ok go result_line (lines_of (skipn (gs_roff g) (fst m1))) (gs_roff g) (gs_roff g) (gs_orders g) Hi) as K; rewrite E1 in K; discriminate|].
    unfold gate_sync_orders, at_moment. cbn. fold d. rewrite !dget_dset_same. unfold read_file. rewrite E1. split; reflexivity.
  - cbn [gs_uoff set_rread set_bfiles] in H.
    destruct (live_loop go (update_line ptime f3 f4) (map snd tl2) (gs_uoff g) (gs_uoff g) o1) as [[[x2 uoff] o2]|] eqn:E2; [|discriminate].
    apply (live_frozen go (update_line ptime f3 f4) 19) in E2.
    2: intros t o; apply update_stop.
    2: exact (sorted_map snd grown longer tl2 grown_snd A2).
    2: apply Forall_map; exact Su.
    2: apply Forall_map; eapply Forall_impl; [|exact B2]; intros a Ha; exact (start_longer _ _ _ (grown_snd _ _ Ha) Lu).
    destruct E2 as (t2 & Hin2 & E2). apply in_map_iff in Hin2. destruct Hin2 as (m2 & <- & Hm2).
    exists m1, m2. split; [exact Hm1|]. split; [right; exact Hm2|]. split; [intros _; exact Hm2|].
    unfold gate_sync_orders, at_moment. cbn [gs_env set_bfiles gs_rfile gs_ufile gs_roff gs_orders gs_uoff set_rread]. fold d. rewrite !dget_dset_same.
    unfold read_file. rewrite E1. cbn [gs_env set_bfiles gs_rfile gs_ufile gs_roff gs_orders gs_uoff set_rread]. rewrite E2.
    destruct x2 as [e|]; [injection H as <- <-; split; reflexivity|].
    set (h := set_uread o2 uoff (set_rread o1 roff g)) in *.
    change (set_uread o2 uoff (set_rread o1 roff (set_bfiles rf uf g))) with (set_bfiles rf uf h) in H.
    change (set_uread o2 uoff (set_rread o1 roff (set_bfiles (dset d (fst m1) (gs_rfile g)) (dset d (snd m2) (gs_ufile g)) g)))
      with (set_bfiles (dset d (fst m1) (gs_rfile g)) (dset d (snd m2) (gs_ufile g)) h).
    rewrite save_files in H |- *. destruct (save_orders h) as [[y|y] h'] eqn:E3; cbn [fst snd] in H |- *; injection H as <- <-; split; reflexivity.
Qed.
Print Assumptions C85_two_moments_partial.

(** every moment shows complete lines and a short rest, and no order both rejected and reported *)
Definition fine (m : moment) : Prop := exists rs us, calm 5 (fst m) rs /\ calm 19 (snd m) us /\ exclusive rs us.
Lemma calm_settled n t ls : calm n t ls -> settled n t.
Proof. intros (x & E & F & P). exists ls, x. split; [exact E|]. split; [|exact P]. eapply Forall_impl; [|exact F]. intros a Ha. apply Ha. Qed.
Lemma readable_wholes n ls : Forall (readable n) ls -> Forall whole ls.
Proof. intro F. eapply Forall_impl; [|exact F]. intros a Ha. apply Ha. Qed.
Lemma calm_longer n a b la lb : longer a b -> calm n a la -> calm n b lb -> exists M, lb = la ++ M.
Proof.
  intros (x & ->) (y & -> & Fa & _) (z & E & Fb & Pb). rewrite <- app_assoc in E.
  destruct (prefix_lines la (y ++ x) lb z (readable_wholes _ _ Fa) (readable_wholes _ _ Fb) (proj1 Pb) E) as (M & -> & _).
  exists M. reflexivity.
Qed.
Lemma exclusive_less a b b' c : b = a ++ b' -> exclusive b c -> exclusive a c.
Proof. intros -> X id r u Hr Hu. apply X; [apply in_or_app; left; exact Hr|exact Hu]. Qed.
Lemma pos_start T R off o t : at_pos T R off o -> Forall whole R -> line_start off (concat R ++ t).
Proof.
  intros [->|(A & B & -> & -> & _)] F; [exists [], (concat R ++ t); repeat split; constructor|].
  apply Forall_app in F. exists A, (concat B ++ t). rewrite concat_app, <- app_assoc. split; [reflexivity|]. split; [apply F|reflexivity].
Qed.
Lemma text_some d (f : dict Z str) t : dget d f = Some t -> text_of d f = t.
Proof. unfold text_of. intros ->. reflexivity. Qed.
Lemma text_dset d t (f : dict Z str) : text_of d (dset d t f) = t.
Proof. unfold text_of. rewrite dget_dset_same. reflexivity. Qed.

Section Running.
  Context (ptime f3 f4 : str -> option Z) (go : gopts) (d : Z) (g : gst) (p : dict str oinfo).
  Context (r0 u0 r u : str) (tl1 tl2 : list moment) (rf uf : dict Z str) (x : res (list oinfo)) (g' : gst).
  Context (Hi : go_ignore go = true) (Hh : hist ptime f3 f4 go d g p).
  Context (Hr : dget d (gs_rfile g) = Some r0) (Hu : dget d (gs_ufile g) = Some u0).
  Context (Hrf : dget d rf = Some r) (Huf : dget d uf = Some u).
  Context (Ht : timeline ((r0, u0) :: tl1 ++ tl2 ++ [(r, u)])) (Hf : Forall fine (tl1 ++ tl2)).
  Context (Hs : sync_live ptime f3 f4 go (map fst tl1) (map snd tl2) rf uf g = Some (x, g')).

  Lemma running : exists m1 m2, In m1 tl1 /\ In m2 tl2 /\ grown (r0, u0) m1 /\ grown m1 m2 /\ grown m2 (r, u) /\
    let s := gate_sync_orders ptime f3 f4 go (at_moment d (fst m1) (snd m2) g) in x = fst s /\ g' = set_bfiles rf uf (snd s).
  Proof.
    pose proof (hist_inv ptime f3 f4 go d g p Hi Hh) as (Hday & Hdate & Rr & Ru & (tr & Er) & (tu & Eu) & FRr & FRu & _ & _ & HPr & HPu & _).
    rewrite (text_some _ _ _ Hr) in Er. rewrite (text_some _ _ _ Hu) in Eu.
    rewrite app_assoc in Ht. change ((r0, u0) :: (tl1 ++ tl2) ++ [(r, u)]) with (((r0, u0) :: tl1 ++ tl2) ++ [(r, u)]) in Ht.
    destruct (sorted_app _ _ _ Ht) as (T1 & _ & T2). inversion T1 as [|? ? T3 T4]; subst. rewrite Forall_forall in T4.
    destruct (sorted_app _ _ _ T3) as (_ & _ & T5). apply Forall_app in Hf. destruct Hf as [F1 F2].
    destruct (C85_two_moments_partial ptime f3 f4 go g (concat Rr ++ tr) (concat Ru ++ tu) tl1 tl2 rf uf x g') as (m1 & m2 & M1 & _ & M2 & M3); try assumption.
    - rewrite Hdate. exact Hr.
    - rewrite Hdate. exact Hu.
    - exact (pos_start _ _ _ _ tr HPr (readable_wholes _ _ FRr)).
    - exact (pos_start _ _ _ _ tu HPu (readable_wholes _ _ FRu)).
    - eapply Forall_impl; [|exact F1]. intros m (rs & us & C & _). exact (calm_settled _ _ _ C).
    - eapply Forall_impl; [|exact F2]. intros m (rs & us & _ & C & _). exact (calm_settled _ _ _ C).
    - rewrite Hdate in M3. specialize (M2 Hi). exists m1, m2. split; [exact M1|]. split; [exact M2|].
      split; [apply T4, in_or_app; left; exact M1|]. split; [apply T5; assumption|].
      split; [apply T2; [right; apply in_or_app; right; exact M2|left; reflexivity]|exact M3].
  Qed.

  Lemma two_calm m1 m2 : In m1 tl1 -> In m2 tl2 -> grown m1 m2 -> exists rs1 us1 rs2 us2,
    calm 5 (fst m1) rs1 /\ calm 19 (snd m1) us1 /\ calm 5 (fst m2) rs2 /\ calm 19 (snd m2) us2 /\
    (exists M, rs2 = rs1 ++ M) /\ (exists M, us2 = us1 ++ M) /\ exclusive rs1 us1 /\ exclusive rs2 us2 /\ exclusive rs1 us2.
  Proof.
    intros H1 H2 G. pose proof Hf as F. rewrite Forall_forall in F.
    destruct (F m1) as (rs1 & us1 & A1 & A2 & A3); [apply in_or_app; left; exact H1|].
    destruct (F m2) as (rs2 & us2 & B1 & B2 & B3); [apply in_or_app; right; exact H2|].
    destruct (calm_longer _ _ _ _ _ (grown_fst _ _ G) A1 B1) as (M & E). exists rs1, us1, rs2, us2.
    repeat (split; [solve [eauto using calm_longer, grown_snd]|]). eapply exclusive_less; eassumption.
  Qed.
End Running.

(** So a sync while the broker writes is part of a history as C36 and C39 have them: what they
    say about later syncs and restarts holds after it too. *)
Theorem C85_history_partial :
  forall ptime f3 f4 go d g p r0 u0 r u tl1 tl2 rf uf x g',
    go_ignore go = true -> hist ptime f3 f4 go d g p ->
    dget d (gs_rfile g) = Some r0 -> dget d (gs_ufile g) = Some u0 -> dget d rf = Some r -> dget d uf = Some u ->
    timeline ((r0, u0) :: tl1 ++ tl2 ++ [(r, u)]) -> Forall fine (tl1 ++ tl2) ->
    sync_live ptime f3 f4 go (map fst tl1) (map snd tl2) rf uf g = Some (x, g') ->
    hist ptime f3 f4 go d g' p.
Proof.
  intros ptime f3 f4 go d g p r0 u0 r u tl1 tl2 rf uf x g' Hi Hh Hr Hu Hrf Huf Ht Hf Hs.
  destruct (running ptime f3 f4 go d g p r0 u0 r u tl1 tl2 rf uf x g' Hi Hh Hr Hu Hrf Huf Ht Hf Hs) as (m1 & m2 & M1 & M2 & G0 & G1 & G2 & _ & ->).
  destruct (two_calm tl1 tl2 Hf m1 m2 M1 M2 G1) as (rs1 & us1 & rs2 & us2 & A1 & A2 & B1 & B2 & _ & _ & X1 & X2 & X3).
  destruct (grown_fst _ _ G0) as (dr & Edr). destruct (grown_snd _ _ G0) as (du0 & Edu0). destruct (grown_snd _ _ G1) as (du1 & Edu1). cbn [fst snd] in *.
  assert (Hm : hist ptime f3 f4 go d (at_moment d (fst m1) (snd m2) g) p).
  { apply (h_grow ptime f3 f4 go d g p _ _ dr (du0 ++ du1) Hh); rewrite text_dset.
    - rewrite (text_some _ _ _ Hu), app_assoc, <- Edu0. exact Edu1.
    - rewrite (text_some _ _ _ Hr). exact Edr. }
  assert (Hy : hist ptime f3 f4 go d (snd (gate_sync_orders ptime f3 f4 go (at_moment d (fst m1) (snd m2) g))) p).
  { apply h_sync; [exact Hm|]. intros r' u'. unfold at_moment. cbn. rewrite !dget_dset_same. intros E1 E2.
    injection E1 as <-. injection E2 as <-. exists rs1, us2. auto. }
  pose proof (sync_reads ptime f3 f4 go d _ p (fst m1) (snd m2) rs1 us2 Hi (hist_inv ptime f3 f4 go d _ p Hi Hm)) as K.
  unfold at_moment in K at 1 2. cbn [gs_rfile gs_ufile set_bfiles] in K. rewrite !dget_dset_same in K.
  destruct (K eq_refl eq_refl A1 B2 X3) as (_ & _ & Kr & Ku & _).
  destruct (grown_fst _ _ G1) as (dr1 & Edr1). destruct (grown_fst _ _ G2) as (dr2 & Edr2). destruct (grown_snd _ _ G2) as (du2 & Edu2). cbn [fst snd] in *.
  apply (h_grow ptime f3 f4 go d _ p rf uf (dr1 ++ dr2) du2 Hy).
  - rewrite Ku. unfold at_moment. cbn [gs_ufile set_bfiles]. rewrite text_dset, (text_some _ _ _ Huf). exact Edu2.
  - rewrite Kr. unfold at_moment. cbn [gs_rfile set_bfiles]. rewrite text_dset, (text_some _ _ _ Hrf), app_assoc, <- Edr1. exact Edr2.
Qed.
Print Assumptions C85_history_partial.

(** Each single order is as at one moment. *)
Theorem C85_each_order_partial :
  forall ptime f3 f4 go d g p r0 u0 r u tl1 tl2 rf uf x g',
    go_ignore go = true -> hist ptime f3 f4 go d g p ->
    dget d (gs_rfile g) = Some r0 -> dget d (gs_ufile g) = Some u0 -> dget d rf = Some r -> dget d uf = Some u ->
    timeline ((r0, u0) :: tl1 ++ tl2 ++ [(r, u)]) -> Forall fine (tl1 ++ tl2) ->
    sync_live ptime f3 f4 go (map fst tl1) (map snd tl2) rf uf g = Some (x, g') ->
    forall id, exists m, In m (tl1 ++ tl2) /\
      dget id (gs_orders g') = dget id (gs_orders (snd (gate_sync_orders ptime f3 f4 go (at_moment d (fst m) (snd m) g)))).
Proof.
  intros ptime f3 f4 go d g p r0 u0 r u tl1 tl2 rf uf x g' Hi Hh Hr Hu Hrf Huf Ht Hf Hs id.
  destruct (running ptime f3 f4 go d g p r0 u0 r u tl1 tl2 rf uf x g' Hi Hh Hr Hu Hrf Huf Ht Hf Hs) as (m1 & m2 & M1 & M2 & G0 & G1 & G2 & _ & ->).
  destruct (two_calm tl1 tl2 Hf m1 m2 M1 M2 G1) as (rs1 & us1 & rs2 & us2 & A1 & A2 & B1 & B2 & (Mr & Er) & (Mu & Eu) & X1 & X2 & X3).
  assert (S : forall a b rs us, longer r0 a -> longer u0 b -> calm 5 a rs -> calm 19 b us -> exclusive rs us ->
    dget id (gs_orders (snd (gate_sync_orders ptime f3 f4 go (at_moment d a b g)))) = option_map (replay ptime f3 f4 id rs us) (dget id p)).
  { intros a b rs us (dr & La) (du & Lb) Ca Cb X.
    assert (Hm : hist ptime f3 f4 go d (at_moment d a b g) p).
    { apply (h_grow ptime f3 f4 go d g p _ _ dr du Hh); rewrite text_dset, ?(text_some _ _ _ Hu), ?(text_some _ _ _ Hr); assumption. }
    pose proof (sync_reads ptime f3 f4 go d _ p a b rs us Hi (hist_inv ptime f3 f4 go d _ p Hi Hm)) as K.
    unfold at_moment in K at 1 2. cbn [gs_rfile gs_ufile set_bfiles] in K. rewrite !dget_dset_same in K.
    destruct (K eq_refl eq_refl Ca Cb X) as (_ & _ & _ & _ & _ & K' & _). apply K'. }
  assert (L1 : longer r0 (fst m1)) by exact (grown_fst _ _ G0). assert (L2 : longer u0 (snd m1)) by exact (grown_snd _ _ G0).
  assert (L3 : longer r0 (fst m2)) by (destruct L1 as (a & E), (grown_fst _ _ G1) as (b & E'); exists (a ++ b); rewrite app_assoc, <- E; exact E').
  assert (L4 : longer u0 (snd m2)) by (destruct L2 as (a & E), (grown_snd _ _ G1) as (b & E'); exists (a ++ b); rewrite app_assoc, <- E; exact E').
  cbn [gs_orders set_bfiles].
  rewrite (S _ _ rs1 us2 L1 L4 A1 B2 X3).
  destruct (existsb (fun l => match rtarget l with Some (k, _) => eqb k id | None => false end) rs2) eqn:Ex.
  - (* rejected: not in the update file *)
    exists m1. split; [apply in_or_app; left; exact M1|]. rewrite (S _ _ rs1 us1 L1 L2 A1 A2 X1).
    apply existsb_exists in Ex. destruct Ex as (l & Hl & El). destruct (rtarget l) as [[k e]|] eqn:Et; [|discriminate].
    destruct (eqb_spec k id) as [->|]; [|discriminate].
    assert (Rj : reject_for id l) by (apply rtarget_iff; exists e; exact Et).
    assert (Nu : forall l' e', In l' us2 -> utarget ptime f3 f4 l' <> Some (id, e')).
    { intros l' e' Hl' E'. apply (X2 id l l' Hl Hl' Rj). apply (proj1 (utarget_iff ptime f3 f4 l' id)). exists e'. exact E'. }
    destruct (dget id p); [|reflexivity]. cbn. unfold replay. f_equal. rewrite (all_on_none (utarget ptime f3 f4) id us2), (all_on_none (utarget ptime f3 f4) id us1); [reflexivity| |].
    + intros l' e' Hl'. apply Nu. rewrite Eu. apply in_or_app. left. exact Hl'.
    + exact Nu.
  - exists m2. split; [apply in_or_app; right; exact M2|]. rewrite (S _ _ rs2 us2 L3 L4 B1 B2 X2).
    assert (Nr : forall l' e', In l' rs2 -> rtarget l' <> Some (id, e')).
    { intros l' e' Hl' E'. assert (T : existsb (fun l => match rtarget l with Some (k, _) => eqb k id | None => false end) rs2 = true).
      { apply existsb_exists. exists l'. split; [exact Hl'|]. rewrite E'. apply eqb_refl. } congruence. }
    destruct (dget id p); [|reflexivity]. cbn. unfold replay. f_equal. rewrite (all_on_none rtarget id rs1), (all_on_none rtarget id rs2); [reflexivity|exact Nr|].
    intros l' e' Hl'. apply Nr. rewrite Er. apply in_or_app. left. exact Hl'.
Qed.
Print Assumptions C85_each_order_partial.

(** ** The claim: all orders as at one moment. *)
Definition one_moment : Prop :=
  forall ptime f3 f4 go d g p r0 u0 r u tl1 tl2 rf uf x g',
    go_ignore go = true -> hist ptime f3 f4 go d g p ->
    dget d (gs_rfile g) = Some r0 -> dget d (gs_ufile g) = Some u0 -> dget d rf = Some r -> dget d uf = Some u ->
    timeline ((r0, u0) :: tl1 ++ tl2 ++ [(r, u)]) -> Forall fine (tl1 ++ tl2) ->
    sync_live ptime f3 f4 go (map fst tl1) (map snd tl2) rf uf g = Some (x, g') ->
    exists m, In m (tl1 ++ tl2) /\ forall id,
      dget id (gs_orders g') = dget id (gs_orders (snd (gate_sync_orders ptime f3 f4 go (at_moment d (fst m) (snd m) g)))).

(** False: order 78 is rejected after the result file was read, then order 77 is filled before
    the update file is read: the sync shows the fill, but not the rejection before it. *)
Definition order78 : order := new_order (lit "78") (19000 * DAY + 34200 * US) (lit "000001.XSHE") 200 (Market (PNum (lit "0"))) Long.
Definition two_g : gst := with_files [] [] (snd (gate_order demo_go order78 (w_gate demo_w1))).
Lemma two_hist : exists p, hist demo_ptime demo_f3 demo_f4 demo_go 19000 two_g p.
Proof.
  eexists. unfold two_g, with_files. apply (h_grow demo_ptime demo_f3 demo_f4 demo_go 19000 _ _ _ _ [] []); [|vm_compute; reflexivity|vm_compute; reflexivity].
  apply h_order; [exact demo_hist|vm_compute; reflexivity| |].
  - intros l Hl. exfalso. vm_compute in Hl. exact Hl.
  - intros l Hl. exfalso. vm_compute in Hl. exact Hl.
Qed.
Definition r_78 : str := nl "t,1,78,1,E1,no money".
Definition tl_a : list moment := [([], [])].
Definition tl_b : list moment := [(r_78, u_done); (r_78, u_done)].
Definition two_after : option (res (list oinfo) * gst) :=
  sync_live demo_ptime demo_f3 demo_f4 demo_go (map fst tl_a) (map snd tl_b) [(19000, r_78)] [(19000, u_done)] two_g.
Lemma tl_fine : Forall fine (tl_a ++ tl_b) /\ timeline (([], []) :: tl_a ++ tl_b ++ [(r_78, u_done)]).
Proof.
  assert (P : forall n, (0 < n)%nat -> pending n []).
  { intros n Hn. split; [intros []|]. split; [intro H; apply header_iff in H; discriminate|cbn; lia]. }
  assert (A : calm 5 r_78 [r_78]).
  { exists []. split; [cbn [concat]; rewrite !app_nil_r; reflexivity|]. split; [|apply P; lia].
    apply Forall_cons; [split; [apply demo_line_whole; vm_compute; congruence|right; vm_compute; lia]|apply Forall_nil]. }
  assert (B : calm 19 u_done [u_done]).
  { exists []. split; [cbn [concat]; rewrite !app_nil_r; reflexivity|]. split; [|apply P; lia].
    apply Forall_cons; [split; [apply demo_line_whole; vm_compute; congruence|right; vm_compute; lia]|apply Forall_nil]. }
  assert (F0 : fine ([], [])).
  { exists [], []. split; [exists []; split; [reflexivity|]; split; [apply Forall_nil|apply P; lia]|].
    split; [exists []; split; [reflexivity|]; split; [apply Forall_nil|apply P; lia]|intros ? ? ? []]. }
  assert (F1 : fine (r_78, u_done)).
  { exists [r_78], [u_done]. split; [exact A|]. split; [exact B|]. intros id a b [<-|[]] [<-|[]] (_ & _ & _ & _ & E1) (_ & _ & E2).
    rewrite <- E1 in E2. vm_compute in E2. discriminate. }
  assert (G : forall m, grown ([], []) m) by (intros [a b]; exists a, b; split; reflexivity).
  assert (G1 : grown (r_78, u_done) (r_78, u_done)) by (exists [], []; rewrite !app_nil_r; split; reflexivity).
  split; [repeat (apply Forall_cons; [assumption|]); apply Forall_nil|].
  unfold timeline, tl_a, tl_b. cbn [app]. repeat (apply SSorted_cons || apply Forall_cons || apply Forall_nil || apply SSorted_nil || exact G1 || apply G).
Qed.
Definition not_both (g : gst) : bool :=
  negb (match state_of "77" g with Some (s, _) => eqb s (lit "filled") | None => false end) ||
  negb (match state_of "78" g with Some (s, _) => eqb s (lit "new") | None => false end).
Definition seen_at (g : gst) (m : moment) : gst := snd (gate_sync_orders demo_ptime demo_f3 demo_f4 demo_go (at_moment 19000 (fst m) (snd m) g)).
Definition shown (s : res (list oinfo) * gst) := (state_of "77" (snd s), state_of "78" (snd s)).
Lemma two_facts :
  option_map shown two_after = Some (Some (lit "filled", Some 300), Some (lit "new", Some 0)) /\
  forallb (fun m => not_both (seen_at two_g m)) (tl_a ++ tl_b) = true /\
  dget 19000 (gs_rfile two_g) = Some [] /\ dget 19000 (gs_ufile two_g) = Some [].
Proof. vm_compute. repeat split. Qed.
Lemma no_moment g p r u rf uf (after : option (res (list oinfo) * gst)) : one_moment ->
  hist demo_ptime demo_f3 demo_f4 demo_go 19000 g p -> go_ignore demo_go = true ->
  dget 19000 (gs_rfile g) = Some [] -> dget 19000 (gs_ufile g) = Some [] -> dget 19000 rf = Some r -> dget 19000 uf = Some u ->
  timeline (([], []) :: tl_a ++ tl_b ++ [(r, u)]) -> Forall fine (tl_a ++ tl_b) ->
  sync_live demo_ptime demo_f3 demo_f4 demo_go (map fst tl_a) (map snd tl_b) rf uf g = after ->
  option_map shown after = Some (Some (lit "filled", Some 300), Some (lit "new", Some 0)) ->
  forallb (fun m => not_both (seen_at g m)) (tl_a ++ tl_b) = true -> False.
Proof.
  intros H Hp Hi E3 E4 E5 E6 Ft Ff E E1 E2. destruct after as [[x g']|]; [|discriminate].
  destruct (H demo_ptime demo_f3 demo_f4 demo_go 19000 g p [] [] r u tl_a tl_b rf uf x g' Hi Hp E3 E4 E5 E6 Ft Ff E) as (m & Hm & K).
  rewrite forallb_forall in E2. specialize (E2 m Hm). fold (seen_at g m) in K. revert E2 K. generalize (seen_at g m). intros g0 E2 K.
  unfold shown in E1. cbn [option_map snd] in E1. injection E1 as A B. unfold state_of in A, B. rewrite K in A, B.
  unfold not_both in E2. unfold state_of in E2. rewrite A, B in E2. discriminate.
Qed.
Theorem C85_refuted : ~ one_moment.
Proof.
  intros H. destruct two_hist as (p & Hp). destruct tl_fine as [Ff Ft]. destruct two_facts as (E1 & E2 & E3 & E4).
  assert (E5 : dget 19000 [(19000, r_78)] = Some r_78) by reflexivity. assert (E6 : dget 19000 [(19000, u_done)] = Some u_done) by reflexivity.
  assert (E7 : go_ignore demo_go = true) by reflexivity.
  assert (E8 : sync_live demo_ptime demo_f3 demo_f4 demo_go (map fst tl_a) (map snd tl_b) [(19000, r_78)] [(19000, u_done)] two_g = two_after) by (unfold two_after; reflexivity).
  exact (no_moment two_g p r_78 u_done [(19000, r_78)] [(19000, u_done)] two_after H Hp E7 E3 E4 E5 E6 Ft Ff E8 E1 E2).
Qed.
Print Assumptions C85_refuted.

(** hypotheses of the positive theorems met by that run; the next sync shows the rejection *)
Example C85_demo :
  (exists p, hist demo_ptime demo_f3 demo_f4 demo_go 19000 two_g p) /\ Forall fine (tl_a ++ tl_b) /\
  timeline (([], []) :: tl_a ++ tl_b ++ [(r_78, u_done)]) /\
  option_map shown two_after = Some (Some (lit "filled", Some 300), Some (lit "new", Some 0)) /\
  option_map (fun s => let g := demo_sync (snd s) in (state_of "77" g, state_of "78" g)) two_after = Some (Some (lit "filled", Some 300), Some (lit "rejected", Some 0)).
Proof.
  split; [exact two_hist|]. split; [apply tl_fine|]. split; [apply tl_fine|]. split; [apply two_facts|]. vm_compute. reflexivity.
Qed.
