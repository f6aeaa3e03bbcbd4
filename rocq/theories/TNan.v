(** C113: blank cash figures.

    The statement: after any number of balance syncs each cash figure is the one the files gave
    last; a figure left blank changes nothing.  False (C113_refuted): a blank figure is shown as
    nan, and a 0 given after it does not replace it.  Proved: what is shown exactly, for all
    sequences of syncs (C123_exact); without blanks and zeros this is the figure given last
    (C113_last_partial), without blanks it is always a number (C113_number_partial); which cell
    of which record decides (C123_blank); and that the account of C97 shows the same as long as
    no figure is blank (C123_same). *)
From Verif Require Import PyBase PyStr LStr MTime MOrder MAccount MGate MBalance PyCsv MCsv SBalance LBalance TBalance MFolio TFolio MNan SNan TGate.
Open Scope list_scope.
Open Scope Z_scope.

Section Nan.
  Context {F : Type} (pnum pyfloat : str -> option F) (trunc : F -> option Z) (round4 round3 : F -> Z) (minus : F -> F -> F) (acct : str).
  Notation syncs := (nan_syncs pnum pyfloat trunc round4 round3 minus acct).
  Notation shown := (shown_cash pnum pyfloat trunc round4 round3 minus acct).
  Notation gives := (gave pnum pyfloat trunc round4 round3 minus acct).
  Notation read := (sync_balance_q pnum pyfloat trunc round4 round3 minus acct).

  Lemma gave_det get f x y : gives get f x -> gives get f y -> x = y.
  Proof. intros (c & ps & E & <-) (c' & ps' & E' & <-). rewrite E in E'. apply Ok_inj in E'. injection E' as <- _. reflexivity. Qed.
  Lemma shown_step get fs f old : shown get fs old ->
    shown get (fs ++ [f]) (match read (fst f) (snd f) with Ok (Some c, _) => fig_or (fig_of (get c)) old | _ => old end).
  Proof.
    intros H. assert (K : (forall x, gives get f x -> x = Some 0) -> shown get (fs ++ [f]) old).
    { intros Z0. assert (A : forall after g x, (forall g x, In g after -> gives get g x -> x = Some 0) -> In g (after ++ [f]) -> gives get g x -> x = Some 0).
      { intros after g x HA Hin Hg. apply in_app_or in Hin as [Hin|[<-|[]]]; [apply (HA _ _ Hin Hg)|apply Z0, Hg]. }
      destruct H as [fs HN|before g after z HG Hz HA|before g after HG HA].
      - apply sc_none. intros g x. apply (A fs). exact HN.
      - rewrite <- app_assoc. cbn [app]. apply sc_number; [exact HG|exact Hz|]. intros g' x. apply (A after). exact HA.
      - rewrite <- app_assoc. cbn [app]. apply sc_blank; [exact HG|]. intros g' x. apply (A after). exact HA. }
    assert (N : (forall c ps, read (fst f) (snd f) <> Ok (Some c, ps)) -> shown get (fs ++ [f]) old).
    { intros X. apply K. intros x (c & ps & E & _). exfalso. exact (X _ _ E). }
    destruct (read (fst f) (snd f)) as [[[c|] ps]|e] eqn:E; try (apply N; discriminate).
    assert (G : gives get f (get c)) by (exists c, ps; auto). unfold fig_or, fig_of. destruct (get c) as [z|] eqn:Eg; cbn [truthy].
    - destruct (Z.eqb_spec z 0) as [->|Nz]; cbn [negb].
      + apply K. intros x Hx. apply (gave_det get f _ _ Hx G).
      + apply sc_number; [exact G|exact Nz|intros g x []].
    - apply sc_blank; [exact G|intros g x []].
  Qed.

  (** the figures shown after any sequence of syncs *)
  Theorem C123_exact : forall fs,
    shown bc_total fs (m_total (syncs fs)) /\ shown bc_avail fs (m_avail (syncs fs)) /\ shown bc_locked fs (m_locked (syncs fs)).
  Proof.
    intros fs. induction fs as [|f fs (A & B & C)] using rev_ind.
    - repeat split; apply sc_none; intros g x [].
    - unfold nan_syncs in *. rewrite fold_left_app. cbn [fold_left]. unfold nan_sync at 1 3 5.
      apply (shown_step _ _ f) in A, B, C. destruct (read (fst f) (snd f)) as [[[c|] ps]|e]; auto.
  Qed.

  (** ... are determined by what the files gave *)
  Theorem C123_unique : forall get fs x y, shown get fs x -> shown get fs y -> x = y.
  Proof.
    intros get fs x y. assert (D : forall before after before' after' (g g' : option str * option str), before ++ g :: after = before' ++ g' :: after' ->
      (before = before' /\ g = g' /\ after = after') \/ In g after' \/ In g' after).
    { intros before after before' after' g g'. revert before'. induction before as [|b before IH]; intros [|b' before'] E; cbn [app] in E; injection E as E1 E2.
      - left. auto.
      - right; right. rewrite E2. apply in_or_app. right. left. reflexivity.
      - right; left. rewrite <- E2. apply in_or_app. right. left. reflexivity.
      - destruct (IH before' E2) as [(-> & -> & ->)|H]; [left; subst; auto|right; exact H]. }
    assert (I : forall before f after, @In (option str * option str) f (before ++ f :: after)) by (intros; apply in_or_app; right; left; reflexivity).
    intros H1 H2. destruct H1 as [fs HN|b f a z HG Hz HA|b f a HG HA]; inversion H2 as [fs' HN' E|b' f' a' z' HG' Hz' HA' E|b' f' a' HG' HA' E]; subst.
    - reflexivity.
    - specialize (HN f' (Some z') (I _ _ _) HG'). congruence.
    - specialize (HN f' None (I _ _ _) HG'). discriminate.
    - specialize (HN' f (Some z) (I _ _ _) HG). congruence.
    - destruct (D b' a' b a f' f E) as [(_ & -> & _)|[X|X]].
      + pose proof (gave_det _ _ _ _ HG HG') as Q. congruence.
      + specialize (HA _ _ X HG'). congruence.
      + specialize (HA' _ _ X HG). congruence.
    - destruct (D b' a' b a f' f E) as [(_ & -> & _)|[X|X]].
      + pose proof (gave_det _ _ _ _ HG HG') as Q. congruence.
      + specialize (HA _ _ X HG'). congruence.
      + specialize (HA' _ _ X HG). congruence.
    - specialize (HN' f None (I _ _ _) HG). congruence.
    - destruct (D b' a' b a f' f E) as [(_ & -> & _)|[X|X]].
      + pose proof (gave_det _ _ _ _ HG HG') as Q. congruence.
      + specialize (HA _ _ X HG'). congruence.
      + specialize (HA' _ _ X HG). congruence.
    - reflexivity.
  Qed.

  (** Missing for the full claim: blank figures, and zeros. *)
  Theorem C113_last_partial : forall fs f c ps,
    read (fst f) (snd f) = Ok (Some c, ps) ->
    (forall z, bc_total c = Some z -> z <> 0 -> m_total (syncs (fs ++ [f])) = Num z) /\
    (forall z, bc_avail c = Some z -> z <> 0 -> m_avail (syncs (fs ++ [f])) = Num z) /\
    (forall z, bc_locked c = Some z -> z <> 0 -> m_locked (syncs (fs ++ [f])) = Num z).
  Proof.
    intros fs f c ps E. unfold nan_syncs. rewrite fold_left_app. cbn [fold_left]. unfold nan_sync at 1 3 5. rewrite E. cbn [m_total m_avail m_locked].
    repeat split; intros z -> Hz; cbn [fig_of fig_or truthy]; unfold fig_or; cbn [truthy]; rewrite (proj2 (Z.eqb_neq z 0) Hz); reflexivity.
  Qed.
  Theorem C113_number_partial : forall fs,
    (forall f c ps, In f fs -> read (fst f) (snd f) = Ok (Some c, ps) -> bc_total c <> None /\ bc_avail c <> None /\ bc_locked c <> None) ->
    m_total (syncs fs) <> NaN /\ m_avail (syncs fs) <> NaN /\ m_locked (syncs fs) <> NaN.
  Proof.
    intros fs H. assert (K : forall get x, (forall c, bc_total c <> None /\ bc_avail c <> None /\ bc_locked c <> None -> get c <> None) -> shown get fs x -> x <> NaN).
    { intros get x HC HS. destruct HS as [fs HN|before f after z HG Hz HA|before f after HG HA]; try discriminate.
      destruct HG as (c & ps & E & G). exfalso. apply (HC c); [|exact G]. apply (H f c ps); [apply in_or_app; right; left; reflexivity|exact E]. }
    destruct (C123_exact fs) as (A & B & C). split; [|split].
    - apply (K bc_total); [tauto|exact A].
    - apply (K bc_avail); [tauto|exact B].
    - apply (K bc_locked); [tauto|exact C].
  Qed.

  (** Which cell decides: with enabledBalance blank in the account's last record without
      exchange, files that can be read make both the available and the locked cash nan. *)
  Theorem C123_blank : forall m afile pfile df sel older r c ps,
    read afile pfile = Ok (Some c, ps) -> read_csv_q afile = Ok df ->
    (forall r, In r (fr_rows df) -> (sel r = true <-> of_account df acct r /\ ~ exists s, field_of df r (lit "exchange") (Some s))) ->
    filter sel (fr_rows df) = older ++ [r] ->
    field_of df r (lit "enabledBalance") None ->
    let m' := nan_sync pnum pyfloat trunc round4 round3 minus acct m (afile, pfile) in m_avail m' = NaN /\ m_locked m' = NaN.
  Proof.
    intros m afile pfile df sel older r c ps E Er Hsel Hr Hb. cbv zeta. unfold nan_sync. cbn [fst snd]. rewrite E. cbn [m_avail m_locked].
    assert (X : bc_avail c = None /\ bc_locked c = None); [|destruct X as [-> ->]; split; reflexivity].
    unfold sync_balance_q in E. destruct afile as [at_|]; [|discriminate].
    match type of E with match acct with [] => _ | _ :: _ => ?B end = ?R => assert (E' : B = R) by (destruct acct; [discriminate|exact E]); clear E; rename E' into E end.
    rewrite Er in E. cbn [rbind] in E. destruct (fr_rows df) eqn:Ea; [discriminate|]. rewrite <- Ea in *.
    destruct (asset_loop pnum pyfloat round4 minus df acct (fr_rows df) None) as [cash|] eqn:El; [|discriminate]. cbn [rbind] in E. destruct pfile as [pt|]; [|discriminate].
    destruct (read_csv_q (Some pt)) as [pdf|]; [|discriminate]. cbn [rbind] in E. destruct (pos_loop _ _ _ _ _ _ _ _) as [ps'|]; [|discriminate]. cbn [rbind] in E. apply Ok_inj in E. injection E as -> _. clear Ea.
    assert (G : forall rs c0, asset_loop pnum pyfloat round4 minus df acct rs c0 = Ok (Some c) ->
      match rev (filter (fun r => own df acct r && negb (has_text df (lit "exchange") r)) rs) with
      | [] => Some c = c0 | r :: _ => asset_of pnum pyfloat round4 minus df r = Ok c end).
    { clear. intro rs. induction rs as [|r rs IH]; intros c0 E; cbn [asset_loop filter] in *; [apply Ok_inj in E; subst; reflexivity|].
      unfold str_cell at 1 in E. destruct (index_of (lit "acct") (fr_cols df)) as [i|] eqn:Ei; [|discriminate]. cbn [rbind] in E.
      assert (Ow : own df acct r = eqb (nth i r None) (Some acct)) by (unfold own; rewrite Ei; reflexivity). rewrite Ow.
      destruct (eqb (nth i r None) (Some acct)) eqn:Eo; cbn [negb andb] in *; [|apply IH in E; exact E].
      unfold str_cell at 1 in E. destruct (index_of (lit "exchange") (fr_cols df)) as [j|] eqn:Ej; [|discriminate]. cbn [rbind] in E.
      assert (Ht : has_text df (lit "exchange") r = negb (is_none (nth j r None))) by (unfold has_text; rewrite Ej; reflexivity). rewrite Ht.
      destruct (nth j r None) as [sym|]; cbn [is_none negb] in *; [apply IH in E; exact E|].
      destruct (asset_of pnum pyfloat round4 minus df r) as [c'|] eqn:Ec; [|discriminate]. cbn [rbind] in E. apply IH in E.
      cbn [rev]. destruct (rev (filter _ rs)) as [|r' rr]; cbn [app]; [|exact E]. injection E as ->. exact Ec. }
    assert (Fe : filter (fun r => own df acct r && negb (has_text df (lit "exchange") r)) (fr_rows df) = filter sel (fr_rows df)).
    { apply filter_ext_in. intros x Hx. apply eq_true_iff_eq. rewrite (Hsel x Hx), andb_true_iff, negb_true_iff, own_spec, <- (has_text_spec df (lit "exchange") x), not_true_iff_false. reflexivity. }
    specialize (G _ _ El). rewrite Fe, Hr, rev_app_distr in G. cbn [rev app] in G.
    assert (Hf : float_of pnum pyfloat df r (lit "enabledBalance") = Ok None).
    { apply field_of_index in Hb as (i & Ei & En). unfold float_of, num_cell. rewrite Ei, En. reflexivity. }
    unfold asset_of in G. destruct (float_of pnum pyfloat df r (lit "totalAsset")) as [t|]; [|discriminate]. cbn [rbind] in G. rewrite Hf in G. cbn [rbind] in G.
    destruct (float_of pnum pyfloat df r (lit "currentBalance")) as [cb|]; [|discriminate]. cbn [rbind] in G. apply Ok_inj in G. subst c. cbn. destruct cb; auto.
  Qed.
End Nan.

(** As long as no figure is blank the account of MFolio shows the same. *)
Definition money_of (a : acct) : money := Money (Num (a_total a)) (Num (a_cash a)) (Num (a_locked a)).
Theorem C123_same :
  forall ptime f3 f4 go F (pnum pyfloat : str -> option F) trunc round4 round3 minus a f,
    (forall c ps, sync_balance_q pnum pyfloat trunc round4 round3 minus (go_acct go) (dget (today f) (fg_assets f)) (dget (today f) (fg_positions f)) = Ok (Some c, ps) ->
       bc_total c <> None /\ bc_avail c <> None /\ bc_locked c <> None) ->
    money_of (fst (acc_sync_balance (full_gate ptime f3 f4 go pnum pyfloat trunc round4 round3 minus) a f)) =
    nan_sync pnum pyfloat trunc round4 round3 minus (go_acct go) (money_of a) (dget (today f) (fg_assets f), dget (today f) (fg_positions f)).
Proof.
  intros ptime f3 f4 go F pnum pyfloat trunc round4 round3 minus a f H. unfold acc_sync_balance, nan_sync. cbn [full_gate g_sync_balance fst snd]. unfold full_balance.
  destruct (sync_balance_q _ _ _ _ _ _ _ _ _) as [[[c|] ps]|x]; cbn [rbind fst snd option_map b_cash b_pos]; try reflexivity.
  destruct (H c ps eq_refl) as (A & B & C). destruct c as [[t|] [e|] [k|]]; cbn [bc_total bc_avail bc_locked] in *; try contradiction.
  match goal with |- context [add_positions _ ?x] => destruct (add_entries ps x) as (H1 & H2 & H3 & H4 & H5) end. cbv zeta in *.
  unfold money_of at 1. rewrite H3, H4, H5. unfold money_of. cbn [set_positions set_cash a_total a_cash a_locked cash_entry c_total c_avail c_locked bc_total bc_avail bc_locked dfl or_old fig_of m_total m_avail m_locked].
  unfold fig_or. cbn [truthy]. destruct (t =? 0), (e =? 0), (k =? 0); reflexivity.
Qed.
Print Assumptions C123_exact.
Print Assumptions C123_unique.
Print Assumptions C113_last_partial.
Print Assumptions C113_number_partial.
Print Assumptions C123_blank.
Print Assumptions C123_same.

(** The claim: a sync in which the file leaves the available cash blank changes nothing about it. *)
Definition blank_keeps : Prop :=
  forall F (pnum pyfloat : str -> option F) trunc round4 round3 minus acct fs f,
    gave pnum pyfloat trunc round4 round3 minus acct bc_avail f None ->
    m_avail (nan_syncs pnum pyfloat trunc round4 round3 minus acct (fs ++ [f])) = m_avail (nan_syncs pnum pyfloat trunc round4 round3 minus acct fs).
(** The claim: after files that give a figure, that figure is shown. *)
Definition given_shown : Prop :=
  forall F (pnum pyfloat : str -> option F) trunc round4 round3 minus acct fs f z,
    gave pnum pyfloat trunc round4 round3 minus acct bc_avail f (Some z) ->
    m_avail (nan_syncs pnum pyfloat trunc round4 round3 minus acct (fs ++ [f])) = Num z.
Definition zsyncs := @nan_syncs Z py_int py_int Some (fun z => z) (fun z => z) Z.sub (lit "8888").
Definition day_files (row : str) : option str * option str := (Some (asset_file [row]), Some (position_file held1)).
Definition given_day := day_files (lit "8888,,1000,300,500").
Definition blank_day := day_files (lit "8888,,1000,,500").
Definition zero_day := day_files (lit "8888,,1000,0,500").
Theorem C113_refuted : ~ blank_keeps /\ ~ given_shown /\
  (* not even a number: nan stays when the cash is used up *)
  m_avail (zsyncs [given_day; blank_day; zero_day; zero_day]) = NaN.
Proof.
  split; [|split; [|vm_compute; reflexivity]].
  - intros H. specialize (H Z py_int py_int Some (fun z => z) (fun z => z) Z.sub (lit "8888") [given_day] blank_day).
    assert (G : gave py_int py_int Some (fun z => z) (fun z => z) Z.sub (lit "8888") bc_avail blank_day None) by (eexists _, _; split; [vm_compute; reflexivity|reflexivity]).
    specialize (H G). vm_compute in H. discriminate.
  - intros H. specialize (H Z py_int py_int Some (fun z => z) (fun z => z) Z.sub (lit "8888") [given_day] zero_day 0).
    assert (G : gave py_int py_int Some (fun z => z) (fun z => z) Z.sub (lit "8888") bc_avail zero_day (Some 0)) by (eexists _, _; split; [vm_compute; reflexivity|reflexivity]).
    specialize (H G). vm_compute in H. discriminate.
Qed.
Print Assumptions C113_refuted.
Example C113_demo :
  zsyncs [given_day] = Money (Num 1000) (Num 300) (Num 200) /\ zsyncs [given_day; zero_day] = Money (Num 1000) (Num 300) (Num 500) /\
  zsyncs [given_day; blank_day] = Money (Num 1000) NaN NaN /\ zsyncs [blank_day; given_day; (None, None)] = Money (Num 1000) (Num 300) (Num 200).
Proof. vm_compute. repeat split. Qed.
Example C113_demo_blank : exists df sel older r, read_csv_q (fst blank_day) = Ok df /\
  (forall r, In r (fr_rows df) -> (sel r = true <-> of_account df (lit "8888") r /\ ~ exists s, field_of df r (lit "exchange") (Some s))) /\
  filter sel (fr_rows df) = older ++ [r] /\ field_of df r (lit "enabledBalance") None.
Proof.
  eexists. exists (fun r => own (Frame [lit "acct"; lit "exchange"; lit "totalAsset"; lit "enabledBalance"; lit "currentBalance"] []) (lit "8888") r &&
    negb (has_text (Frame [lit "acct"; lit "exchange"; lit "totalAsset"; lit "enabledBalance"; lit "currentBalance"] []) (lit "exchange") r)), [], [Some (lit "8888"); None; Some (lit "1000"); None; Some (lit "500")].
  split; [vm_compute; reflexivity|]. split; [|split; [vm_compute; reflexivity|]].
  - intros r _. rewrite andb_true_iff, negb_true_iff, <- not_true_iff_false, own_spec, has_text_spec. reflexivity.
  - exists 3%nat. split; [reflexivity|]. split; [|reflexivity]. intros [|[|[|j]]] Hj; try discriminate. lia.
Qed.
