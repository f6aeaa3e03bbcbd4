(** Lemmas for C44. *)
From Verif Require Import PyBase PyStr MOrder MAccount MGate MBalance SBalance LStr LGate.
Open Scope list_scope.

Lemma split_lines_ne s : split_lines s <> [].
Proof. destruct s as [|c s]; cbn; [discriminate|]. destruct ((c =? NL) || (c =? CR))%N; [discriminate|]. destruct (split_lines s); discriminate. Qed.
Lemma split_lines_glue p q : exists i a b post, split_lines p = i ++ [a] /\ split_lines q = b :: post /\ split_lines (p ++ q) = i ++ (a ++ b) :: post.
Proof.
  induction p as [|c p (i & a & b & post & E1 & E2 & E3)].
  - destruct (split_lines q) as [|b post] eqn:E; [exfalso; exact (split_lines_ne q E)|]. exists [], [], b, post. cbn. auto.
  - cbn [app split_lines]. rewrite E1, E3. destruct ((c =? NL) || (c =? CR))%N.
    + exists ([] :: i), a, b, post. auto.
    + destruct i as [|x i]; cbn [app]; [exists [], (c :: a), b, post; auto|exists ((c :: x) :: i), a, b, post; auto].
Qed.
Lemma split_on_glue c p q : exists i a b post, split_on c p = i ++ [a] /\ split_on c q = b :: post /\ split_on c (p ++ q) = i ++ (a ++ b) :: post.
Proof.
  induction p as [|x p (i & a & b & post & E1 & E2 & E3)].
  - destruct (split_on c q) as [|b post] eqn:E; [exfalso; exact (split_on_nonempty c q E)|]. exists [], [], b, post. cbn. auto.
  - cbn [app split_on]. rewrite E1, E3. destruct (x =? c)%N.
    + exists ([] :: i), a, b, post. auto.
    + destruct i as [|y i]; cbn [app]; [exists [], (x :: a), b, post; auto|exists ((x :: y) :: i), a, b, post; auto].
Qed.

Lemma na_same s : In s na_values <-> In s blank_texts.
Proof.
  assert (X : forallb (fun v => memb v blank_texts) na_values = true) by (vm_compute; reflexivity).
  assert (Y : forallb (fun v => memb v na_values) blank_texts = true) by (vm_compute; reflexivity).
  rewrite forallb_forall in X, Y. split; intros H; [apply X in H|apply Y in H]; apply memb_In, H.
Qed.
Lemma is_na_iff s : is_na s = true <-> In s blank_texts.
Proof. rewrite <- na_same. unfold is_na. apply memb_In. Qed.
Lemma rows_app n l1 l2 rs : csv_rows n (l1 ++ l2) = Ok rs -> exists r1 r2, csv_rows n l1 = Ok r1 /\ csv_rows n l2 = Ok r2 /\ rs = r1 ++ r2.
Proof.
  revert rs. induction l1 as [|l l1 IH]; intros rs E; cbn [app csv_rows] in *; [exists [], rs; auto|].
  destruct (csv_row n l) as [r|]; [|discriminate]. cbn [rbind] in *. destruct (csv_rows n (l1 ++ l2)) as [rs'|]; [|discriminate]. cbn [rbind] in E. apply Ok_inj in E. subst rs.
  destruct (IH rs' eq_refl) as (r1 & r2 & E1 & E2 & E3). rewrite E1. cbn [rbind]. exists (r :: r1), r2. split; [reflexivity|]. split; [exact E2|]. rewrite E3. reflexivity.
Qed.
Lemma rows_app_ok n l1 l2 r1 r2 : csv_rows n l1 = Ok r1 -> csv_rows n l2 = Ok r2 -> csv_rows n (l1 ++ l2) = Ok (r1 ++ r2).
Proof.
  revert r1. induction l1 as [|l l1 IH]; intros r1 E1 E2; cbn [app csv_rows] in *; [apply Ok_inj in E1; subst; exact E2|].
  destruct (csv_row n l) as [r|]; [|discriminate]. cbn [rbind] in *. destruct (csv_rows n l1) as [rs'|]; [|discriminate]. cbn [rbind] in E1. apply Ok_inj in E1. subst r1.
  rewrite (IH rs' eq_refl E2). reflexivity.
Qed.
Lemma row_none n l r : csv_row n l = Ok r -> forallb is_none r = true <-> empty_record l.
Proof.
  unfold csv_row, empty_record. destruct (Nat.ltb n (length (split_on COMMA l))); [discriminate|]. intro E. apply Ok_inj in E. subst r.
  rewrite forallb_app. split.
  - intro H. apply andb_prop in H. destruct H as [H _]. apply Forall_forall. intros w Hw. rewrite forallb_forall in H. specialize (H (field w) (in_map _ _ _ Hw)).
    unfold field in H. destruct (is_na w) eqn:E; [apply is_na_iff, E|discriminate].
  - intro H. apply andb_true_intro. split.
    + apply forallb_forall. intros o Ho. apply in_map_iff in Ho. destruct Ho as (w & <- & Hw). rewrite Forall_forall in H. apply H, is_na_iff in Hw. unfold field. rewrite Hw. reflexivity.
    + apply forallb_forall. intros o Ho. apply repeat_spec in Ho. subst. reflexivity.
Qed.
Lemma row_none_eq n l r : csv_row n l = Ok r -> forallb is_none r = true -> r = repeat None n.
Proof.
  unfold csv_row. destruct (Nat.ltb_spec n (length (split_on COMMA l))) as [|L]; [discriminate|]. intro E. apply Ok_inj in E. subst r. intro H.
  assert (G : forall k (x : list (option str)), forallb is_none x = true -> length x = k -> x = repeat None k).
  { clear. intro k. induction k as [|k IH]; intros [|[s|] x] Hx Hl; cbn in *; try discriminate; [reflexivity|]. f_equal. apply IH; [exact Hx|lia]. }
  apply G; [exact H|]. rewrite app_length, map_length, repeat_length. lia.
Qed.

(** what is read *)
Lemma read_iff text df : read_csv (Some text) = Ok df <->
  exists h ls l r rs, csv_records text = h :: ls ++ [l] /\ csv_rows (length (split_on COMMA h)) ls = Ok rs /\ csv_row (length (split_on COMMA h)) l = Ok r /\
    forallb is_none r = true /\ df = Frame (split_on COMMA h) (rs ++ [r]).
Proof.
  unfold read_csv, pd_read_csv. split.
  - intro E. destruct (csv_records text) as [|h ls]; [discriminate|]. destruct (csv_rows (length (split_on COMMA h)) ls) as [rs|] eqn:Er; [|discriminate]. cbn [rbind fr_rows] in E.
    destruct (rev rs) as [|r rr] eqn:Ev; [discriminate|]. destruct (forallb is_none r) eqn:En; [|discriminate]. apply Ok_inj in E. subst df.
    assert (rs = rev rr ++ [r]) by (rewrite <- (rev_involutive rs), Ev; reflexivity). subst rs.
    destruct ls as [|l0 ls0] using rev_ind; [cbn in Er; apply Ok_inj in Er; destruct (rev rr); discriminate|]. clear IHls0.
    destruct (rows_app _ _ _ _ Er) as (r1 & r2 & E1 & E2 & E3). cbn [csv_rows] in E2. destruct (csv_row (length (split_on COMMA h)) l0) as [r'|] eqn:Erow; [|discriminate].
    cbn in E2. apply Ok_inj in E2. subst r2. apply app_inj_tail in E3. destruct E3 as [<- <-].
    exists h, ls0, l0, r, (rev rr). auto.
  - intros (h & ls & l & r & rs & E1 & E2 & E3 & E4 & ->). rewrite E1. rewrite (rows_app_ok _ ls [l] rs [r] E2) by (cbn [csv_rows]; rewrite E3; reflexivity).
    cbn [rbind fr_rows]. rewrite rev_app_distr. cbn [rev app]. rewrite E4. reflexivity.
Qed.
Lemma read_last text df l : read_csv (Some text) = Ok df -> (exists i, csv_records text = i ++ [l]) -> empty_record l.
Proof.
  intros E (i & Ei). apply read_iff in E. destruct E as (h & ls & l' & r & rs & E1 & _ & E3 & E4 & _). rewrite E1 in Ei.
  change (h :: ls ++ [l']) with ((h :: ls) ++ [l']) in Ei. apply app_inj_tail in Ei. destruct Ei as [_ <-]. apply (row_none _ _ _ E3), E4.
Qed.
Lemma read_two text df : read_csv (Some text) = Ok df -> (2 <= length (csv_records text))%nat.
Proof. intro E. apply read_iff in E. destruct E as (h & ls & l & r & rs & E & _). rewrite E. cbn. rewrite app_length. cbn. lia. Qed.

Lemma first_solid l : solid (first_field l) -> ~ empty_record l.
Proof.
  unfold first_field, empty_record. intros [N S] E. destruct (split_on COMMA l) as [|w ws] eqn:X; [exact (split_on_nonempty _ _ X)|]. cbn in *.
  inversion E; subst. eapply S; [symmetry; apply app_nil_r|exact N|assumption].
Qed.
Lemma first_prefix a b : a <> [] -> solid (first_field (a ++ b)) -> ~ empty_record a.
Proof.
  intros Na [N S] E. unfold empty_record in E. destruct (split_on_glue COMMA a b) as (i & x & y & post & E1 & E2 & E3). unfold first_field in *. rewrite E1 in E. rewrite E3 in *.
  destruct i as [|w i]; cbn [app hd] in *.
  - apply Forall_inv in E. assert (x = a) by (rewrite <- (join_split COMMA a), E1; reflexivity). subst x. eapply S; [reflexivity|exact Na|exact E].
  - apply Forall_inv in E. eapply S; [symmetry; apply app_nil_r|exact N|exact E].
Qed.
Lemma prefix_width a b : (length (split_on COMMA a) <= length (split_on COMMA (a ++ b)))%nat.
Proof. destruct (split_on_glue COMMA a b) as (i & x & y & post & E1 & E2 & E3). rewrite E1, E3, !app_length. cbn. lia. Qed.

Lemma filter_split {A} (f : A -> bool) i x post : filter f (i ++ x :: post) = filter f i ++ filter f [x] ++ filter f post.
Proof. rewrite filter_app. cbn. destruct (f x); reflexivity. Qed.

Lemma prefix_cases {A} (R T : list A) ls l : ls ++ [l] = R ++ T -> (R = ls ++ [l] /\ T = []) \/ exists T', ls = R ++ T' /\ T = T' ++ [l].
Proof.
  intro E. destruct T as [|t T] using rev_ind; [left; rewrite app_nil_r in E; auto|]. right. rewrite app_assoc in E. apply app_inj_tail in E. destruct E as [-> ->]. eauto.
Qed.

Theorem truncated text df p q h ls l :
  csv_records text = h :: ls ++ [l] -> Forall (fun r => solid (first_field r)) ls ->
  read_csv (Some text) = Ok df -> text = p ++ q ->
  (exists x, read_csv (Some p) = Err x) \/ read_csv (Some p) = Ok df.
Proof.
  intros Er Hs E ->. destruct (read_csv (Some p)) as [df'|x] eqn:Ep; [right|left; eauto]. f_equal.
  assert (Er0 := Er). destruct (split_lines_glue p q) as (i & a & b & post & E1 & E2 & E3). unfold csv_records in Er. rewrite E3, filter_split in Er.
  pose proof (read_two _ _ Ep) as L2. pose proof (fun l => read_last p df' l Ep) as Hl. 
  assert (Rp : csv_records p = filter (fun l => negb (blank_line l)) i ++ filter (fun l => negb (blank_line l)) [a]) by (unfold csv_records; rewrite E1, filter_app; reflexivity).
  remember (filter (fun l0 => negb (blank_line l0)) i) as R eqn:HR. clear HR.
  remember (filter (fun l0 => negb (blank_line l0)) post) as T eqn:HT. clear HT.
  assert (Main : csv_records p = h :: ls ++ [l] \/ exists r, csv_records p = h :: ls ++ [r] /\ exists t, l = r ++ t).
  { destruct (blank_line a) eqn:Ba; cbn [filter negb] in Rp; rewrite Ba in Rp; cbn [negb] in Rp.
    - (* the cut is at the beginning of a line *)
      rewrite app_nil_r in Rp. rewrite Rp in *. destruct R as [|h' R]; [cbn in L2; lia|]. cbn [app] in Er. injection Er as -> Er.
      symmetry in Er. destruct (prefix_cases R _ ls l Er) as [[-> _]|(T' & -> & _)]; [left; reflexivity|].
      exfalso. destruct R as [|r R] using rev_ind; [cbn in L2; lia|]. clear IHR.
      apply (first_solid r); [|apply Hl; exists (h :: R); reflexivity].
      apply Forall_app in Hs. destruct Hs as [Hs _]. apply Forall_app in Hs. destruct Hs as [_ Hs]. apply Forall_inv in Hs. exact Hs.
    - assert (Na : a <> []) by (intros ->; discriminate).
      assert (Bab : blank_line (a ++ b) = false) by (unfold blank_line in *; rewrite forallb_app, Ba; reflexivity).
      cbn [filter] in Er. rewrite Bab in Er. cbn [negb app] in Er. rewrite Rp in *. destruct R as [|h' R]; [cbn in L2; lia|]. cbn [app] in Er. injection Er as -> Er.
      change (R ++ (a ++ b) :: T) with (R ++ [a ++ b] ++ T) in Er. rewrite app_assoc in Er. symmetry in Er.
      destruct (prefix_cases (R ++ [a ++ b]) T ls l Er) as [[X _]|(T' & X & _)].
      + apply app_inj_tail in X. destruct X as [-> <-]. right. exists a. split; [reflexivity|eauto].
      + exfalso. rewrite X in Hs. apply Forall_app in Hs. destruct Hs as [Hs _]. apply Forall_app in Hs. destruct Hs as [_ Hs]. apply Forall_inv in Hs.
        eapply first_prefix; [exact Na|exact Hs|]. apply Hl. exists (h :: R). reflexivity. }
  clear Er Rp E1 E2 E3. apply read_iff in E. destruct E as (h0 & ls0 & l0 & r & rs & E1 & E2 & E3 & E4 & ->).
  apply read_iff in Ep. destruct Ep as (h1 & ls1 & l1 & r1 & rs1 & F1 & F2 & F3 & F4 & ->).
  assert (Inv : forall (x x' : str) (y y' : list str) (z z' : str), x :: y ++ [z] = x' :: y' ++ [z'] -> x = x' /\ y = y' /\ z = z').
  { intros x x' y y' z z' X. injection X as -> X. apply app_inj_tail in X. tauto. }
  rewrite Er0 in E1. apply Inv in E1. destruct E1 as (<- & <- & <-).
  destruct Main as [M|(t & M & _)]; rewrite F1 in M; apply Inv in M; destruct M as (-> & -> & ->); rewrite E2 in F2; apply Ok_inj in F2; subst rs1.
  - rewrite E3 in F3. apply Ok_inj in F3. subst r1. reflexivity.
  - rewrite (row_none_eq _ _ _ E3 E4), (row_none_eq _ _ _ F3 F4). reflexivity.
Qed.

Lemma digits_solid w : w <> [] -> Forall (fun c => is_digit c = true) w -> solid w.
Proof.
  intros N D. split; [exact N|]. intros p q -> Np H. apply Forall_app in D. destruct D as [D _].
  assert (X : forallb (fun v => match v with [] => true | _ => negb (forallb is_digit v) end) blank_texts = true) by (vm_compute; reflexivity).
  rewrite forallb_forall in X. specialize (X p H). destruct p as [|c p]; [contradiction|]. apply negb_true_iff in X.
  rewrite Forall_forall in D. assert (forallb is_digit (c :: p) = true) by (apply forallb_forall; exact D). congruence.
Qed.

(** ** the fields of a record *)

Lemma index_of_spec name cols i : index_of name cols = Some i <-> nth_error cols i = Some name /\ forall j, (j < i)%nat -> nth_error cols j <> Some name.
Proof.
  revert i. induction cols as [|c cols IH]; intro i; cbn [index_of].
  - split; [discriminate|]. intros [E _]. destruct i; discriminate.
  - destruct (eqb_spec name c) as [->|N].
    + split.
      * intro E. injection E as <-. split; [reflexivity|]. intros j L. lia.
      * intros [E H]. destruct i as [|i]; [reflexivity|]. exfalso. apply (H O); [lia|reflexivity].
    + destruct (index_of name cols) as [k|] eqn:E; cbn [option_map].
      * split.
        -- intro X. injection X as <-. destruct (proj1 (IH k) eq_refl) as [E1 E2].
           split; [exact E1|]. intros [|j] L X; cbn in X; [congruence|]. apply (E2 j); [lia|exact X].
        -- intros [X H]. destruct i as [|i]; cbn in X; [congruence|]. f_equal. f_equal.
           assert (Y : Some k = Some i); [|congruence]. apply IH. split; [exact X|]. intros j L Y. apply (H (S j)); [lia|exact Y].
      * split; [discriminate|]. intros [X H]. destruct i as [|i]; cbn in X; [congruence|].
        assert (Y : None = Some i); [|discriminate]. apply IH. split; [exact X|]. intros j L Y. apply (H (S j)); [lia|exact Y].
Qed.
Lemma field_of_index df r name v : field_of df r name v <-> exists i, index_of name (fr_cols df) = Some i /\ nth i r None = v.
Proof.
  unfold field_of. split.
  - intros (i & A & B & C). exists i. split; [apply index_of_spec; split; assumption|exact C].
  - intros (i & A & C). apply index_of_spec in A as [A B]. exists i. auto.
Qed.
Lemma own_spec df acct r : own df acct r = true <-> of_account df acct r.
Proof.
  unfold own, of_account. rewrite field_of_index. destruct (index_of (lit "acct") (fr_cols df)) as [i|].
  - split; [intro E; exists i; split; [reflexivity|apply eqb_true, E]|]. intros (j & E & H). injection E as <-. rewrite H. apply eqb_refl.
  - split; [discriminate|]. intros (j & E & _). discriminate.
Qed.
Lemma has_text_spec df name r : has_text df name r = true <-> exists s, field_of df r name (Some s).
Proof.
  unfold has_text. split.
  - destruct (index_of name (fr_cols df)) as [i|] eqn:E; [|discriminate]. destruct (nth i r None) as [s|] eqn:E2; [|discriminate].
    intros _. exists s. apply field_of_index. eauto.
  - intros (s & H). apply field_of_index in H as (i & -> & ->). reflexivity.
Qed.

Section Values.
  Context {F : Type} (pnum pyfloat : str -> option F) (trunc : F -> option Z) (round4 round3 : F -> Z) (minus : F -> F -> F).

  Lemma numeric_spec df name i : index_of name (fr_cols df) = Some i -> (numeric pnum (texts i df) = true <-> number_column pnum df name).
  Proof.
    intro Ei. unfold numeric, texts, number_column. rewrite forallb_forall. split.
    - intros H r s Hr Hf. apply field_of_index in Hf as (j & Ej & E). rewrite Ei in Ej. injection Ej as <-.
      specialize (H (nth i r None) (in_map (fun r => nth i r None) _ _ Hr)). rewrite E in H. destruct (pnum s); [eauto|discriminate].
    - intros H o Ho. apply in_map_iff in Ho as (r & <- & Hr). destruct (nth i r None) as [s|] eqn:E; [|reflexivity].
      destruct (H r s Hr) as (f & ->); [apply field_of_index; eauto|reflexivity].
  Qed.
  Lemma num_cell_spec df r name c : num_cell pnum df r name = Ok c -> In r (fr_rows df) ->
    match c with
    | CNan => field_of df r name None
    | CNum f => exists s, field_of df r name (Some s) /\ number_column pnum df name /\ pnum s = Some f
    | CStr s => field_of df r name (Some s) /\ ~ number_column pnum df name
    end.
  Proof.
    unfold num_cell. destruct (index_of name (fr_cols df)) as [i|] eqn:Ei; [|discriminate]. intros E Hr.
    destruct (nth i r None) as [s|] eqn:En; [|apply Ok_inj in E; subst c; apply field_of_index; eauto].
    destruct (numeric pnum (texts i df)) eqn:Ec.
    - assert (Ec' := Ec). apply (numeric_spec df name i Ei) in Ec. destruct (Ec r s Hr) as (f & Ef); [apply field_of_index; eauto|]. rewrite Ef in E. apply Ok_inj in E. subst c.
      exists s. split; [apply field_of_index; eauto|]. split; [exact Ec|exact Ef].
    - apply Ok_inj in E. subst c. split; [apply field_of_index; eauto|]. intro N. apply (numeric_spec df name i Ei) in N. congruence.
  Qed.
  Lemma int_of_spec df r name z : int_of pnum trunc df r name = Ok z -> In r (fr_rows df) -> int_value pnum trunc df r name z.
  Proof.
    unfold int_of. destruct (num_cell pnum df r name) as [c|] eqn:E; [|discriminate]. cbn [rbind]. intros Ec Hr. apply num_cell_spec in E; [|exact Hr].
    destruct c as [|f|s]; cbn [as_int] in Ec; [discriminate| |].
    - destruct E as (s & A & B & C). destruct (trunc f) as [z'|] eqn:Et; [|discriminate]. apply Ok_inj in Ec. subst z'. exists s. eauto 6.
    - destruct E as [A B]. destruct (py_int s) as [z'|] eqn:Et; [|discriminate]. apply Ok_inj in Ec. subst z'. exists s. auto.
  Qed.
  Lemma field_of_det df r name v v' : field_of df r name v -> field_of df r name v' -> v = v'.
  Proof. rewrite !field_of_index. intros (i & A & B) (j & C & D). rewrite A in C. injection C as <-. congruence. Qed.
  Lemma int_value_det df r name z z' : int_value pnum trunc df r name z -> int_value pnum trunc df r name z' -> z = z'.
  Proof.
    intros (s & A & B) (s' & A' & B'). assert (E : Some s = Some s') by (eapply field_of_det; eassumption). injection E as <-.
    destruct B as [(N & f & P & T)|(N & P)], B' as [(N' & f' & P' & T')|(N' & P')]; try contradiction; congruence.
  Qed.
  Lemma float_of_spec df r name o : float_of pnum pyfloat df r name = Ok o -> In r (fr_rows df) -> float_value pnum pyfloat df r name o.
  Proof.
    unfold float_of. destruct (num_cell pnum df r name) as [c|] eqn:E; [|discriminate]. cbn [rbind]. intros Ec Hr. apply num_cell_spec in E; [|exact Hr].
    destruct c as [|f|s]; cbn [as_float] in Ec.
    - apply Ok_inj in Ec. subst o. exact E.
    - apply Ok_inj in Ec. subst o. destruct E as (s & A & B & C). exists s. auto.
    - destruct E as [A B]. destruct (pyfloat s) as [f|] eqn:Ef; [|discriminate]. apply Ok_inj in Ec. subst o. exists s. auto.
  Qed.
  Lemma pos_of_spec df r sym p : In r (fr_rows df) -> str_cell df r (lit "symbol") = Ok (Some sym) ->
    pos_of pnum pyfloat trunc round4 round3 df r sym = Ok p -> records_position pnum pyfloat trunc round4 round3 df r p.
  Proof.
    intros Hr Es E. unfold pos_of in E. destruct (decode sym) as [code|] eqn:Ed; [|discriminate]. cbn [rbind] in E.
    destruct (int_of pnum trunc df r (lit "currentQty")) as [n|] eqn:E1; [|discriminate]. cbn [rbind] in E.
    destruct (int_of pnum trunc df r (lit "enabledQty")) as [v|] eqn:E2; [|discriminate]. cbn [rbind] in E.
    destruct (float_of pnum pyfloat df r (lit "costPrice")) as [g|] eqn:E3; [|discriminate]. cbn [rbind] in E.
    destruct (float_of pnum pyfloat df r (lit "lastPrice")) as [l|] eqn:E4; [|discriminate]. cbn [rbind] in E.
    destruct (float_of pnum pyfloat df r (lit "mktValue")) as [w|] eqn:E5; [|discriminate]. cbn [rbind] in E. apply Ok_inj in E. subst p.
    unfold records_position. cbn [bp_code bp_amount bp_avail bp_avg bp_last bp_value].
    split; [exists sym; split; [|exact Ed]|].
    { unfold str_cell in Es. destruct (index_of (lit "symbol") (fr_cols df)) as [i|] eqn:Ei; [|discriminate]. apply Ok_inj in Es. apply field_of_index. eauto. }
    split; [apply int_of_spec; assumption|]. split; [apply int_of_spec; assumption|].
    split; [exists g; split; [apply float_of_spec; assumption|destruct g; reflexivity]|].
    split; [exists l; split; [apply float_of_spec; assumption|destruct l; reflexivity]|].
    exists w; split; [apply float_of_spec; assumption|destruct w; reflexivity].
  Qed.
  Lemma asset_of_spec df r c : In r (fr_rows df) -> asset_of pnum pyfloat round4 minus df r = Ok c -> records_cash pnum pyfloat round4 minus df r c.
  Proof.
    intros Hr E. unfold asset_of in E.
    destruct (float_of pnum pyfloat df r (lit "totalAsset")) as [t|] eqn:E1; [|discriminate]. cbn [rbind] in E.
    destruct (float_of pnum pyfloat df r (lit "enabledBalance")) as [e|] eqn:E2; [|discriminate]. cbn [rbind] in E.
    destruct (float_of pnum pyfloat df r (lit "currentBalance")) as [u|] eqn:E3; [|discriminate]. cbn [rbind] in E. apply Ok_inj in E. subst c.
    unfold records_cash. cbn [bc_total bc_avail bc_locked].
    split; [exists t; split; [apply float_of_spec; assumption|destruct t; reflexivity]|].
    split; [exists e; split; [apply float_of_spec; assumption|destruct e; reflexivity]|].
    exists u, e. split; [apply float_of_spec; assumption|]. split; [apply float_of_spec; assumption|reflexivity].
  Qed.
End Values.
