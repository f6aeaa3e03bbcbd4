(** Theorems for C44. *)
From Verif Require Import PyBase PyStr MOrder MAccount MGate MBalance SBalance LStr LGate LBalance.
Open Scope list_scope.
Open Scope Z_scope.

(** A file is accepted exactly if it has a header and records none of which is wider, the
    last of them empty. *)
Theorem C122_accepted :
  forall text, (exists df, read_csv (Some text) = Ok df) <->
    exists h ls l, csv_records text = h :: ls ++ [l] /\ empty_record l /\
      Forall (fun r => (length (split_on COMMA r) <= length (split_on COMMA h))%nat) (ls ++ [l]).
Proof.
  assert (W : forall n l, (exists r, csv_row n l = Ok r) <-> (length (split_on COMMA l) <= n)%nat).
  { intros n l. unfold csv_row. destruct (Nat.ltb_spec n (length (split_on COMMA l))); split; intro H'; try lia; [destruct H'; discriminate|eauto]. }
  assert (Ws : forall n ls, (exists rs, csv_rows n ls = Ok rs) <-> Forall (fun r => (length (split_on COMMA r) <= n)%nat) ls).
  { intros n ls. induction ls as [|l ls IH]; cbn [csv_rows]; [split; eauto|]. split.
    - intros (rs & E). destruct (csv_row n l) as [r|] eqn:Er; [|discriminate]. cbn [rbind] in E. destruct (csv_rows n ls) as [rs'|]; [|discriminate].
      constructor; [apply W; eauto|apply IH; eauto].
    - intro H. inversion H as [|? ? H1 H2]; subst. apply W in H1. destruct H1 as (r & ->). apply IH in H2. destruct H2 as (rs & ->). cbn. eauto. }
  intro text. split.
  - intros (df & E). apply read_iff in E. destruct E as (h & ls & l & r & rs & E1 & E2 & E3 & E4 & _). exists h, ls, l. split; [exact E1|].
    split; [apply (row_none _ _ _ E3), E4|]. apply Forall_app. split; [apply Ws; eauto|]. constructor; [apply W; eauto|constructor].
  - intros (h & ls & l & E1 & E2 & E3). apply Forall_app in E3. destruct E3 as [E3 E4]. apply Ws in E3. destruct E3 as (rs & E3). apply Forall_inv, W in E4. destruct E4 as (r & E4).
    exists (Frame (split_on COMMA h) (rs ++ [r])). apply read_iff. exists h, ls, l, r, rs. pose proof (proj2 (row_none _ _ _ E4) E2). auto.
Qed.
Print Assumptions C122_accepted.

(** Proved if no data record starts with a field that is empty or begins like "nan": a
    file cut anywhere is rejected, unless only (part of) the last, empty record is missing;
    then the same data is read. *)
Theorem C44_truncated_partial :
  forall text df p q h ls l,
    csv_records text = h :: ls ++ [l] -> Forall (fun r => solid (first_field r)) ls -> read_csv (Some text) = Ok df -> text = p ++ q ->
    (exists x, read_csv (Some p) = Err x) \/ read_csv (Some p) = Ok df.
Proof. exact truncated. Qed.
Print Assumptions C44_truncated_partial.
(** in particular if the first column holds numbers, e.g. the account *)
Theorem C44_truncated_number_partial :
  forall text df p q h ls l,
    csv_records text = h :: ls ++ [l] ->
    Forall (fun r => first_field r <> [] /\ Forall (fun c => is_digit c = true) (first_field r)) ls ->
    read_csv (Some text) = Ok df -> text = p ++ q -> (exists x, read_csv (Some p) = Err x) \/ read_csv (Some p) = Ok df.
Proof.
  intros text df p q h ls l Er Hs. apply (truncated text df p q h ls l Er). revert Hs. apply Forall_impl. intros r [A B]. apply digits_solid; assumption.
Qed.
Print Assumptions C44_truncated_number_partial.

Section Reports.
  Context (F : Type) (pnum pyfloat : str -> option F) (trunc : F -> option Z) (round4 round3 : F -> Z) (minus : F -> F -> F).
  Notation sync := (sync_balance pnum pyfloat trunc round4 round3 minus).
  Notation qty df r := (int_of pnum trunc df r (lit "currentQty")).

  (** the whole call, both files cut anywhere *)
  Theorem C44_sync_truncated_partial :
    forall acct ta tp pa qa pp qp adf pdf ha la ea hp lp ep,
      csv_records ta = ha :: la ++ [ea] -> Forall (fun r => solid (first_field r)) la -> read_csv (Some ta) = Ok adf ->
      csv_records tp = hp :: lp ++ [ep] -> Forall (fun r => solid (first_field r)) lp -> read_csv (Some tp) = Ok pdf ->
      ta = pa ++ qa -> tp = pp ++ qp ->
      (exists x, sync acct (Some pa) (Some pp) = Err x) \/ sync acct (Some pa) (Some pp) = sync acct (Some ta) (Some tp).
  Proof.
    intros acct ta tp pa qa pp qp adf pdf ha la ea hp lp ep A1 A2 A3 P1 P2 P3 Ea Ep.
    destruct (truncated _ _ _ _ _ _ _ A1 A2 A3 Ea) as [(x & Xa)|Xa]; unfold sync_balance; rewrite Xa, A3.
    - left. destruct acct; cbn; eauto.
    - destruct (truncated _ _ _ _ _ _ _ P1 P2 P3 Ep) as [(x & Xp)|Xp]; rewrite Xp, P3; [|right; reflexivity].
      left. destruct acct; [eauto|]. cbn [rbind]. destruct (fr_rows adf); [eauto|].
      match goal with |- context [rbind ?e _] => destruct e end; cbn; eauto.
  Qed.

  Lemma positions_rows :
    forall acct afile pfile df cash ps, sync acct afile pfile = Ok (cash, ps) -> read_csv pfile = Ok df ->
      Forall2 (fun r p => exists sym, str_cell df r (lit "symbol") = Ok (Some sym) /\ pos_of pnum pyfloat trunc round4 round3 df r sym = Ok p)
        (filter (fun r => own df acct r && match qty df r with Ok q => negb (q =? 0) | Err _ => false end)
                (rows_before (fun r => own df acct r && negb (has_text df (lit "symbol") r)) (fr_rows df))) ps.
  Proof.
    intros acct afile pfile df cash ps E Er. unfold sync_balance in E. destruct afile as [at_|]; [|discriminate]. 
    match type of E with match acct with [] => _ | _ :: _ => ?B end = ?R => assert (E' : B = R) by (destruct acct; [discriminate|exact E]); clear E; rename E' into E end.
    destruct (read_csv (Some at_)) as [adf|]; [|discriminate]. cbn [rbind] in E. destruct (fr_rows adf) eqn:Ea; [discriminate|]. rewrite <- Ea in E.
    destruct (asset_loop _ _ _ _ _ _ _ _) as [c|]; [|discriminate]. cbn [rbind] in E. destruct pfile as [pt|]; [|discriminate]. rewrite Er in E. cbn [rbind] in E.
    destruct (pos_loop pnum pyfloat trunc round4 round3 df acct (fr_rows df)) as [ps'|] eqn:Ep; [|discriminate]. cbn [rbind] in E. apply Ok_inj in E. injection E as _ ->. clear - Ep.
    revert ps Ep. induction (fr_rows df) as [|r rs IH]; intros ps E; cbn [pos_loop rows_before] in *; [apply Ok_inj in E; subst; constructor|].
    unfold str_cell at 1 in E. destruct (index_of (lit "acct") (fr_cols df)) as [i|] eqn:Ei; [|discriminate]. cbn [rbind] in E.
    assert (Ow : own df acct r = eqb (nth i r None) (Some acct)) by (unfold own; rewrite Ei; reflexivity). rewrite Ow.
    destruct (eqb (nth i r None) (Some acct)) eqn:Eo; cbn [negb andb] in *.
    2:{ cbn [filter]. rewrite Ow. cbn [andb]. apply IH, E. }
    unfold str_cell at 1 in E. destruct (index_of (lit "symbol") (fr_cols df)) as [j|] eqn:Ej; [|discriminate]. cbn [rbind] in E.
    assert (Ht : has_text df (lit "symbol") r = negb (is_none (nth j r None))) by (unfold has_text; rewrite Ej; reflexivity). rewrite Ht.
    destruct (nth j r None) as [sym|] eqn:Es; cbn [is_none negb] in *; [|apply Ok_inj in E; subst; constructor].
    cbn [filter]. rewrite Ow. cbn [andb]. destruct (qty df r) as [q|]; [|discriminate]. cbn [rbind] in E. destruct (q =? 0); cbn [negb].
    - apply IH, E.
    - destruct (pos_of _ _ _ _ _ df r sym) as [p|] eqn:Ep; [|discriminate]. cbn [rbind] in E. destruct (pos_loop _ _ _ _ _ _ _ rs) as [ps'|]; [|discriminate]. cbn [rbind] in E. apply Ok_inj in E. subst ps.
      constructor; [|apply IH; reflexivity]. exists sym. split; [|exact Ep]. unfold str_cell. rewrite Ej, Es. reflexivity.
  Qed.
  (** every quantity before the end was read *)
  Lemma quantities_read acct afile pfile df cash ps ended r :
    sync acct afile pfile = Ok (cash, ps) -> read_csv pfile = Ok df ->
    (forall r, In r (fr_rows df) -> (ended r = true <-> of_account df acct r /\ ~ exists s, field_of df r (lit "symbol") (Some s))) ->
    In r (rows_before ended (fr_rows df)) -> own df acct r = true -> ~ exists x, qty df r = Err x.
  Proof.
    intros E Er Hend Hin Ho. unfold sync_balance in E. destruct afile as [at_|]; [|discriminate]. 
    match type of E with match acct with [] => _ | _ :: _ => ?B end = ?R => assert (E' : B = R) by (destruct acct; [discriminate|exact E]); clear E; rename E' into E end.
    destruct (read_csv (Some at_)) as [adf|]; [|discriminate]. cbn [rbind] in E. destruct (fr_rows adf) eqn:Ea; [discriminate|]. rewrite <- Ea in E.
    destruct (asset_loop _ _ _ _ _ _ _ _) as [c|]; [|discriminate]. cbn [rbind] in E. destruct pfile as [pt|]; [|discriminate]. rewrite Er in E. cbn [rbind] in E.
    destruct (pos_loop pnum pyfloat trunc round4 round3 df acct (fr_rows df)) as [ps'|] eqn:Ep; [|discriminate]. clear E. clear - Ep Hend Hin Ho.
    revert ps' Ep Hin. induction (fr_rows df) as [|r0 rs IH]; intros ps' E Hin; cbn [pos_loop rows_before] in *; [destruct Hin|].
    unfold str_cell at 1 in E. destruct (index_of (lit "acct") (fr_cols df)) as [i|] eqn:Ei; [|discriminate]. cbn [rbind] in E.
    assert (Ow : own df acct r0 = eqb (nth i r0 None) (Some acct)) by (unfold own; rewrite Ei; reflexivity).
    destruct (ended r0) eqn:Ee; [destruct Hin|].
    destruct (eqb (nth i r0 None) (Some acct)) eqn:Eo; cbn [negb andb] in *.
    2:{ destruct Hin as [->|Hin]; [congruence|]. exact (IH (fun r H => Hend r (or_intror H)) _ E Hin). }
    unfold str_cell at 1 in E. destruct (index_of (lit "symbol") (fr_cols df)) as [j|] eqn:Ej; [|discriminate]. cbn [rbind] in E.
    destruct (nth j r0 None) as [sym|] eqn:Es.
    2:{ exfalso. apply not_true_iff_false in Ee. apply Ee, Hend; [left; reflexivity|]. split; [apply own_spec, Ow|]. intros (s & H). apply field_of_index in H as (j' & E1 & E2). rewrite Ej in E1. injection E1 as <-. congruence. }
    destruct (qty df r0) as [q|] eqn:Eq; [|discriminate]. cbn [rbind] in E.
    destruct Hin as [<-|Hin]; [intros (x & X); congruence|].
    destruct (q =? 0); [exact (IH (fun r H => Hend r (or_intror H)) _ E Hin)|].
    destruct (pos_of _ _ _ _ _ df r0 sym) as [p|]; [|discriminate]. cbn [rbind] in E. destruct (pos_loop _ _ _ _ _ _ _ rs) as [ps2|]; [|discriminate]. exact (IH (fun r H => Hend r (or_intror H)) _ eq_refl Hin).
  Qed.
  (** The positions reported are, in file order, the records of the account with non-zero
      quantity, up to the account's first record without symbol (if any). *)
  Theorem C44_positions_partial :
    forall acct afile pfile df cash ps sel ended, sync acct afile pfile = Ok (cash, ps) -> read_csv pfile = Ok df ->
      (forall r, In r (fr_rows df) -> (sel r = true <-> of_account df acct r /\ held pnum trunc df r)) ->
      (forall r, In r (fr_rows df) -> (ended r = true <-> of_account df acct r /\ ~ exists s, field_of df r (lit "symbol") (Some s))) ->
      Forall2 (records_position pnum pyfloat trunc round4 round3 df) (filter sel (rows_before ended (fr_rows df))) ps.
  Proof.
    intros acct afile pfile df cash ps sel ended E Er Hsel Hend. assert (X := positions_rows acct afile pfile df cash ps E Er).
    assert (B1 : rows_before (fun r => own df acct r && negb (has_text df (lit "symbol") r)) (fr_rows df) = rows_before ended (fr_rows df)).
    { clear - Hend. induction (fr_rows df) as [|r rs IH]; [reflexivity|]. cbn [rows_before].
      replace (own df acct r && negb (has_text df (lit "symbol") r)) with (ended r); [rewrite IH; [reflexivity|intros; apply Hend; right; assumption]|].
      apply eq_true_iff_eq. rewrite (Hend r (or_introl eq_refl)), andb_true_iff, negb_true_iff, own_spec. rewrite <- (has_text_spec df (lit "symbol") r), not_true_iff_false. reflexivity. }
    rewrite B1 in X. clear B1.
    assert (I : forall r, In r (rows_before ended (fr_rows df)) -> In r (fr_rows df)).
    { clear. induction (fr_rows df) as [|r rs IH]; cbn [rows_before]; [tauto|]. intros r' H. destruct (ended r); [destruct H|]. destruct H as [->|H]; [left; reflexivity|right; apply IH, H]. }
    remember (rows_before ended (fr_rows df)) as rows eqn:Hrows.
    assert (F1 : filter (fun r => own df acct r && match qty df r with Ok q => negb (q =? 0) | Err _ => false end) rows = filter sel rows \/
      exists r, In r rows /\ own df acct r = true /\ exists x, qty df r = Err x).
    { clear X Hrows. induction rows as [|r rows IH]; [left; reflexivity|]. cbn [filter]. destruct IH as [IH|(r' & A & B)]; [intros; apply I; right; assumption| |right; exists r'; split; [right; exact A|exact B]].
      destruct (qty df r) as [q|x] eqn:Eq.
      - left. replace (sel r) with (own df acct r && negb (q =? 0)); [destruct (own df acct r && negb (q =? 0)); rewrite IH; reflexivity|].
        apply eq_true_iff_eq. rewrite (Hsel r (I r (or_introl eq_refl))), andb_true_iff, own_spec, negb_true_iff, Z.eqb_neq. split.
        + intros [A B]. split; [exact A|]. exists q. split; [apply int_of_spec; [exact Eq|apply I; left; reflexivity]|exact B].
        + intros [A (q' & B & C)]. split; [exact A|]. replace q with q'; [exact C|]. eapply int_value_det; [exact B|]. apply int_of_spec; [exact Eq|apply I; left; reflexivity].
      - destruct (own df acct r) eqn:Eo; [right; exists r; split; [left; reflexivity|]; eauto|]. left. cbn [andb].
        replace (sel r) with false; [exact IH|]. symmetry. apply not_true_iff_false. rewrite (Hsel r (I r (or_introl eq_refl))), <- own_spec. intros [A _]. congruence. }
    destruct F1 as [F1|F1].
    - rewrite F1 in X. clear F1. assert (I2 : forall r, In r (filter sel rows) -> In r (fr_rows df)) by (intros r H; apply I; apply filter_In in H; apply H).
      revert X I2. generalize (filter sel rows). clear. intros rs X. induction X as [|r p rs ps (sym & A & B) X IH]; intro I; constructor.
      + eapply pos_of_spec; [apply I; left; reflexivity|exact A|exact B].
      + apply IH. intros; apply I; right; assumption.
    - exfalso. destruct F1 as (r & A & B & x & C). rewrite Hrows in A. exact (quantities_read acct afile pfile df cash ps ended r E Er Hend A B (ex_intro _ x C)).
  Qed.
  (** hence all of them if every record of the account has a symbol *)
  Theorem C44_all_positions_partial :
    forall acct afile pfile df cash ps sel, sync acct afile pfile = Ok (cash, ps) -> read_csv pfile = Ok df ->
      (forall r, In r (fr_rows df) -> (sel r = true <-> of_account df acct r /\ held pnum trunc df r)) ->
      (forall r, In r (fr_rows df) -> of_account df acct r -> exists s, field_of df r (lit "symbol") (Some s)) ->
      Forall2 (records_position pnum pyfloat trunc round4 round3 df) (filter sel (fr_rows df)) ps.
  Proof.
    intros acct afile pfile df cash ps sel E Er Hsel H.
    set (ended := fun r => own df acct r && negb (has_text df (lit "symbol") r)).
    assert (Hend : forall r, In r (fr_rows df) -> (ended r = true <-> of_account df acct r /\ ~ exists s, field_of df r (lit "symbol") (Some s))).
    { intros r _. unfold ended. rewrite andb_true_iff, negb_true_iff, own_spec, <- (has_text_spec df (lit "symbol") r), not_true_iff_false. reflexivity. }
    assert (X := C44_positions_partial acct afile pfile df cash ps sel ended E Er Hsel Hend).
    replace (rows_before ended (fr_rows df)) with (fr_rows df) in X; [exact X|].
    clear - H Hend. induction (fr_rows df) as [|r rs IH]; [reflexivity|]. cbn [rows_before].
    replace (ended r) with false; [f_equal; apply IH; [intros; apply H; [right|]; assumption|intros; apply Hend; right; assumption]|].
    symmetry. apply not_true_iff_false. rewrite (Hend r (or_introl eq_refl)). intros [A B]. apply B, H; [left; reflexivity|exact A].
  Qed.
  Lemma cash_row :
    forall acct afile pfile df cash ps, sync acct afile pfile = Ok (cash, ps) -> read_csv afile = Ok df ->
      match rev (filter (fun r => own df acct r && negb (has_text df (lit "exchange") r)) (fr_rows df)) with
      | [] => cash = None
      | r :: _ => exists c, cash = Some c /\ asset_of pnum pyfloat round4 minus df r = Ok c
      end.
  Proof.
    intros acct afile pfile df cash ps E Er. unfold sync_balance in E. destruct afile as [at_|]; [|discriminate]. 
    match type of E with match acct with [] => _ | _ :: _ => ?B end = ?R => assert (E' : B = R) by (destruct acct; [discriminate|exact E]); clear E; rename E' into E end.
    rewrite Er in E. cbn [rbind] in E. destruct (fr_rows df) eqn:Ea; [discriminate|]. rewrite <- Ea in *.
    destruct (asset_loop pnum pyfloat round4 minus df acct (fr_rows df) None) as [c|] eqn:El; [|discriminate]. cbn [rbind] in E. destruct pfile as [pt|]; [|discriminate].
    destruct (read_csv (Some pt)) as [pdf|]; [|discriminate]. cbn [rbind] in E. destruct (pos_loop _ _ _ _ _ _ _ _) as [ps'|]; [|discriminate]. cbn [rbind] in E. apply Ok_inj in E. injection E as -> _. clear - El.
    assert (G : forall rs c0, asset_loop pnum pyfloat round4 minus df acct rs c0 = Ok cash ->
      match rev (filter (fun r => own df acct r && negb (has_text df (lit "exchange") r)) rs) with
      | [] => cash = c0 | r :: _ => exists c, cash = Some c /\ asset_of pnum pyfloat round4 minus df r = Ok c end); [|apply (G _ _ El)].
    clear El. intro rs. induction rs as [|r rs IH]; intros c0 E; cbn [asset_loop filter] in *; [apply Ok_inj in E; subst; reflexivity|].
    unfold str_cell at 1 in E. destruct (index_of (lit "acct") (fr_cols df)) as [i|] eqn:Ei; [|discriminate]. cbn [rbind] in E.
    assert (Ow : own df acct r = eqb (nth i r None) (Some acct)) by (unfold own; rewrite Ei; reflexivity). rewrite Ow.
    destruct (eqb (nth i r None) (Some acct)) eqn:Eo; cbn [negb andb] in *; [|apply IH, E].
    unfold str_cell at 1 in E. destruct (index_of (lit "exchange") (fr_cols df)) as [j|] eqn:Ej; [|discriminate]. cbn [rbind] in E.
    assert (Ht : has_text df (lit "exchange") r = negb (is_none (nth j r None))) by (unfold has_text; rewrite Ej; reflexivity). rewrite Ht.
    destruct (nth j r None) as [sym|]; cbn [is_none negb] in *; [apply IH, E|].
    destruct (asset_of pnum pyfloat round4 minus df r) as [c|] eqn:Ec; [|discriminate]. cbn [rbind] in E. apply IH in E.
    cbn [rev]. destruct (rev (filter _ rs)) as [|r' rr]; cbn [app]; [exists c; auto|exact E].
  Qed.
  (** The cash reported is that of the account's last record without exchange; without such a
      record there is no entry "cash". *)
  Theorem C122_cash :
    forall acct afile pfile df cash ps sel, sync acct afile pfile = Ok (cash, ps) -> read_csv afile = Ok df ->
      (forall r, In r (fr_rows df) -> (sel r = true <-> of_account df acct r /\ ~ exists s, field_of df r (lit "exchange") (Some s))) ->
      match rev (filter sel (fr_rows df)) with
      | [] => cash = None
      | r :: _ => exists c, cash = Some c /\ records_cash pnum pyfloat round4 minus df r c
      end.
  Proof.
    intros acct afile pfile df cash ps sel E Er Hsel. assert (X := cash_row acct afile pfile df cash ps E Er).
    assert (Fe : filter (fun r => own df acct r && negb (has_text df (lit "exchange") r)) (fr_rows df) = filter sel (fr_rows df)).
    { apply filter_ext_in. intros r Hr. apply eq_true_iff_eq. rewrite (Hsel r Hr), andb_true_iff, negb_true_iff, own_spec, <- (has_text_spec df (lit "exchange") r), not_true_iff_false. reflexivity. }
    rewrite Fe in X. destruct (rev (filter sel (fr_rows df))) as [|r rs] eqn:Ev; [exact X|]. destruct X as (c & A & B). exists c. split; [exact A|].
    apply asset_of_spec; [|exact B]. assert (H : In r (rev (filter sel (fr_rows df)))) by (rewrite Ev; left; reflexivity).
    apply in_rev in H. apply filter_In in H. apply H.
  Qed.
End Reports.
Print Assumptions C44_sync_truncated_partial.
Print Assumptions C44_positions_partial.
Print Assumptions C44_all_positions_partial.
Print Assumptions C122_cash.

(** The demonstrations use whole numbers. *)
Definition zsync := @sync_balance Z py_int py_int Some (fun z => z) (fun z => z) Z.sub.
Definition file (ls : list str) : str := concat (map (fun l => l ++ [CR; NL]) ls).
Definition assets : str := file [lit "acct,exchange,totalAsset,enabledBalance,currentBalance"; lit "12,,1000,300,500"; lit "12,SZ,1,1,1"; lit "34,,9,9,9"; lit ",,,,"].
Definition positions (rows : list str) : str := file (lit "acct,symbol,currentQty,enabledQty,costPrice,lastPrice,mktValue" :: rows).
Definition pos1 : str := positions [lit "12,000001.SZ,100,50,9,10,1000"; lit "34,600000.SH,7,7,7,7,7"; lit "12,600001.SH,0,0,3,3,0"; lit "12,600002.SH,200,0,5,6,1200"; lit ",,,,,,"].
Example C44_demo :
  zsync (lit "12") (Some assets) (Some pos1) =
    Ok (Some (BCash (Some 1000) (Some 300) (Some 200)), [BPos (lit "000001.XSHE") 100 50 (Some 9) (Some 10) (Some 1000); BPos (lit "600002.XSHG") 200 0 (Some 5) (Some 6) (Some 1200)]) /\
  List.length pos1 = 180%nat /\
  filter (fun n => match zsync (lit "12") (Some assets) (Some (firstn n pos1)) with Ok _ => true | Err _ => false end) (seq 0 181) = seq 173 8 /\
  zsync [] (Some assets) (Some pos1) = Err InvalidParam /\ zsync (lit "12") None (Some pos1) = Err FileNotFoundError.
Proof. vm_compute. auto 10. Qed.
Example C44_demo_hyp : exists df, read_csv (Some pos1) = Ok df /\
  Forall (fun r => first_field r <> [] /\ Forall (fun c => is_digit c = true) (first_field r)) (removelast (tl (csv_records pos1))).
Proof.
  eexists. split; [vm_compute; reflexivity|]. vm_compute. repeat constructor; discriminate.
Qed.
Example C44_demo_rows : exists df sel, read_csv (Some pos1) = Ok df /\
  (forall r, In r (fr_rows df) -> (sel r = true <-> of_account df (lit "12") r /\ held py_int Some df r)) /\
  (forall r, In r (fr_rows df) -> of_account df (lit "12") r -> exists s, field_of df r (lit "symbol") (Some s)) /\
  map sel (fr_rows df) = [true; false; false; true; false].
Proof.
  destruct (read_csv (Some pos1)) as [df|] eqn:E; [|vm_compute in E; discriminate].
  exists df, (fun r => own df (lit "12") r && match int_of py_int Some df r (lit "currentQty") with Ok q => negb (q =? 0) | Err _ => false end).
  split; [reflexivity|]. vm_compute in E. apply Ok_inj in E. rewrite <- E. clear E df.
  match goal with |- context [Frame ?c ?r] => set (df := Frame c r) end. split; [|split; [|vm_compute; reflexivity]].
  - intros r Hr. rewrite andb_true_iff, own_spec. split; intros [A B]; (split; [exact A|]).
    + destruct (int_of py_int Some df r (lit "currentQty")) as [q|] eqn:Eq; [|discriminate]. exists q. split; [apply int_of_spec; assumption|]. apply negb_true_iff, Z.eqb_neq in B. exact B.
    + destruct B as (q & B & C). destruct (int_of py_int Some df r (lit "currentQty")) as [q'|] eqn:Eq.
      * apply int_of_spec in Eq; [|exact Hr]. rewrite (int_value_det _ _ _ _ _ _ _ Eq B). apply negb_true_iff, Z.eqb_neq, C.
      * apply own_spec in A. cbn [df fr_rows] in Hr. repeat destruct Hr as [<-|Hr]; try destruct Hr; vm_compute in A, Eq; discriminate.
  - intros r Hr A. apply has_text_spec. apply own_spec in A. cbn [df fr_rows] in Hr. repeat destruct Hr as [<-|Hr]; try destruct Hr; vm_compute in A |- *; congruence.
Qed.

(** False otherwise: cut inside a record whose first field is empty, the file is accepted and
    the positions behind are missing; the same for the cash. *)
Definition assets2 : str := file [lit "exchange,acct,totalAsset,enabledBalance,currentBalance"; lit ",12,1000,300,500"; lit ",,,,"].
Definition pos2 : str := file [lit "note,acct,symbol,currentQty,enabledQty,costPrice,lastPrice,mktValue"; lit "x,12,000001.SZ,100,50,9,10,1000"; lit ",12,600002.SH,200,0,5,6,1200"; lit ",,,,,,,"].
Theorem C44_truncated_refuted :
  (exists p q, pos2 = p ++ q /\ zsync (lit "12") (Some assets) (Some pos2) <> zsync (lit "12") (Some assets) (Some p) /\
     exists c, zsync (lit "12") (Some assets) (Some p) = Ok (c, [BPos (lit "000001.XSHE") 100 50 (Some 9) (Some 10) (Some 1000)])) /\
  (exists p q, assets2 = p ++ q /\ (exists c ps, zsync (lit "12") (Some assets2) (Some pos1) = Ok (Some c, ps)) /\
     exists ps, zsync (lit "12") (Some p) (Some pos1) = Ok (None, ps)).
Proof.
  split.
  - exists (firstn 103 pos2), (skipn 103 pos2). split; [symmetry; apply firstn_skipn|]. split; [vm_compute; discriminate|]. eexists. vm_compute. reflexivity.
  - exists (firstn 57 assets2), (skipn 57 assets2). split; [symmetry; apply firstn_skipn|]. split; eexists; [eexists|]; vm_compute; reflexivity.
Qed.
Print Assumptions C44_truncated_refuted.
(** False: a record of the account without symbol hides the positions behind it. *)
Theorem C44_positions_refuted :
  exists c, zsync (lit "12") (Some assets) (Some (positions [lit "12,,1,1,1,1,1"; lit "12,600002.SH,200,0,5,6,1200"; lit ",,,,,,"])) = Ok (c, []).
Proof. eexists. vm_compute. reflexivity. Qed.
Print Assumptions C44_positions_refuted.
