(** C97 for files with figures of 0 and several records of one share. *)
From Coq Require Import String.
From Verif Require Import PyBase PyStr LStr MTime MOrder MAccount SAccount LAccount LAccount2 LAccount3 MGate MBalance PyCsv MCsv TCsv SBalance LBalance TBalance MFolio SFolio TGate TFolio SFolio2.
Open Scope list_scope.
Open Scope Z_scope.

Definition put (d : dict str position) (p : bpos) := dset (bp_code p) (pos_made p) d.
Lemma put_firsts ps : firsts (map bp_code ps) (dkeys (fold_left put ps [])).
Proof.
  induction ps as [|p ps IH] using rev_ind; [constructor|]. rewrite map_app, fold_left_app. cbn [map fold_left]. unfold put at 1. rewrite dkeys_dset.
  destruct (dmem (bp_code p) (fold_left put ps [])) eqn:E.
  - apply fs_again; [exact IH|]. apply dmem_In, E.
  - apply fs_new; [exact IH|]. intro X. apply dmem_In in X. congruence.
Qed.
Lemma put_nodup ps : NoDup (dkeys (fold_left put ps [])).
Proof. induction ps as [|p ps IH] using rev_ind; [constructor|]. rewrite fold_left_app. apply NoDup_dset, IH. Qed.
Lemma put_last code ps p : last_record code ps p -> dget code (fold_left put ps []) = Some (pos_made p).
Proof.
  intros (l1 & l2 & -> & <- & F). rewrite fold_left_app. cbn [fold_left].
  assert (G : forall d, dget (bp_code p) d = Some (pos_made p) -> dget (bp_code p) (fold_left put l2 d) = Some (pos_made p)).
  { clear l1. induction F as [|q l2 N _ IH]; intros d H; [exact H|]. cbn [fold_left]. apply IH. unfold put. rewrite dget_dset_other by congruence. exact H. }
  apply G. apply dget_dset_same.
Qed.

Section Folio.
  Context (ptime f3 f4 : str -> option Z) (go : gopts).
  Context {F : Type} (pnum pyfloat : str -> option F) (trunc : F -> option Z) (round4 round3 : F -> Z) (minus : F -> F -> F).
  Notation gt := (full_gate ptime f3 f4 go pnum pyfloat trunc round4 round3 minus).
  (** What the portfolio shows after a sync of complete and readable files, whatever their
      figures: a cash figure of 0 leaves what was shown before, of several records about one
      share the last is shown, in the place of the first.  (C97 wants the figures stated, and
      all records; what is missing is just these two cases.) *)
  Theorem C97_always_partial :
    forall a f atext ptext adf pdf selc selp pre r c t e k ps,
      go_acct go <> [] ->
      dget (today f) (fg_assets f) = Some atext -> dget (today f) (fg_positions f) = Some ptext ->
      read_csv_q (Some atext) = Ok adf -> read_csv_q (Some ptext) = Ok pdf ->
      In (lit "acct") (fr_cols adf) -> In (lit "exchange") (fr_cols adf) -> In (lit "acct") (fr_cols pdf) ->
      (forall x, In x (fr_rows adf) -> (selc x = true <-> of_account adf (go_acct go) x /\ ~ exists s, field_of adf x (lit "exchange") (Some s))) ->
      (forall x, In x (fr_rows adf) -> selc x = true -> exists c, records_cash pnum pyfloat round4 minus adf x c) ->
      filter selc (fr_rows adf) = pre ++ [r] -> records_cash pnum pyfloat round4 minus adf r c -> c = BCash (Some t) (Some e) (Some k) ->
      (forall x, In x (fr_rows pdf) -> (selp x = true <-> of_account pdf (go_acct go) x /\ held pnum trunc pdf x)) ->
      (forall x, In x (fr_rows pdf) -> of_account pdf (go_acct go) x ->
         (exists s, field_of pdf x (lit "symbol") (Some s)) /\ exists q, int_value pnum trunc pdf x (lit "currentQty") q) ->
      Forall2 (records_position pnum pyfloat trunc round4 round3 pdf) (filter selp (fr_rows pdf)) ps ->
      Forall known_pos ps ->
      let a' := fst (acc_sync_balance gt a f) in
      figure t (a_total a) (a_total a') /\ figure e (a_cash a) (a_cash a') /\ figure k (a_locked a) (a_locked a') /\
      firsts (map bp_code ps) (dkeys (long_view a')) /\
      (forall code p, last_record code ps p -> exists q, dget code (long_view a') = Some q /\ shown_as p q) /\
      short_view a' = [].
  Proof.
    intros a f atext ptext adf pdf selc selp pre r c t e k ps Hacct Ha Hp Ra Rp Ca1 Ca2 Cp Hselc Hrdc Hlast Hc -> Hselp Hrdp HF Hk a'.
    assert (Hrin : In r (fr_rows adf)). { assert (X : In r (filter selc (fr_rows adf))) by (rewrite Hlast; apply in_or_app; right; left; reflexivity). apply filter_In in X. apply X. }
    destruct (asset_loop_reads pnum pyfloat round4 minus adf (go_acct go) selc Ca1 Ca2 (fr_rows adf) None (fun x H => H) Hselc Hrdc) as (cash & Ecash & Mcash).
    rewrite Hlast, rev_app_distr in Mcash. cbn [rev app] in Mcash. destruct Mcash as (c' & -> & Ec'). rewrite (asset_of_value _ _ _ _ _ _ _ Hc Hrin) in Ec'. apply Ok_inj in Ec'. subst c'.
    pose proof (pos_loop_reads pnum pyfloat trunc round4 round3 pdf (go_acct go) selp Cp (fr_rows pdf) ps (fun x H => H) Hselp Hrdp HF) as Epos.
    assert (Es : fst (full_balance go pnum pyfloat trunc round4 round3 minus f) = Ok (BInfo (Some (Cash (Some t) (Some e) (Some k))) (Some (map pos_entry ps)))).
    { unfold full_balance, sync_balance_q. cbn [fst]. rewrite Ha, Hp, Ra. destruct (go_acct go) eqn:Eg; [contradiction|]. rewrite <- Eg in *. cbn [rbind].
      destruct (fr_rows adf) eqn:Er; [destruct Hrin|]. rewrite <- Er in *. rewrite Ecash. cbn [rbind]. rewrite Rp. cbn [rbind]. rewrite Epos. reflexivity. }
    unfold a', acc_sync_balance. cbn [full_gate g_sync_balance]. destruct (full_balance go pnum pyfloat trunc round4 round3 minus f) as [rb f'] eqn:Eb. cbn [fst] in Es. subst rb.
    cbn [b_cash b_pos fst c_total c_avail c_locked].
    match goal with |- context [add_positions _ ?x] => destruct (add_entries ps x) as (H1 & H2 & H3 & H4 & H5) end. cbv zeta in *.
    unfold long_view, short_view. rewrite H1, H2, H3, H4, H5. cbn [set_positions set_cash a_total a_cash a_locked a_long a_short].
    change (fun d p => dset (bp_code p) (pos_made p) d) with put. rewrite (view_same _ (put_nodup ps)).
    assert (Fig : forall s b, figure s b (or_old (Some s) b)).
    { intros s b. unfold figure, or_old. destruct (Z.eqb_spec s 0); [right|left]; auto. }
    repeat split; try apply Fig; try apply put_firsts; try reflexivity.
    intros code p HL. exists (pos_made p). split; [apply put_last, HL|].
    destruct HL as (l1 & l2 & -> & _ & _). apply Forall_app in Hk as [_ Hk]. inversion Hk as [|? ? (K1 & K2 & K3) _]; subst.
    unfold shown_as, pos_made. cbn. destruct (bp_avg p) as [g|]; [|contradiction]. destruct (bp_last p) as [l|]; [|contradiction]. destruct (bp_value p) as [v|]; [|contradiction].
    repeat split.
  Qed.
End Folio.
Print Assumptions C97_always_partial.

(** all cash spent, and one share in two records around another *)
Definition spent : list str := [lit "8888,,1000,0,200"].
Definition twice : list str := [lit "8888,000001.SZ,100,50,9,10,1000"; lit "8888,600002.SH,200,0,5,6,1200"; lit "8888,000001.SZ,7,7,9,10,70"].
Example C97_always_demo :
  seen (fst (acc_sync_balance zgate folio1 (with_files spent twice))) = (1000, 300, 200, [(lit "000001.XSHE", 7, 7); (lit "600002.XSHG", 200, 0)]) /\
  exists pdf ps, read_csv_q (Some (position_file twice)) = Ok pdf /\ Forall2 (demo_records pdf) (firstn 3 (fr_rows pdf)) ps /\ Forall known_pos ps /\
    (exists ks, firsts (map bp_code ps) ks /\ ks = [lit "000001.XSHE"; lit "600002.XSHG"]) /\ exists p, last_record (lit "000001.XSHE") ps p /\ bp_amount p = 7.
Proof.
  split; [vm_compute; reflexivity|].
  destruct (read_csv_q (Some (position_file twice))) as [pdf|] eqn:Ep; [|vm_compute in Ep; discriminate].
  vm_compute in Ep. apply Ok_inj in Ep. subst pdf.
  match goal with |- exists pdf ps, Ok ?P = _ /\ _ => set (dp := P) end.
  exists dp, [BPos (lit "000001.XSHE") 100 50 (Some 9) (Some 10) (Some 1000); BPos (lit "600002.XSHG") 200 0 (Some 5) (Some 6) (Some 1200); BPos (lit "000001.XSHE") 7 7 (Some 9) (Some 10) (Some 70)].
  split; [reflexivity|]. split; [|split; [|split]].
  - match goal with |- Forall2 _ ?l _ => let l' := eval vm_compute in l in change l with l' end.
    constructor; [|constructor; [|constructor; [|constructor]]].
    + apply (pos_of_spec py_int py_int Some (fun z => z) (fun z => z)) with (sym := lit "000001.SZ"); [left; reflexivity|reflexivity|vm_compute; reflexivity].
    + apply (pos_of_spec py_int py_int Some (fun z => z) (fun z => z)) with (sym := lit "600002.SH"); [right; left; reflexivity|reflexivity|vm_compute; reflexivity].
    + apply (pos_of_spec py_int py_int Some (fun z => z) (fun z => z)) with (sym := lit "000001.SZ"); [do 2 right; left; reflexivity|reflexivity|vm_compute; reflexivity].
  - repeat constructor; discriminate.
  - exists [lit "000001.XSHE"; lit "600002.XSHG"]. split; [|reflexivity]. cbn [map bp_code].
    apply (fs_again [lit "000001.XSHE"; lit "600002.XSHG"]); [|left; reflexivity].
    apply (fs_new [lit "000001.XSHE"] (lit "600002.XSHG") [lit "000001.XSHE"]); [|intros [X|[]]; discriminate].
    apply (fs_new [] (lit "000001.XSHE") []); [constructor|intros []].
  - eexists. split; [exists [BPos (lit "000001.XSHE") 100 50 (Some 9) (Some 10) (Some 1000); BPos (lit "600002.XSHG") 200 0 (Some 5) (Some 6) (Some 1200)], []; split; [reflexivity|split; [reflexivity|constructor]]|reflexivity].
Qed.
