(** C97: from the balance files to the portfolio of the strategy. *)
From Coq Require Import String.
From Verif Require Import PyBase PyStr LStr MTime MOrder MAccount SAccount LAccount LAccount2 LAccount3 MGate MBalance PyCsv MCsv TCsv SBalance LBalance TBalance MFolio SFolio TGate.
Open Scope list_scope.
Open Scope Z_scope.

(** ** adding the positions of a report *)
Definition pos_made (p : bpos) : position := Pos (bp_code p) (bp_amount p) (bp_avail p) (dfl (bp_avg p) 0) Long (Some (dfl (bp_last p) 0)) (Some (dfl (bp_value p) 0)).
Lemma entry_pos p : MAccount.pos_of (pos_entry p) = Ok (pos_made p).
Proof. reflexivity. Qed.
Lemma add_entries ps : forall a,
  let a' := add_positions (map pos_entry ps) a in
  a_short a' = a_short a /\ a_long a' = fold_left (fun d p => dset (bp_code p) (pos_made p) d) ps (a_long a) /\
  a_total a' = a_total a /\ a_cash a' = a_cash a /\ a_locked a' = a_locked a.
Proof.
  induction ps as [|p ps IH]; intros a; [repeat split|]. cbv zeta. cbn [map add_positions fold_left]. rewrite entry_pos. cbv iota zeta.
  cbn [pos_made ps_side ps_code]. destruct (IH (set_positions (dset (bp_code p) (pos_made p) (a_long a)) (a_short a) a)) as (H1 & H2 & H3 & H4 & H5).
  cbv zeta in *. rewrite H1, H2, H3, H4, H5. repeat split.
Qed.
Lemma dset_new {V} (k : str) (v : V) d : ~ In k (dkeys d) -> dset k v d = d ++ [(k, v)].
Proof.
  induction d as [|[k' v'] d IH]; intros H; [reflexivity|]. cbn [dset dkeys map fst app] in *.
  destruct (eqb_spec k k') as [->|]; [exfalso; apply H; left; reflexivity|]. f_equal. apply IH. intro. apply H. right. assumption.
Qed.
Lemma fold_new ps : forall d, NoDup (dkeys d ++ map bp_code ps) ->
  fold_left (fun d p => dset (bp_code p) (pos_made p) d) ps d = d ++ map (fun p => (bp_code p, pos_made p)) ps.
Proof.
  induction ps as [|p ps IH]; intros d H; cbn [fold_left map] in *; [symmetry; apply app_nil_r|].
  assert (Hn : ~ In (bp_code p) (dkeys d)).
  { apply NoDup_remove_2 in H. intro X. apply H, in_or_app. left. exact X. }
  rewrite (dset_new _ _ _ Hn), IH.
  - rewrite <- app_assoc. reflexivity.
  - unfold dkeys in *. rewrite map_app. cbn [map fst]. rewrite <- app_assoc. exact H.
Qed.

(** ** reading what can be read *)
Section Readable.
  Context {F : Type} (pnum pyfloat : str -> option F) (trunc : F -> option Z) (round4 round3 : F -> Z) (minus : F -> F -> F).
  Lemma num_cell_text df r name s : field_of df r name (Some s) -> In r (fr_rows df) ->
    (number_column pnum df name /\ exists f, pnum s = Some f /\ num_cell pnum df r name = Ok (CNum f)) \/
    (~ number_column pnum df name /\ num_cell pnum df r name = Ok (CStr s)).
  Proof.
    intros Hf Hr. pose proof Hf as Hf'. apply field_of_index in Hf as (i & Ei & En). unfold num_cell. rewrite Ei, En.
    destruct (numeric pnum (texts i df)) eqn:Ex; [left|right].
    - apply (numeric_spec pnum df name i Ei) in Ex. split; [exact Ex|]. destruct (Ex r s Hr Hf') as (f & E). exists f. rewrite E. auto.
    - split; [|reflexivity]. intro X. apply (numeric_spec pnum df name i Ei) in X. congruence.
  Qed.
  Lemma int_of_value df r name z : int_value pnum trunc df r name z -> In r (fr_rows df) -> int_of pnum trunc df r name = Ok z.
  Proof.
    intros (s & Hf & H) Hr. unfold int_of. destruct (num_cell_text df r name s Hf Hr) as [(N & f & P & ->)|(N & ->)]; cbn [rbind as_int].
    - destruct H as [(_ & f' & P' & T')|(X & _)]; [|contradiction]. rewrite P in P'. injection P' as <-. rewrite T'. reflexivity.
    - destruct H as [(X & _)|(_ & ->)]; [contradiction|reflexivity].
  Qed.
  Lemma float_of_value df r name o : float_value pnum pyfloat df r name o -> In r (fr_rows df) -> float_of pnum pyfloat df r name = Ok o.
  Proof.
    intros H Hr. unfold float_of. destruct o as [f|]; cbn [float_value] in H.
    - destruct H as (s & Hf & H). destruct (num_cell_text df r name s Hf Hr) as [(N & f' & P & ->)|(N & ->)]; cbn [rbind as_float].
      + destruct H as [(_ & P')|(X & _)]; [congruence|contradiction].
      + destruct H as [(X & _)|(_ & ->)]; [contradiction|reflexivity].
    - apply field_of_index in H as (i & Ei & En). unfold num_cell. rewrite Ei, En. reflexivity.
  Qed.
  Lemma rounded_of rd df r name o : rounded pnum pyfloat rd df r name o -> In r (fr_rows df) ->
    exists f, float_of pnum pyfloat df r name = Ok f /\ o = option_map rd f.
  Proof. intros (f & A & ->) Hr. exists f. split; [apply float_of_value; assumption|]. destruct f; reflexivity. Qed.
  Lemma asset_of_value df r c : records_cash pnum pyfloat round4 minus df r c -> In r (fr_rows df) -> asset_of pnum pyfloat round4 minus df r = Ok c.
  Proof.
    intros (A & B & (cur & en & C & D & E)) Hr. destruct (rounded_of _ _ _ _ _ B Hr) as (e & E1 & Ee).
    unfold asset_of. destruct (rounded_of _ _ _ _ _ A Hr) as (t' & F1 & F2). rewrite F1. cbn [rbind]. rewrite E1. cbn [rbind]. rewrite (float_of_value _ _ _ _ C Hr). cbn [rbind].
    rewrite (float_of_value _ _ _ _ D Hr) in E1. apply Ok_inj in E1. subst e. destruct c as [ct ca cl]. cbn [bc_total bc_avail bc_locked] in *. subst. reflexivity.
  Qed.
  Lemma pos_of_value df r p : records_position pnum pyfloat trunc round4 round3 df r p -> In r (fr_rows df) ->
    exists sym, str_cell df r (lit "symbol") = Ok (Some sym) /\ MBalance.pos_of pnum pyfloat trunc round4 round3 df r sym = Ok p.
  Proof.
    intros ((sym & S & D) & Q & E & A & L & V) Hr. exists sym. split.
    - apply field_of_index in S as (i & Ei & En). unfold str_cell. rewrite Ei, En. reflexivity.
    - unfold MBalance.pos_of. rewrite D. cbn [rbind]. rewrite (int_of_value _ _ _ _ Q Hr). cbn [rbind]. rewrite (int_of_value _ _ _ _ E Hr). cbn [rbind].
      destruct (rounded_of _ _ _ _ _ A Hr) as (g & -> & Eg). cbn [rbind]. destruct (rounded_of _ _ _ _ _ L Hr) as (l & -> & El). cbn [rbind].
      destruct (rounded_of _ _ _ _ _ V Hr) as (w & -> & Ew). cbn [rbind]. destruct p. cbn in *. subst. reflexivity.
  Qed.

  Lemma own_cell df acct r : In (lit "acct") (fr_cols df) -> exists v, str_cell df r (lit "acct") = Ok v /\ eqb v (Some acct) = own df acct r.
  Proof.
    intros H. unfold str_cell, own. destruct (index_of (lit "acct") (fr_cols df)) as [i|] eqn:E; [eauto|]. exfalso.
    revert H E. clear. generalize (lit "acct"). intros n. induction (fr_cols df) as [|c cs IH]; [intros []|]. cbn [index_of]. intros H E.
    destruct (eqb_spec n c) as [->|N]; [discriminate|]. destruct H as [->|H]; [contradiction|]. destruct (index_of n cs); [discriminate|]. apply IH; [exact H|reflexivity].
  Qed.
  Lemma text_cell df name r : In name (fr_cols df) -> exists v, str_cell df r name = Ok v /\ negb (is_none v) = has_text df name r.
  Proof.
    intros H. unfold str_cell, has_text. destruct (index_of name (fr_cols df)) as [i|] eqn:E; [eauto|]. exfalso.
    revert H E. clear. induction (fr_cols df) as [|c cs IH]; [intros []|]. cbn [index_of]. intros H E.
    destruct (eqb_spec name c) as [->|N]; [discriminate|]. destruct H as [->|H]; [contradiction|]. destruct (index_of name cs); [discriminate|]. apply IH; [exact H|reflexivity].
  Qed.

  Lemma pos_loop_reads df acct sel : In (lit "acct") (fr_cols df) -> forall rs ps,
    (forall r, In r rs -> In r (fr_rows df)) ->
    (forall r, In r rs -> (sel r = true <-> of_account df acct r /\ held pnum trunc df r)) ->
    (forall r, In r rs -> of_account df acct r -> (exists s, field_of df r (lit "symbol") (Some s)) /\ exists q, int_value pnum trunc df r (lit "currentQty") q) ->
    Forall2 (records_position pnum pyfloat trunc round4 round3 df) (filter sel rs) ps ->
    pos_loop pnum pyfloat trunc round4 round3 df acct rs = Ok ps.
  Proof.
    intros Hc rs. induction rs as [|r rs IH]; intros ps Hin Hsel Hrd HF; cbn [filter pos_loop] in *; [inversion HF; reflexivity|].
    destruct (own_cell df acct r Hc) as (v & Ev & Eo). rewrite Ev. cbn [rbind]. rewrite Eo.
    assert (Hin' : forall x, In x rs -> In x (fr_rows df)) by (intros; apply Hin; right; assumption).
    assert (Hsel' : forall x, In x rs -> (sel x = true <-> of_account df acct x /\ held pnum trunc df x)) by (intros; apply Hsel; right; assumption).
    assert (Hrd' := fun x H => Hrd x (or_intror H)). pose proof (Hin r (or_introl eq_refl)) as Hr. specialize (Hsel r (or_introl eq_refl)). specialize (Hrd r (or_introl eq_refl)).
    destruct (own df acct r) eqn:Ow; cbn [negb].
    - apply own_spec in Ow. destruct (Hrd Ow) as ((s & Hs) & q & Hq).
      assert (Es : str_cell df r (lit "symbol") = Ok (Some s)) by (apply field_of_index in Hs as (i & Ei & En); unfold str_cell; rewrite Ei, En; reflexivity).
      rewrite Es. cbn [rbind]. rewrite (int_of_value _ _ _ _ Hq Hr). cbn [rbind]. destruct (Z.eqb_spec q 0) as [->|Nq].
      + destruct (sel r) eqn:Er; [|apply IH; assumption]. exfalso. destruct (proj1 Hsel eq_refl) as (_ & q' & Q & N). apply N. apply (int_value_det _ _ _ _ _ _ _ Q Hq).
      + assert (Er : sel r = true) by (apply Hsel; split; [exact Ow|exists q; auto]). rewrite Er in HF. inversion HF as [|? p ? ps' HP HF']; subst.
        destruct (pos_of_value df r p HP Hr) as (sym & E1 & E2). rewrite Es in E1. apply Ok_inj in E1. injection E1 as <-. rewrite E2. cbn [rbind].
        rewrite (IH ps' Hin' Hsel' Hrd' HF'). reflexivity.
    - destruct (sel r) eqn:Er; [|apply IH; assumption]. exfalso. destruct (proj1 Hsel eq_refl) as (X & _). apply own_spec in X. congruence.
  Qed.
  Lemma asset_loop_reads df acct sel : In (lit "acct") (fr_cols df) -> In (lit "exchange") (fr_cols df) -> forall rs c0,
    (forall r, In r rs -> In r (fr_rows df)) ->
    (forall r, In r rs -> (sel r = true <-> of_account df acct r /\ ~ exists s, field_of df r (lit "exchange") (Some s))) ->
    (forall r, In r rs -> sel r = true -> exists c, records_cash pnum pyfloat round4 minus df r c) ->
    exists res, asset_loop pnum pyfloat round4 minus df acct rs c0 = Ok res /\
      match rev (filter sel rs) with [] => res = c0 | r :: _ => exists c, res = Some c /\ asset_of pnum pyfloat round4 minus df r = Ok c end.
  Proof.
    intros Hc He rs. induction rs as [|r rs IH]; intros c0 Hin Hsel Hrd; cbn [filter asset_loop] in *; [exists c0; split; reflexivity|].
    destruct (own_cell df acct r Hc) as (v & Ev & Eo). rewrite Ev. cbn [rbind]. rewrite Eo.
    assert (IH' := fun c0 => IH c0 (fun x H => Hin x (or_intror H)) (fun x H => Hsel x (or_intror H)) (fun x H => Hrd x (or_intror H))).
    pose proof (Hin r (or_introl eq_refl)) as Hr. specialize (Hsel r (or_introl eq_refl)). specialize (Hrd r (or_introl eq_refl)). clear IH Hin.
    destruct (text_cell df (lit "exchange") r He) as (w & Ew & Et).
    destruct (own df acct r) eqn:Ow; cbn [negb].
    - rewrite Ew. cbn [rbind]. rewrite Et. destruct (has_text df (lit "exchange") r) eqn:Eh.
      + destruct (sel r) eqn:Er; [|apply IH']. exfalso. destruct (proj1 Hsel eq_refl) as (_ & X). apply X, has_text_spec, Eh.
      + assert (Er : sel r = true). { apply Hsel. split; [apply own_spec, Ow|]. intros X. apply has_text_spec in X. congruence. }
        rewrite Er. destruct (Hrd Er) as (c & HC). rewrite (asset_of_value df r c HC Hr). cbn [rbind rev]. destruct (IH' (Some c)) as (res & E1 & E2). exists res. split; [exact E1|].
        destruct (rev (filter sel rs)) as [|x xs]; cbn [app]; [|exact E2]. exists c. split; [exact E2|]. apply asset_of_value; assumption.
    - destruct (sel r) eqn:Er; [|apply IH']. exfalso. destruct (proj1 Hsel eq_refl) as (X & _). apply own_spec in X. congruence.
  Qed.
End Readable.

Section Folio.
  Context (ptime f3 f4 : str -> option Z) (go : gopts).
  Context {F : Type} (pnum pyfloat : str -> option F) (trunc : F -> option Z) (round4 round3 : F -> Z) (minus : F -> F -> F).
  Notation gt := (full_gate ptime f3 f4 go pnum pyfloat trunc round4 round3 minus).

  (** C97 asks that after every balance sync the portfolio shows the figures of the files.
      Proved: if the files of the day are complete (they are read as frames), their figures
      for the account are readable numbers, each record of a position has a symbol, no two
      records describe the same share and no cash figure is 0, then the portfolio shows
      exactly what they say: the cash of the account's (last) record for all exchanges and
      the positions of its records with a quantity, in the order of the file. *)
  Theorem C97_shown_partial :
    forall a f atext ptext adf pdf selc selp pre r c t e k ps,
      go_acct go <> [] ->
      dget (today f) (fg_assets f) = Some atext -> dget (today f) (fg_positions f) = Some ptext ->
      read_csv_q (Some atext) = Ok adf -> read_csv_q (Some ptext) = Ok pdf ->
      In (lit "acct") (fr_cols adf) -> In (lit "exchange") (fr_cols adf) -> In (lit "acct") (fr_cols pdf) ->
      (forall x, In x (fr_rows adf) -> (selc x = true <-> of_account adf (go_acct go) x /\ ~ exists s, field_of adf x (lit "exchange") (Some s))) ->
      (forall x, In x (fr_rows adf) -> selc x = true -> exists c, records_cash pnum pyfloat round4 minus adf x c) ->
      filter selc (fr_rows adf) = pre ++ [r] -> records_cash pnum pyfloat round4 minus adf r c -> c = BCash (Some t) (Some e) (Some k) ->
      (forall x, In x (fr_rows pdf) -> (selp x = true <-> of_account pdf (go_acct go) x /\ held pnum trunc pdf x)) ->
      (forall x, In x (fr_rows pdf) -> of_account pdf (go_acct go) x ->
         (exists s, field_of pdf x (lit "symbol") (Some s)) /\ exists q, int_value pnum trunc pdf x (lit "currentQty") q) ->
      Forall2 (records_position pnum pyfloat trunc round4 round3 pdf) (filter selp (fr_rows pdf)) ps ->
      Forall known_pos ps -> NoDup (map bp_code ps) -> t <> 0 -> e <> 0 -> k <> 0 ->
      let a' := fst (acc_sync_balance gt a f) in
      a_total a' = t /\ a_cash a' = e /\ a_locked a' = k /\ shows ps (long_view a') /\ short_view a' = [].
  Proof.
    intros a f atext ptext adf pdf selc selp pre r c t e k ps Hacct Ha Hp Ra Rp Ca1 Ca2 Cp Hselc Hrdc Hlast Hc -> Hselp Hrdp HF Hk Hnd Ht He0 Hk0 a'.
    assert (Hrin : In r (fr_rows adf)). { assert (X : In r (filter selc (fr_rows adf))) by (rewrite Hlast; apply in_or_app; right; left; reflexivity). apply filter_In in X. apply X. }
    destruct (asset_loop_reads pnum pyfloat round4 minus adf (go_acct go) selc Ca1 Ca2 (fr_rows adf) None (fun x H => H) Hselc Hrdc) as (cash & Ecash & Mcash).
    rewrite Hlast, rev_app_distr in Mcash. cbn [rev app] in Mcash. destruct Mcash as (c' & -> & Ec'). rewrite (asset_of_value _ _ _ _ _ _ _ Hc Hrin) in Ec'. apply Ok_inj in Ec'. subst c'.
    pose proof (pos_loop_reads pnum pyfloat trunc round4 round3 pdf (go_acct go) selp Cp (fr_rows pdf) ps (fun x H => H) Hselp Hrdp HF) as Epos.
    assert (Es : fst (full_balance go pnum pyfloat trunc round4 round3 minus f) = Ok (BInfo (Some (Cash (Some t) (Some e) (Some k))) (Some (map pos_entry ps)))).
    { unfold full_balance, sync_balance_q. cbn [fst]. rewrite Ha, Hp, Ra. destruct (go_acct go) eqn:Eg; [contradiction|]. rewrite <- Eg in *. cbn [rbind].
      destruct (fr_rows adf) eqn:Er; [destruct Hrin|]. rewrite <- Er in *. rewrite Ecash. cbn [rbind]. rewrite Rp. cbn [rbind]. rewrite Epos. reflexivity. }
    unfold a', acc_sync_balance. cbn [full_gate g_sync_balance]. destruct (full_balance go pnum pyfloat trunc round4 round3 minus f) as [rb f'] eqn:Eb. cbn [fst] in Es. subst rb.
    cbn [b_cash b_pos fst c_total c_avail c_locked or_old].
    rewrite (proj2 (Z.eqb_neq t 0) Ht), (proj2 (Z.eqb_neq e 0) He0), (proj2 (Z.eqb_neq k 0) Hk0).
    match goal with |- context [add_positions _ ?x] => destruct (add_entries ps x) as (H1 & H2 & H3 & H4 & H5) end. cbv zeta in *.
    unfold long_view, short_view. rewrite H1, H2, H3, H4, H5. cbn [set_positions set_cash a_total a_cash a_locked a_long a_short]. rewrite (fold_new ps [] Hnd). cbn [app].
    rewrite (view_same (map (fun p => (bp_code p, pos_made p)) ps)) by (unfold dkeys; rewrite map_map; exact Hnd).
    repeat split. unfold shows. clear - Hk. induction Hk as [|p ps (K1 & K2 & K3) _ IH]; constructor; [|exact IH]. cbn [fst snd]. split; [reflexivity|].
    unfold shown_as, pos_made. cbn. destruct (bp_avg p) as [g|]; [|contradiction]. destruct (bp_last p) as [l|]; [|contradiction]. destruct (bp_value p) as [v|]; [|contradiction].
    repeat split.
  Qed.

  (** A sync changes the portfolio as a whole or not at all: either the account is as before,
      or both position maps are those of one reading of the files. *)
  Theorem C122_whole :
    forall a f, let a' := fst (acc_sync_balance gt a f) in
      a' = a \/
      exists cash ps, sync_balance_q pnum pyfloat trunc round4 round3 minus (go_acct go) (dget (today f) (fg_assets f)) (dget (today f) (fg_positions f)) = Ok (Some cash, ps) /\
        map_as Long (map pos_entry ps) (a_long a') /\ a_short a' = [] /\
        (forall v, bc_total cash = Some v -> v <> 0 -> a_total a' = v) /\
        (forall v, bc_avail cash = Some v -> v <> 0 -> a_cash a' = v) /\
        (forall v, bc_locked cash = Some v -> v <> 0 -> a_locked a' = v).
  Proof.
    intros a f a'. unfold a', acc_sync_balance. cbn [full_gate g_sync_balance]. unfold full_balance.
    destruct (sync_balance_q _ _ _ _ _ _ _ _ _) as [[[c|] ps]|x] eqn:E; cbn [rbind fst snd option_map b_cash b_pos]; [|left; reflexivity|left; reflexivity].
    right. exists c, ps. split; [reflexivity|].
    match goal with |- context [add_positions _ ?x] => destruct (add_entries ps x) as (H1 & H2 & H3 & H4 & H5);
      pose proof (fun code => add_positions_map Long code (map pos_entry ps) x) as M end. cbv zeta in *.
    assert (HP : Forall pos_complete (map pos_entry ps)).
    { apply Forall_forall. intros i Hi. apply in_map_iff in Hi as (p & <- & _). unfold pos_complete, pos_entry. cbn. repeat split; try discriminate. left. reflexivity. }
    split; [|split; [exact H1|]].
    - intros code. specialize (M code HP). destruct (last_pos Long code (map pos_entry ps)); [exact M|]. cbn [side_map] in M. etransitivity; [exact M|reflexivity].
    - rewrite H3, H4, H5. cbn [set_positions set_cash a_total a_cash a_locked cash_entry c_total c_avail c_locked or_old].
      repeat split; intros v -> Hv; cbn [dfl]; rewrite (proj2 (Z.eqb_neq v 0) Hv); reflexivity.
  Qed.
End Folio.
Print Assumptions C97_shown_partial.
Print Assumptions C122_whole.

(** ** demonstrations, with whole numbers as figures *)
Definition zgate := @full_gate (fun _ => None) demo_f3 demo_f4 demo_go Z py_int py_int Some (fun z => z) (fun z => z) Z.sub.
Definition fcsv (ls : list str) : str := concat (map (fun l => l ++ [CR; NL]) ls).
Definition asset_file (rows : list str) : str := fcsv (lit "acct,exchange,totalAsset,enabledBalance,currentBalance" :: rows ++ [lit ",,,,"]).
Definition position_file (rows : list str) : str := fcsv (lit "acct,symbol,currentQty,enabledQty,costPrice,lastPrice,mktValue" :: rows ++ [lit ",,,,,,"]).
Definition with_files (rows_a rows_p : list str) : fgst :=
  FG demo_g0 [(19000, asset_file rows_a)] [(19000, position_file rows_p)].
Definition seen (a : acct) := (a_total a, a_cash a, a_locked a, map (fun kv => (fst kv, ps_amount (snd kv), ps_avail (snd kv))) (long_view a)).
Definition cash1 : list str := [lit "8888,,1000,300,500"; lit "8888,SZ,1,1,1"; lit "34,,9,9,9"].
Definition held1 : list str := [lit "8888,000001.SZ,100,50,9,10,1000"; lit "34,600000.SH,7,7,7,7,7"; lit "8888,600001.SH,0,0,3,3,0"; lit "8888,600002.SH,200,0,5,6,1200"].
Definition folio1 : acct := fst (acc_sync_balance zgate acct_new (with_files cash1 held1)).
Example C97_demo : seen folio1 = (1000, 300, 200, [(lit "000001.XSHE", 100, 50); (lit "600002.XSHG", 200, 0)]).
Proof. vm_compute. reflexivity. Qed.
Example C97_demo_whole :
  fst (acc_sync_balance zgate folio1 (with_files cash1 [lit "8888,000001.SZ,90,x,9,10,1000"])) = folio1 /\
  seen (fst (acc_sync_balance zgate folio1 (with_files cash1 [lit "8888,600002.SH,200,100,5,6,1200"]))) = (1000, 300, 200, [(lit "600002.XSHG", 200, 100)]).
Proof. vm_compute. split; reflexivity. Qed.

(** the hypotheses of C97_shown_partial for these files *)
Lemma held_iff df acct r : In r (fr_rows df) ->
  (own df acct r && match int_of py_int Some df r (lit "currentQty") with Ok q => negb (q =? 0) | Err _ => false end = true <->
   of_account df acct r /\ held py_int Some df r).
Proof.
  intros Hr. rewrite andb_true_iff, own_spec. split; intros [A B]; (split; [exact A|]).
  - destruct (int_of py_int Some df r (lit "currentQty")) as [q|] eqn:E; [|discriminate]. exists q. split; [apply int_of_spec; assumption|]. apply negb_true_iff, Z.eqb_neq in B. exact B.
  - destruct B as (q & B & C). rewrite (int_of_value _ _ _ _ _ _ B Hr). apply negb_true_iff, Z.eqb_neq, C.
Qed.
Lemma cash_iff df acct r : (own df acct r && negb (has_text df (lit "exchange") r) = true <-> of_account df acct r /\ ~ exists s, field_of df r (lit "exchange") (Some s)).
Proof. rewrite andb_true_iff, negb_true_iff, own_spec, <- (has_text_spec df (lit "exchange") r), not_true_iff_false. reflexivity. Qed.
Definition demo_records (df : frame) := records_position py_int py_int Some (fun z => z) (fun z => z) df.
Example C97_demo_hyp :
  exists adf pdf selc selp r ps,
    read_csv_q (Some (asset_file cash1)) = Ok adf /\ read_csv_q (Some (position_file held1)) = Ok pdf /\
    In (lit "acct") (fr_cols adf) /\ In (lit "exchange") (fr_cols adf) /\ In (lit "acct") (fr_cols pdf) /\
    (forall x, In x (fr_rows adf) -> (selc x = true <-> of_account adf (lit "8888") x /\ ~ exists s, field_of adf x (lit "exchange") (Some s))) /\
    filter selc (fr_rows adf) = [r] /\ records_cash py_int py_int (fun z => z) Z.sub adf r (BCash (Some 1000) (Some 300) (Some 200)) /\
    (forall x, In x (fr_rows pdf) -> (selp x = true <-> of_account pdf (lit "8888") x /\ held py_int Some pdf x)) /\
    (forall x, In x (fr_rows pdf) -> of_account pdf (lit "8888") x ->
       (exists s, field_of pdf x (lit "symbol") (Some s)) /\ exists q, int_value py_int Some pdf x (lit "currentQty") q) /\
    Forall2 (demo_records pdf) (filter selp (fr_rows pdf)) ps /\ Forall known_pos ps /\ NoDup (map bp_code ps) /\ length ps = 2%nat.
Proof.
  destruct (read_csv_q (Some (asset_file cash1))) as [adf|] eqn:Ea; [|vm_compute in Ea; discriminate].
  destruct (read_csv_q (Some (position_file held1))) as [pdf|] eqn:Ep; [|vm_compute in Ep; discriminate].
  vm_compute in Ea, Ep. apply Ok_inj in Ea, Ep. subst adf pdf.
  match goal with |- exists adf pdf selc selp r ps, Ok ?A = _ /\ Ok ?P = _ /\ _ => set (da := A); set (dp := P) end.
  exists da, dp, (fun r => own da (lit "8888") r && negb (has_text da (lit "exchange") r)),
    (fun r => own dp (lit "8888") r && match int_of py_int Some dp r (lit "currentQty") with Ok q => negb (q =? 0) | Err _ => false end),
    (nth 0 (fr_rows da) []), [BPos (lit "000001.XSHE") 100 50 (Some 9) (Some 10) (Some 1000); BPos (lit "600002.XSHG") 200 0 (Some 5) (Some 6) (Some 1200)].
  split; [reflexivity|]. split; [reflexivity|]. split; [left; reflexivity|]. split; [right; left; reflexivity|]. split; [left; reflexivity|].
  split; [intros x _; apply cash_iff|]. split; [vm_compute; reflexivity|]. split; [apply asset_of_spec with (1 := or_introl eq_refl); vm_compute; reflexivity|].
  split; [intros x Hx; apply held_iff, Hx|]. split; [|split; [|split; [|split]]].
  - intros x Hx Ho. assert (Q : exists q, int_of py_int Some dp x (lit "currentQty") = Ok q /\ has_text dp (lit "symbol") x = true).
    { apply own_spec in Ho. destruct Hx as [<-|[<-|[<-|[<-|[<-|[]]]]]]; vm_compute in Ho; try discriminate; vm_compute; eauto. }
    destruct Q as (q & Q1 & Q2). split; [apply has_text_spec, Q2|]. exists q. apply int_of_spec; assumption.
  - match goal with |- Forall2 _ ?l _ => let l' := eval vm_compute in l in change l with l' end.
    constructor; [|constructor; [|constructor]].
    + apply (pos_of_spec py_int py_int Some (fun z => z) (fun z => z)) with (sym := lit "000001.SZ"); [left; reflexivity|reflexivity|vm_compute; reflexivity].
    + apply (pos_of_spec py_int py_int Some (fun z => z) (fun z => z)) with (sym := lit "600002.SH"); [do 3 right; left; reflexivity|reflexivity|vm_compute; reflexivity].
  - repeat constructor; discriminate.
  - repeat constructor; cbn; intuition discriminate.
  - reflexivity.
Qed.

(** False for a figure of 0: all cash is spent, but the strategy still sees 300. *)
Theorem C97_zero_refuted :
  exists a f, (exists b, fst (g_sync_balance zgate f) = Ok b /\ option_map c_avail (b_cash b) = Some (Some 0)) /\
    a_cash (fst (acc_sync_balance zgate a f)) = 300.
Proof. exists folio1, (with_files [lit "8888,,1000,0,200"] held1). split; [eexists; split; [vm_compute; reflexivity|reflexivity]|vm_compute; reflexivity]. Qed.
Print Assumptions C97_zero_refuted.
(** False for two records about one share (say, of two shareholder accounts): only the last
    one is shown, not the sum. *)
Theorem C97_twice_refuted :
  seen (fst (acc_sync_balance zgate acct_new (with_files cash1 [lit "8888,000001.SZ,100,50,9,10,1000"; lit "8888,000001.SZ,7,7,9,10,70"])))
  = (1000, 300, 200, [(lit "000001.XSHE", 7, 7)]).
Proof. vm_compute. reflexivity. Qed.
Print Assumptions C97_twice_refuted.
(** False for a record of the account without symbol: the positions behind it are not shown. *)
Theorem C97_symbol_refuted :
  seen (fst (acc_sync_balance zgate acct_new (with_files cash1 [lit "8888,,1,1,1,1,1"; lit "8888,000001.SZ,100,50,9,10,1000"]))) = (1000, 300, 200, []).
Proof. vm_compute. reflexivity. Qed.
Print Assumptions C97_symbol_refuted.
