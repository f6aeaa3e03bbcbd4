(** Further lemmas about the AnXin gate: lines written, blocked readers, saving. *)
From Verif Require Import PyBase PyStr LStr MTime MDate LDate MOrder MAccount MApi SAccount LAccount3 LApi
  MGate SGate LGate LGate2 LGate3.
Open Scope Z_scope.

Section Written.
  Context (ptime f3 f4 : str -> option Z) (go : gopts).

  Lemma order_columns_ok o sym now now' code z sty id :
    order_for id now' code z sty o -> z <> 0 ->
    order_columns id (go_acct go) (go_counter go) (go_algo go) sym z sty (order_fields go now o sym).
  Proof.
    intros (H1 & H2 & H3 & H4 & H5 & _) Hz. exists (fmt_stamp now), (str_of_Z (Z.abs (o_amount o))).
    rewrite H3, Z.abs_eq by lia. split; [|split; [apply str_of_abs|split; [apply stamp_numeral|apply abs_numeral]]].
    unfold order_fields, price_fields. rewrite H1, H3, H5, Z.abs_eq by lia.
    destruct (Z.ltb_spec 0 z).
    - rewrite (proj2 H4) by assumption. reflexivity.
    - destruct (o_action o); [apply proj1 in H4; specialize (H4 eq_refl); lia|reflexivity].
  Qed.
  Lemma order_fields_plain o sym now now' code z sty id :
    order_for id now' code z sty o -> plain id -> plain (go_acct go) -> plain (go_counter go) -> plain (go_algo go) -> plain sym ->
    (forall p, sty = Limit p -> plain (pval_str p)) ->
    Forall plain (order_fields go now o sym).
  Proof.
    intros (H1 & H2 & H3 & H4 & H5 & _) P1 P2 P3 P4 P5 P6. unfold order_fields. rewrite H1, H5.
    assert (L : forall s, forallb (fun c => negb (c =? COMMA)%N && negb (c =? NL)%N) s = true -> plain s) by apply plain_lit_dec.
    apply Forall_app. split.
    - repeat constructor; try (apply stamp_plain || assumption || apply str_of_abs || apply P1 || apply P2 || apply P3 || apply P4 || apply P5).
      all: try (destruct (o_action o); apply plain_lit_dec; reflexivity).
      all: try (apply (str_of_abs (o_amount o))). all: try apply stamp_plain.
    - destruct sty; repeat constructor; try (destruct (o_action o); apply plain_lit_dec; reflexivity); try (apply plain_lit_dec; reflexivity).
      all: apply (P6 p eq_refl).
  Qed.

  (** appending one record to a file *)
  Definition appended (header line old new : str) : Prop :=
    new = old ++ (match old with [] => header ++ go_eol go | _ => [] end) ++ line ++ go_eol go.
  Lemma write_done header line old :
    write_line go header (line ++ go_eol go) old WDone = (Ok tt, old ++ (match old with [] => header ++ go_eol go | _ => [] end) ++ line ++ go_eol go).
  Proof. reflexivity. Qed.
  Lemma write_ok header line old w txt : write_line go header (line ++ go_eol go) old w = (Ok tt, txt) -> appended header line old txt.
  Proof. destruct w; intro H; try discriminate. injection H as <-. reflexivity. Qed.
  Lemma write_cases header line old w r txt : write_line go header line old w = (r, txt) ->
    (r = Ok tt /\ w = WDone) \/ (exists x, r = Err x /\ (w = WFail x /\ txt = old \/ exists n, w = WTorn n x)).
  Proof.
    destruct w; cbn; intro H; injection H as <- <-; [left; auto|right; eauto|right; eexists; split; [reflexivity|]; eauto].
  Qed.

  Lemma text_same d t f : text_of d (dset d t f) = t.
  Proof. unfold text_of. rewrite dget_dset_same. reflexivity. Qed.
  Lemma text_other d d' t f : d <> d' -> text_of d (dset d' t f) = text_of d f.
  Proof. intro H. unfold text_of. rewrite dget_dset_other by exact H. reflexivity. Qed.

  (** ** blocked readers *)
  Lemma update_short l o : ~ header_line l -> (commas l < 19)%nat -> update_line ptime f3 f4 l o = LStop.
  Proof.
    intros Hh Hc. unfold update_line. destruct (strip l) eqn:Ex; [reflexivity|]. rewrite <- Ex in *.
    rewrite <- header_iff in Hh. destruct (startswith (lit "updTime") (strip l)); [congruence|].
    replace (Nat.ltb (length (columns (strip l))) 20) with true by (symmetry; apply Nat.ltb_lt; rewrite columns_length; lia).
    reflexivity.
  Qed.
  Lemma result_short l o : ~ header_line l -> (commas l < 5)%nat -> result_line l o = LStop.
  Proof.
    intros Hh Hc. unfold result_line. destruct (strip l) eqn:Ex; [reflexivity|]. rewrite <- Ex in *.
    rewrite <- header_iff in Hh. destruct (startswith (lit "updTime") (strip l)); [congruence|].
    pose proof (columns_length l) as Hl.
    destruct (columns (strip l)) as [|a [|b [|c [|d [|e [|f r]]]]]]; try reflexivity. cbn in Hl. lia.
  Qed.
  Lemma blocked step pre l rest o : whole l -> step l o = LStop ->
    read_file go step (pre ++ l ++ rest) (length pre) o = (None, length pre, o).
  Proof.
    intros Hl Hs. unfold read_file. rewrite skipn_app, skipn_all, Nat.sub_diag. cbn [app skipn].
    rewrite lines_whole by exact Hl. cbn [read_loop]. rewrite Hs. reflexivity.
  Qed.
  Lemma beyond_end step text off o : (length text <= off)%nat -> read_file go step text off o = (None, off, o).
  Proof. intro H. unfold read_file. rewrite skipn_all2 by exact H. reflexivity. Qed.

  (** ** saving *)
  Definition all_ser (o : dict str oinfo) : Prop := forallb (fun kv => serialisable (snd kv)) o = true.
  Lemma all_ser_dset k v o : serialisable v = true -> all_ser o -> all_ser (dset k v o).
  Proof.
    unfold all_ser. intro Hv. induction o as [|[k' v'] o IH]; cbn [dset forallb snd]; [rewrite Hv; reflexivity|].
    intro H. apply andb_prop in H. destruct H as [H1 H2]. destruct (eqb k k'); cbn [forallb snd]; rewrite ?Hv, ?H1, ?H2; auto.
  Qed.
  Lemma all_ser_get k v o : all_ser o -> dget k o = Some v -> serialisable v = true.
  Proof. unfold all_ser. rewrite forallb_forall. intros H E. apply dget_In in E. apply (H _ E). Qed.
  Lemma apply_ser e i : serialisable (apply e i) = serialisable i.
  Proof. unfold serialisable. destruct (apply_price e i) as [-> _]. reflexivity. Qed.

  (** one bad order spoils the dict, whatever is done to it later *)
  Lemma bad_stays k v o : dget k o = Some v -> serialisable v = false -> ~ all_ser o.
  Proof. intros E H A. rewrite (all_ser_get _ _ _ A E) in H. discriminate. Qed.
  Definition bad (k : str) (o : dict str oinfo) : Prop := exists v, dget k o = Some v /\ serialisable v = false.
  Definition step_ok (step : str -> dict str oinfo -> lres) (P : dict str oinfo -> Prop) : Prop :=
    forall l o, P o -> match step l o with LStop | LSkip => True | LNext o' => P o' | LFail o' _ => P o' end.
  Lemma read_loop_keeps step P : step_ok step P -> forall ls pos off o, P o ->
    P (snd (read_loop go step ls pos off o)).
  Proof.
    intros Hs. induction ls as [|l ls IH]; intros pos off o Ho; cbn [read_loop]; [exact Ho|].
    specialize (Hs l o Ho). destruct (step l o); auto. destruct (go_ignore go); auto.
  Qed.
  Lemma read_file_keeps step P text off o : step_ok step P -> P o -> P (snd (read_file go step text off o)).
  Proof. intros. unfold read_file. apply (read_loop_keeps step P); assumption. Qed.
  Lemma read_file_ignores step text off o : go_ignore go = true -> fst (fst (read_file go step text off o)) = None.
  Proof.
    intro Hi. unfold read_file. generalize (lines_of (skipn off text)) as ls. intro ls. generalize off at 1 as p. revert off o.
    induction ls as [|l ls IH]; intros off o p; cbn [read_loop]; [reflexivity|]. rewrite Hi. destruct (step l o); auto.
  Qed.
  Lemma update_keeps (P : dict str oinfo -> Prop) : (forall id o i e, P o -> dget id o = Some i -> P (dset id (apply e i) o)) -> step_ok (update_line ptime f3 f4) P.
  Proof.
    intros HP l o Ho. unfold update_line. destruct (strip l); [exact I|]. destruct (startswith _ _); [exact Ho|].
    destruct (Nat.ltb _ _); [exact I|]. destruct (uline_of _) as [u|]; [|exact Ho].
    destruct (dget (ul_id u) o) as [i|] eqn:E; [|exact I].
    pose proof (update_order_eff ptime f3 f4 u i) as X. destruct (update_order ptime f3 f4 u i) as [i' [x|]]; cbn in X; subst i'; apply HP; assumption.
  Qed.
  Lemma result_keeps (P : dict str oinfo -> Prop) : (forall id o i e, P o -> dget id o = Some i -> P (dset id (apply e i) o)) -> step_ok result_line P.
  Proof.
    intros HP l o Ho. unfold result_line. destruct (strip l); [exact I|]. destruct (startswith _ _); [exact Ho|].
    destruct (columns _) as [|a [|b [|c [|d [|e [|f [|g r]]]]]]]; cbn [length Nat.ltb Nat.leb]; try exact I; try exact Ho.
    destruct (str_eqb b (lit "1") && str_eqb d (lit "1")); [|exact Ho]. destruct (dget c o) as [i|] eqn:E; [|exact Ho].
    apply (HP c o i (Eff (Some (status_str Srejected)) None None (Some f) None None None None) Ho E).
  Qed.
  Lemma ser_apply id o i e : all_ser o -> dget id o = Some i -> all_ser (dset id (apply e i) o).
  Proof. intros H E. apply all_ser_dset; [rewrite apply_ser; eapply all_ser_get; eassumption|exact H]. Qed.
  Lemma bad_apply k id o i e : bad k o -> dget id o = Some i -> bad k (dset id (apply e i) o).
  Proof.
    intros (v & H1 & H2) E. unfold bad. rewrite dget_dset. destruct (eqb_spec k id) as [->|]; [|eauto].
    eexists; split; [reflexivity|]. rewrite apply_ser. congruence.
  Qed.

  Lemma save_ser g : all_ser (gs_orders g) -> ge_save (gs_env g) = Ok tt ->
    save_orders g = (Ok tt, set_data (dset (gs_day g) (gs_orders g) (gs_data g)) g).
  Proof. intros H E. unfold save_orders. unfold all_ser in H. rewrite H, E. reflexivity. Qed.
  Lemma save_bad k g : bad k (gs_orders g) -> save_orders g = (Err TypeError, g).
  Proof.
    intros (v & H1 & H2). unfold save_orders. destruct (forallb _ _) eqn:E; [|reflexivity].
    exfalso. eapply bad_stays; eassumption.
  Qed.

  (** all that can happen to the gate in one process *)
  Inductive gop := GOOrder (o : order) | GOCancel (id : str) | GOSync | GOEnv (e : genv) | GOFiles (r u : dict Z str).
  Definition g_step (op : gop) (g : gst) : gst :=
    match op with
    | GOOrder o => snd (gate_order go o g)
    | GOCancel id => snd (gate_cancel go id g)
    | GOSync => snd (gate_sync_orders ptime f3 f4 go g)
    | GOEnv e => set_env e g
    | GOFiles r u => set_bfiles r u g
    end.
  Definition g_steps (ops : list gop) (g : gst) : gst := fold_left (fun g op => g_step op g) ops g.

  Lemma sync_orders_of g (P : dict str oinfo -> Prop) :
    (forall id o i e, P o -> dget id o = Some i -> P (dset id (apply e i) o)) ->
    P (gs_orders g) -> P (gs_orders (snd (gate_sync_orders ptime f3 f4 go g))).
  Proof.
    intros HP H. unfold gate_sync_orders. destruct (dget _ (gs_ufile g)) as [ut|]; [|exact H]. destruct (dget _ (gs_rfile g)) as [rt|]; [|exact H].
    pose proof (read_file_keeps result_line P rt (gs_roff g) (gs_orders g) (result_keeps P HP) H) as H1.
    destruct (read_file go result_line rt (gs_roff g) (gs_orders g)) as [[x1 roff] o1]. cbn in H1. destruct x1; [exact H1|].
    cbn [set_rread gs_uoff].
    pose proof (read_file_keeps (update_line ptime f3 f4) P ut (gs_uoff g) o1 (update_keeps P HP) H1) as H2.
    destruct (read_file go (update_line ptime f3 f4) ut (gs_uoff g) o1) as [[x2 uoff] o2]. cbn in H2. destruct x2; [exact H2|].
    set (g2 := set_uread _ _ _). pose proof (save_orders_files g2) as (S & _). destruct (save_orders g2) as [[u|x] g3]; cbn in *; rewrite S; exact H2.
  Qed.
  Lemma order_orders_of o g (P : dict str oinfo -> Prop) :
    (P (gs_orders g) -> P (dset (o_id o) (json o) (gs_orders g))) ->
    P (gs_orders g) -> P (gs_orders (snd (gate_order go o g))).
  Proof.
    intros HP H. unfold gate_order. destruct (go_acct go); [exact H|]. destruct (negb _); [exact H|]. destruct (o_side o); [|exact H].
    destruct (encode _); [|exact H]. destruct (write_line _ _ _ _ _) as [[[]|x] txt]; [|exact H].
    set (g1 := set_gorders _ _). pose proof (save_orders_files g1) as (S & _). rewrite S. apply HP, H.
  Qed.
  Lemma cancel_orders_of id g : gs_orders (snd (gate_cancel go id g)) = gs_orders g.
  Proof. unfold gate_cancel. destruct (write_line _ _ _ _ _). reflexivity. Qed.

  Lemma steps_ser ops g : (forall o, In (GOOrder o) ops -> serialisable (json o) = true) ->
    all_ser (gs_orders g) -> all_ser (gs_orders (g_steps ops g)).
  Proof.
    revert g; induction ops as [|op ops IH]; intros g H Hg; [exact Hg|]. apply IH; [intros; apply H; right; assumption|].
    destruct op as [o|id| |e|r u]; cbn [g_step].
    - apply order_orders_of; [|exact Hg]. apply all_ser_dset, H. left. reflexivity.
    - rewrite cancel_orders_of. exact Hg.
    - apply sync_orders_of; [exact ser_apply|exact Hg].
    - exact Hg.
    - exact Hg.
  Qed.
  Lemma steps_bad k ops g : (forall o, In (GOOrder o) ops -> o_id o <> k) ->
    bad k (gs_orders g) -> bad k (gs_orders (g_steps ops g)).
  Proof.
    revert g; induction ops as [|op ops IH]; intros g H Hg; [exact Hg|]. apply IH; [intros; apply H; right; assumption|].
    destruct op as [o|id| |e|r u]; cbn [g_step].
    - apply order_orders_of; [|exact Hg]. intros (v & H1 & H2). exists v. split; [|exact H2].
      rewrite dget_dset_other; [exact H1|]. intro E. apply (H o); [left; reflexivity|congruence].
    - rewrite cancel_orders_of. exact Hg.
    - apply sync_orders_of; [intros; apply bad_apply; assumption|exact Hg].
    - exact Hg.
    - exact Hg.
  Qed.
  Lemma sync_ser g : go_ignore go = true -> all_ser (gs_orders g) -> ge_save (gs_env g) = Ok tt ->
    dget (ge_date (gs_env g)) (gs_ufile g) <> None -> dget (ge_date (gs_env g)) (gs_rfile g) <> None ->
    fst (gate_sync_orders ptime f3 f4 go g) = Ok (dvals (gs_orders (snd (gate_sync_orders ptime f3 f4 go g)))).
  Proof.
    intros Hi Hs He Hu Hr. pose proof (sync_orders_of g all_ser ser_apply Hs) as HS. revert HS.
    unfold gate_sync_orders. destruct (dget _ (gs_ufile g)) as [ut|]; [|congruence]. destruct (dget _ (gs_rfile g)) as [rt|]; [|congruence].
    pose proof (read_file_ignores result_line rt (gs_roff g) (gs_orders g) Hi) as I1.
    pose proof (read_file_keeps result_line all_ser rt (gs_roff g) (gs_orders g) (result_keeps _ ser_apply) Hs) as S1.
    destruct (read_file go result_line rt (gs_roff g) (gs_orders g)) as [[x1 roff] o1]. cbn in I1, S1. subst x1. cbn [set_rread gs_uoff].
    pose proof (read_file_ignores (update_line ptime f3 f4) ut (gs_uoff g) o1 Hi) as I2.
    pose proof (read_file_keeps (update_line ptime f3 f4) all_ser ut (gs_uoff g) o1 (update_keeps _ ser_apply) S1) as S2.
    destruct (read_file go (update_line ptime f3 f4) ut (gs_uoff g) o1) as [[x2 uoff] o2]. cbn in I2, S2. subst x2.
    set (g2 := set_uread _ _ _). rewrite (save_ser g2 S2 He). reflexivity.
  Qed.
  Lemma sync_bad k g : bad k (gs_orders g) -> exists x, fst (gate_sync_orders ptime f3 f4 go g) = Err x.
  Proof.
    intro Hb. pose proof (sync_orders_of g (bad k) (fun id o i e => bad_apply k id o i e) Hb) as HB. revert HB.
    unfold gate_sync_orders. destruct (dget _ (gs_ufile g)) as [ut|]; [|intros _; eexists; reflexivity]. destruct (dget _ (gs_rfile g)) as [rt|]; [|intros _; eexists; reflexivity].
    destruct (read_file go result_line rt (gs_roff g) (gs_orders g)) as [[[x|] roff] o1]; [intros _; eexists; reflexivity|]. cbn [set_rread gs_uoff].
    destruct (read_file go (update_line ptime f3 f4) ut (gs_uoff g) o1) as [[[y|] uoff] o2]; [intros _; eexists; reflexivity|].
    set (g2 := set_uread _ _ _). pose proof (save_orders_files g2) as (S & _).
    destruct (save_orders g2) as [[u|z] g3] eqn:E; cbn in *; [|intros _; eexists; reflexivity].
    intro HB. rewrite S in HB. rewrite (save_bad k g2 HB) in E. discriminate.
  Qed.
End Written.

(** ** single lines *)
Section Lines.
  Context (ptime f3 f4 : str -> option Z) (go : gopts).

  Lemma parse_status_iff s st : parse_status s = Ok st <-> status_code s st.
  Proof.
    unfold parse_status, status_code. split.
    - destruct (find _ _) as [kv|] eqn:E; [|discriminate]. intro H. apply Ok_inj in H. apply find_some in E. destruct E as [E1 E2].
      apply str_eqb_eq in E2. subst. destruct kv; exact E1.
    - intro H. cbn in H. repeat (destruct H as [H|H]; [injection H as <- <-; reflexivity|]). contradiction.
  Qed.
  Lemma uline_cols l : commas l = 19%nat ->
    uline_of (columns (strip l)) = Some (ULine (col 1 l) (col 2 l) (col 7 l) (col 11 l) (col 12 l) (col 13 l) (col 14 l) (col 15 l) (col 17 l) (col 18 l)).
  Proof.
    intro Hc. pose proof (columns_length l) as Hl. rewrite Hc in Hl.
    pose proof (fun k H => columns_nth l k H) as Hn. rewrite Hc in Hn.
    pose proof (Hn 1%nat ltac:(lia)) as N1. pose proof (Hn 2%nat ltac:(lia)) as N2. pose proof (Hn 7%nat ltac:(lia)) as N7.
    pose proof (Hn 11%nat ltac:(lia)) as N11. pose proof (Hn 12%nat ltac:(lia)) as N12. pose proof (Hn 13%nat ltac:(lia)) as N13.
    pose proof (Hn 14%nat ltac:(lia)) as N14. pose proof (Hn 15%nat ltac:(lia)) as N15. pose proof (Hn 17%nat ltac:(lia)) as N17.
    pose proof (Hn 18%nat ltac:(lia)) as N18. clear Hn.
    destruct (columns (strip l)) as [|c0 [|c1 [|c2 [|c3 [|c4 [|c5 [|c6 [|c7 [|c8 [|c9 [|c10 [|c11 [|c12 [|c13 [|c14 [|c15 [|c16 [|c17 [|c18 [|c19 [|c20 r]]]]]]]]]]]]]]]]]]]]]; cbn in Hl; try lia.
    cbn in *. congruence.
  Qed.
  Lemma utarget_cols l id : update_for id l ->
    utarget ptime f3 f4 l = Some (id, eff_update ptime f3 f4 (ULine (col 1 l) (col 2 l) (col 7 l) (col 11 l) (col 12 l) (col 13 l) (col 14 l) (col 15 l) (col 17 l) (col 18 l))).
  Proof.
    intros (Hh & Hc & Hi). unfold utarget. rewrite <- header_iff in Hh. destruct (startswith _ _); [congruence|].
    rewrite (uline_cols l Hc). cbn [ul_id]. rewrite Hi. reflexivity.
  Qed.
  Lemma eff_update_full u st t q a c pz :
    status_code (ul_status u) st -> ptime (ul_date u ++ ul_time u) = Some t -> py_int (ul_filled u) = Some q ->
    f4 (ul_amt u) = Some a -> py_int (ul_cancel u) = Some c -> f3 (ul_avg u) = Some pz ->
    eff_update ptime f3 f4 u = Eff (Some (status_str st)) (Some (fmt_dt t)) (Some (ul_no u)) (Some (ul_text u)) (Some q) (Some c) (Some a) (Some pz).
  Proof.
    intros H1 H2 H3 H4 H5 H6. unfold eff_update. apply parse_status_iff in H1. rewrite H1, H2, H3, H4, H5, H6. reflexivity.
  Qed.

  (** the last line about an order decides *)
  Lemma replay_last id rs pre l post i st t q a c pz :
    exclusive rs (pre ++ l :: post) -> update_for id l -> (forall x, In x post -> ~ update_for id x) ->
    status_code (col 7 l) st -> ptime (col 1 l ++ col 2 l) = Some t -> py_int (col 11 l) = Some q ->
    f4 (col 13 l) = Some a -> py_int (col 14 l) = Some c -> f3 (col 12 l) = Some pz ->
    replay ptime f3 f4 id rs (pre ++ l :: post) i =
    OInfo (i_code i) (i_price i) (i_amount i) (i_action i) (i_id i) (status_str st) (i_style i) (i_create i)
      (Some (fmt_dt t)) (i_side i) (Some (col 15 l)) (Some q) (Some c) (Some a) (Some pz) (i_comm i) (Some (col 18 l)).
  Proof.
    intros X Hl Hpost H1 H2 H3 H4 H5 H6. unfold replay.
    rewrite (all_on_none rtarget id rs).
    2:{ intros r e Hr Tr. apply (X id r l Hr); [apply in_or_app; right; left; reflexivity|apply rtarget_iff; eauto|exact Hl]. }
    rewrite all_on_app. change (l :: post) with ([l] ++ post). rewrite all_on_app.
    rewrite (all_on_none (utarget ptime f3 f4) id post).
    2:{ intros r e Hr Tr. apply (Hpost r Hr). apply (utarget_iff ptime f3 f4). eauto. }
    destruct (all_on_eff (utarget ptime f3 f4) id pre) as [e He]. rewrite He.
    cbn [all_on fold_left]. unfold all_on. cbn [fold_left]. unfold on. rewrite (utarget_cols l id Hl), eqb_refl.
    rewrite (eff_update_full _ st t q a c pz) by assumption. rewrite !apply_fields. reflexivity.
  Qed.

  (** a single line read at its position *)
  Lemma read_one step pre l o : whole l ->
    read_file go step (pre ++ l) (length pre) o =
    match step l o with
    | LStop | LSkip => (None, length pre, o)
    | LNext o' => (None, length (pre ++ l), o')
    | LFail o' x => if go_ignore go then (None, length (pre ++ l), o') else (Some x, length pre, o')
    end.
  Proof.
    intro Hl. unfold read_file. rewrite skipn_app, skipn_all, Nat.sub_diag. cbn [app skipn].
    rewrite <- (app_nil_r l) at 1. rewrite lines_whole by exact Hl. cbn [lines_of read_loop]. rewrite app_length.
    destruct (step l o); reflexivity.
  Qed.
  Lemma update_line_known l id o i : update_for id l -> dget id o = Some i ->
    update_line ptime f3 f4 l o =
    (let u := ULine (col 1 l) (col 2 l) (col 7 l) (col 11 l) (col 12 l) (col 13 l) (col 14 l) (col 15 l) (col 17 l) (col 18 l) in
     match update_order ptime f3 f4 u i with
     | (i', None) => LNext (dset id i' o)
     | (i', Some x) => LFail (dset id i' o) x
     end).
  Proof.
    intros (Hh & Hc & Hi) Hd. unfold update_line. destruct (strip l) eqn:Ex.
    - pose proof (strip_commas l) as K. rewrite Ex, Hc in K. discriminate.
    - rewrite <- Ex. rewrite <- header_iff in Hh. destruct (startswith _ (strip l)); [congruence|].
      rewrite columns_length, Hc. cbn [Nat.ltb Nat.leb]. rewrite (uline_cols l Hc). cbn [ul_id]. rewrite Hi, Hd. reflexivity.
  Qed.
  Lemma update_line_long l o : ~ header_line l -> (19 < commas l)%nat -> update_line ptime f3 f4 l o = LFail o TypeError.
  Proof.
    intros Hh Hc. unfold update_line. destruct (strip l) eqn:Ex.
    - pose proof (strip_commas l) as K. rewrite Ex in K. cbn in K. lia.
    - rewrite <- Ex. rewrite <- header_iff in Hh. destruct (startswith _ (strip l)); [congruence|].
      pose proof (columns_length l) as Hl. replace (Nat.ltb (length (columns (strip l))) 20) with false by (symmetry; apply Nat.ltb_ge; lia).
      destruct (columns (strip l)) as [|c0 [|c1 [|c2 [|c3 [|c4 [|c5 [|c6 [|c7 [|c8 [|c9 [|c10 [|c11 [|c12 [|c13 [|c14 [|c15 [|c16 [|c17 [|c18 [|c19 [|c20 r]]]]]]]]]]]]]]]]]]]]]; cbn in Hl; try lia.
      reflexivity.
  Qed.
End Lines.
