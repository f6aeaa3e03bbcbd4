(** C80: the order file holds exactly the orders submitted, in order; likewise the cancel file. *)
From Coq Require Import String.
From Verif Require Import PyBase PyStr LStr MTime MDate MOrder MAccount LAccount2 MApi MGate SAccount SGate SOfile LGate LGate2 LGate3 LGate4 TGate.
Open Scope list_scope.
Open Scope Z_scope.

Lemma text_upd d d' (t : str) f : text_of d (dset d' t f) = if d =? d' then t else text_of d f.
Proof. destruct (Z.eqb_spec d d') as [->|H]; [apply text_same|apply text_other, H]. Qed.

(** a write that is not torn: the lines of the file after it *)
Lemma holds_add go header ls old line w r txt : holds header (go_eol go) ls old -> header <> [] -> (forall n x, w <> WTorn n x) ->
  write_line go header line old w = (r, txt) ->
  holds header (go_eol go) (ls ++ if took w then [line] else []) txt /\ (r = Ok tt <-> took w = true).
Proof.
  unfold holds. intros -> Hh Hw E. destruct w as [|x|n x]; [| |destruct (Hw n x eq_refl)]; cbn in E; injection E as <- <-; cbn [took].
  - split; [|tauto]. destruct ls as [|l ls]; cbn [app concat].
    + rewrite <- app_assoc. cbn [concat]. rewrite app_nil_r. reflexivity.
    + destruct (header ++ go_eol go ++ l ++ concat ls) eqn:E; [destruct header; [congruence|discriminate]|].
      rewrite <- E, concat_app. cbn [concat app]. rewrite app_nil_r, <- !app_assoc. reflexivity.
  - rewrite app_nil_r. split; [reflexivity|split; discriminate].
Qed.

Lemma symbol_plain code sym : symbol_of code sym -> plain code -> plain sym.
Proof.
  assert (K : forall c d sep (s t : str), ~ In c t -> ~ In c (d ++ sep :: s) -> ~ In c (d ++ sep :: t)).
  { intros c d sep s t Ht H X. apply H. apply in_app_or in X. apply in_or_app. destruct X as [X|[X|X]]; [left; exact X|right; left; exact X|contradiction]. }
  intros (d & sep & H) [P1 P2]. destruct H as [[-> ->]|[-> ->]]; (split; eapply K; [|eassumption| |eassumption]);
    cbn; intros [X|[X|[]]]; discriminate.
Qed.

Section Trails.
  Context (udigit : N -> bool) (ptime f3 f4 : str -> option Z) (go : gopts) (bal : gst -> res binfo * gst).
  Context (env : genv -> Prop) (sty : style -> Prop).
  Notation gt := (anxin ptime f3 f4 go bal).
  Notation trail := (trail udigit ptime f3 f4 go bal env sty).

  Lemma sync_frame (a : acct) (g : gst) : let g' := snd (acc_sync_orders gt a g) in
    gs_ofile g' = gs_ofile g /\ gs_cfile g' = gs_cfile g /\ gs_env g' = gs_env g.
  Proof.
    cbn zeta. unfold acc_sync_orders. replace (snd (match g_sync_orders gt g with (Ok l, g') => (sync_all l a, g') | (Err _, g') => (a, g') end))
      with (snd (gate_sync_orders ptime f3 f4 go g)) by (cbn [g_sync_orders anxin]; destruct (gate_sync_orders _ _ _ _ g) as [[]]; reflexivity).
    unfold gate_sync_orders. destruct (dget _ (gs_ufile g)); [|repeat split]. destruct (dget _ (gs_rfile g)); [|repeat split].
    destruct (read_file _ _ _ _ _) as [[[x|] roff] o1]; [repeat split|].
    destruct (read_file _ _ _ _ _) as [[[x|] uoff] o2]; [repeat split|].
    set (g2 := set_uread _ _ _). pose proof (save_orders_files g2) as (_ & _ & _ & _ & H1 & H2 & _ & _ & H3).
    destruct (save_orders g2) as [[u|x] g3]; cbn [fst snd] in *; rewrite H1, H2, H3; repeat split.
  Qed.
  Lemma balance_frame (a : acct) (g : gst) : snd (bal g) = g -> snd (acc_sync_balance gt a g) = g.
  Proof.
    intro H. unfold acc_sync_balance. cbn [g_sync_balance anxin]. destruct (bal g) as [[b|x] g']; cbn in H; subst g'; [|reflexivity].
    destruct (b_cash b); [|reflexivity]. destruct (b_pos b); reflexivity.
  Qed.

  Definition ofile_ok (g : gst) (os : list oreq) : Prop :=
    forall d, exists ls, Forall2 (line_for go) (written d os) ls /\ holds order_header (go_eol go) ls (text_of d (gs_ofile g)).
  Definition cfile_ok (g : gst) (cs : list creq) : Prop :=
    forall d, exists ls, Forall2 (cline_for go) (cwritten d cs) ls /\ holds cancel_header (go_eol go) ls (text_of d (gs_cfile g)).

  Lemma order_writes o g code z st id now sep : go_acct go <> [] -> go_stock go = true ->
    order_for id now code z st o -> z <> 0 -> o_side o = Long -> code_form udigit sep code ->
    (forall n x, ge_write (gs_env g) <> WTorn n x) ->
    let g' := snd (gate_order go o g) in let d := ge_date (gs_env g) in let b := took (ge_write (gs_env g)) in
    gs_cfile g' = gs_cfile g /\ gs_env g' = gs_env g /\
    (exists line, (forall ak, line_for go (OReq id code z st d b ak) line) /\
      forall d' ls, holds order_header (go_eol go) ls (text_of d' (gs_ofile g)) ->
        holds order_header (go_eol go) (ls ++ if (d =? d') && b then [line] else []) (text_of d' (gs_ofile g'))) /\
    (fst (gate_order go o g) = Ok tt -> b = true) /\
    (b = true -> all_ser (dset id (json o) (gs_orders g)) -> ge_save (gs_env g) = Ok tt -> fst (gate_order go o g) = Ok tt).
  Proof.
    intros Ha Hs Ho Hz Hl Hf Hw g' d b. assert (Hc : o_code o = code) by apply Ho. rewrite <- Hc in Hf.
    destruct (gate_order_form go udigit sep o g Ha Hs Hl Hf) as (sym & Es & Hsy & G). cbn zeta in G. fold d in G.
    set (line := join_with COMMA (order_fields go (ge_now (gs_env g)) o sym) ++ go_eol go) in *.
    destruct (write_line go order_header line (text_of d (gs_ofile g)) (ge_write (gs_env g))) as [r txt] eqn:W.
    assert (HA : forall ls, holds order_header (go_eol go) ls (text_of d (gs_ofile g)) ->
      holds order_header (go_eol go) (ls ++ if b then [line] else []) txt).
    { intros ls H. apply (holds_add go order_header ls _ line _ r txt H ltac:(discriminate) Hw W). }
    assert (HB : r = Ok tt <-> b = true).
    { unfold b. destruct (ge_write (gs_env g)) as [|x|n x]; [| |destruct (Hw n x eq_refl)]; cbn in W; injection W as <- _; cbn; split; congruence. }
    assert (HO : gs_ofile g' = dset d txt (gs_ofile g) /\ gs_cfile g' = gs_cfile g /\ gs_env g' = gs_env g).
    { unfold g'. rewrite G. destruct r as [u|x]; [|repeat split].
      match goal with |- context [save_orders ?x] => pose proof (save_orders_files x) as (_ & _ & _ & _ & H1 & H2 & _ & _ & H3) end.
      rewrite H1, H2, H3. repeat split. }
    destruct HO as (HO & HC & HE). split; [exact HC|]. split; [exact HE|]. split; [|split].
    - exists line. split.
      + intros ak. exists sym, (order_fields go (ge_now (gs_env g)) o sym). cbn [oq_code oq_id oq_n oq_style]. rewrite <- Hc.
        split; [exact Hsy|]. split; [eapply order_columns_ok; [exact Ho|exact Hz]|]. split; [reflexivity|].
        intros (P1 & P2 & P3) (P4 & P5 & P6). cbn [oq_code oq_id oq_style] in *.
        apply split_plain; [unfold order_fields; destruct (o_style o); discriminate|].
        eapply order_fields_plain; [exact Ho|assumption..| |exact P6]. apply (symbol_plain _ _ Hsy P5).
      + intros d' ls H. rewrite HO, text_upd, (Z.eqb_sym d' d). destruct (Z.eqb_spec d d') as [<-|_]; cbn [andb].
        * apply HA, H.
        * rewrite app_nil_r. exact H.
    - rewrite G. destruct r as [[]|x]; [intros _; apply HB; reflexivity|discriminate].
    - intros Hb Hser Hsv. rewrite G. apply HB in Hb. subst r. unfold save_orders. cbn [gs_orders set_gorders set_ofile gs_env].
      assert (Hi : o_id o = id) by apply Ho. rewrite Hi. unfold all_ser in Hser. rewrite Hser, Hsv. reflexivity.
  Qed.

  Lemma cancel_writes id g : (forall n x, ge_write (gs_env g) <> WTorn n x) ->
    let g' := snd (gate_cancel go id g) in let d := ge_date (gs_env g) in let b := took (ge_write (gs_env g)) in
    gs_ofile g' = gs_ofile g /\ gs_env g' = gs_env g /\
    exists line, (forall k, cline_for go (CReq id d b k) line) /\
      forall d' ls, holds cancel_header (go_eol go) ls (text_of d' (gs_cfile g)) ->
        holds cancel_header (go_eol go) (ls ++ if (d =? d') && b then [line] else []) (text_of d' (gs_cfile g')).
  Proof.
    intros Hw g' d b. unfold g', gate_cancel. fold d. set (line := join_with COMMA _ ++ go_eol go).
    destruct (write_line go cancel_header line (text_of d (gs_cfile g)) (ge_write (gs_env g))) as [r txt] eqn:W.
    cbn [snd set_cfile gs_ofile gs_env gs_cfile]. split; [reflexivity|]. split; [reflexivity|]. exists line. split.
    - intros k. exists (fmt_stamp (ge_now (gs_env g))). unfold line. cbn [join_with cq_id]. rewrite <- app_assoc. split; [reflexivity|apply stamp_numeral].
    - intros d' ls H. rewrite text_upd, (Z.eqb_sym d' d). destruct (Z.eqb_spec d d') as [<-|_]; cbn [andb].
      + apply (holds_add go cancel_header ls _ line _ r txt H ltac:(discriminate) Hw W).
      + rewrite app_nil_r. exact H.
  Qed.

  Definition saved_ser (g : gst) : Prop := forall d l, dget d (gs_data g) = Some l -> all_ser l.
  Lemma save_saved g : saved_ser g -> saved_ser (snd (save_orders g)).
  Proof.
    unfold save_orders. intro H. destruct (forallb _ _) eqn:E; [|exact H]. destruct (ge_save _) as [u|]; [|exact H].
    cbn [snd]. intros d l. cbn [set_data gs_data]. destruct (Z.eq_dec d (gs_day g)) as [->|Hd].
    - rewrite dget_dset_same. intro X. injection X as <-. exact E.
    - rewrite dget_dset_other by exact Hd. apply H.
  Qed.

  Lemma trail_inv a g os cs : go_acct go <> [] -> go_stock go = true -> (forall e, env e -> ~ torn e) ->
    trail a g os cs -> ofile_ok g os /\ cfile_ok g cs /\ env (gs_env g) /\ (forall q, In q os -> oq_ack q = true -> oq_done q = true).
  Proof.
    intros Ha Hs He T.
    assert (NT : forall g, env (gs_env g) -> forall n x, ge_write (gs_env g) <> WTorn n x).
    { intros g0 H n x E. apply (He _ H). exists n, x. exact E. }
    induction T as [g H1 H2 _ _ H3|a g os cs id now sep code n st sd r a' g' T (IO & IC & IE & IA) Hf Hn _ E|a g os cs id T (IO & IC & IE & IA)
      |a g os cs e T (IO & IC & IE & IA) H|a g os cs r u T IH|a g os cs T (IO & IC & IE & IA)|a g os cs T (IO & IC & IE & IA) H|a g os cs ok T IH].
    - split; [|split; [|split; [exact H3|intros q []]]].
      + intros d. exists []. split; [constructor|]. unfold holds. apply H1.
      + intros d. exists []. split; [constructor|]. unfold holds. apply H2.
    - destruct (acc_order_book gt _ _ _ _ _ _ _ _ _ _ _ E) as (_ & _ & -> & ->). cbn [g_order anxin].
      destruct (order_writes (new_order id now code n st sd) g code n st id now sep Ha Hs (new_order_for _ _ _ _ _ _ Hn) Hn eq_refl Hf (NT g IE))
        as (HC & HE & (line & HL & HO) & HA & _).
      split; [|split; [|split]].
      + intros d. destruct (IO d) as (ls & F & Hh). eexists. split; [|apply HO, Hh].
        unfold written. rewrite filter_app. apply Forall2_app; [exact F|]. cbn [filter oq_day oq_done].
        destruct ((ge_date (gs_env g) =? d) && took (ge_write (gs_env g))); constructor; [apply HL|constructor].
      + intros d. rewrite HC. apply IC.
      + rewrite HE. exact IE.
      + intros q Hq. apply in_app_or in Hq. destruct Hq as [Hq|[<-|[]]]; [apply IA, Hq|]. cbn [oq_ack oq_done].
        destruct (fst (gate_order go _ g)) as [[]|] eqn:Er; [|discriminate]. intros _. apply HA. reflexivity.
    - rewrite acc_cancel_spec. cbn [fst snd]. destruct (dmem id (a_orders a)); cbn [g_cancel anxin].
      + destruct (cancel_writes id g (NT g IE)) as (HO & HE & line & HL & HC). split; [|split; [|split; [rewrite HE; exact IE|exact IA]]].
        * intros d. rewrite HO. apply IO.
        * intros d. destruct (IC d) as (ls & F & Hh). eexists. split; [|apply HC, Hh].
          unfold cwritten. rewrite filter_app. apply Forall2_app; [exact F|]. cbn [filter cq_day cq_done cq_known]. rewrite andb_true_r.
          destruct ((ge_date (gs_env g) =? d) && took (ge_write (gs_env g))); constructor; [apply HL|constructor].
      + split; [exact IO|]. split; [|split; [exact IE|exact IA]]. intros d. destruct (IC d) as (ls & F & Hh). exists ls. split; [|exact Hh].
        unfold cwritten. rewrite filter_app. cbn [filter cq_day cq_done cq_known]. rewrite andb_false_r, app_nil_r. exact F.
    - split; [exact IO|]. split; [exact IC|]. split; [exact H|exact IA].
    - exact IH.
    - pose proof (sync_frame a g) as (H1 & H2 & H3). unfold ofile_ok, cfile_ok. rewrite H1, H2, H3. auto.
    - rewrite balance_frame by exact H. auto.
    - exact IH.
  Qed.
  (** every order written is acknowledged when saving works *)
  Lemma trail_acked a g os cs : go_acct go <> [] -> go_stock go = true -> (forall e, env e -> ~ torn e /\ ge_save e = Ok tt) ->
    (forall st, sty st -> forall p, style_price st <> PBad p) ->
    trail a g os cs -> all_ser (gs_orders g) /\ saved_ser g /\ forall q, In q os -> oq_done q = oq_ack q.
  Proof.
    intros Ha Hs He Hp T.
    assert (HI : forall a g os cs, trail a g os cs -> env (gs_env g)).
    { intros. apply (trail_inv a0 g0 os0 cs0 Ha Hs); [|assumption]. intros e Hx. apply He, Hx. }
    induction T as [g _ _ H1 H2 _|a g os cs id now sep code n st sd r a' g' T (IS & ID & IA) Hf Hn Hst E|a g os cs id T (IS & ID & IA)
      |a g os cs e T (IO & IC & IE) H|a g os cs r u T IH|a g os cs T (IS & ID & IA)|a g os cs T IH H|a g os cs ok T (IS & ID & IA)].
    - rewrite H1. split; [reflexivity|]. split; [unfold saved_ser; rewrite H2; discriminate|intros q []].
    - pose proof (HI _ _ _ _ T) as Henv. destruct (He _ Henv) as (NT & Hsv).
      assert (NT' : forall n x, ge_write (gs_env g) <> WTorn n x) by (intros k x X; apply NT; exists k, x; exact X).
      destruct (acc_order_book gt _ _ _ _ _ _ _ _ _ _ _ E) as (_ & _ & -> & ->). cbn [g_order anxin]. set (o := new_order id now code n st sd).
      destruct (order_writes o g code n st id now sep Ha Hs (new_order_for _ _ _ _ _ _ Hn) Hn eq_refl Hf NT') as (_ & _ & _ & HA & HB).
      assert (So : serialisable (json o) = true).
      { unfold serialisable. cbn. destruct (style_price st) as [| |p] eqn:Ep; try reflexivity. destruct (Hp st Hst p Ep). }
      assert (Sd : all_ser (dset id (json o) (gs_orders g))) by (apply all_ser_dset; assumption).
      split; [|split].
      + apply order_orders_of; [intros _; exact Sd|exact IS].
      + unfold gate_order. destruct (go_acct go); [exact ID|]. destruct (negb _); [exact ID|]. destruct (o_side o); [|exact ID].
        destruct (encode _); [|exact ID]. destruct (write_line _ _ _ _ _) as [[[]|x] txt]; [|exact ID]. apply save_saved. exact ID.
      + intros q Hq. apply in_app_or in Hq. destruct Hq as [Hq|[<-|[]]]; [apply IA, Hq|]. cbn [oq_ack oq_done].
        destruct (took (ge_write (gs_env g))); [rewrite (HB eq_refl Sd Hsv); reflexivity|].
        destruct (fst (gate_order go o g)) as [[]|] eqn:Er; [specialize (HA eq_refl); discriminate|reflexivity].
    - rewrite acc_cancel_spec. cbn [fst snd]. destruct (dmem id (a_orders a)); cbn [g_cancel anxin]; [|auto].
      unfold saved_ser. rewrite cancel_orders_of. split; [exact IS|]. split; [|exact IA]. unfold gate_cancel. destruct (write_line _ _ _ _ _). exact ID.
    - auto.
    - exact IH.
    - assert (HG : snd (acc_sync_orders gt a g) = snd (gate_sync_orders ptime f3 f4 go g)).
      { unfold acc_sync_orders. cbn [g_sync_orders anxin]. destruct (gate_sync_orders _ _ _ _ g) as [[]]; reflexivity. }
      rewrite HG. split; [|split; [|exact IA]].
      + apply sync_orders_of; [exact ser_apply|exact IS].
      + unfold gate_sync_orders. destruct (dget _ (gs_ufile g)); [|exact ID]. destruct (dget _ (gs_rfile g)); [|exact ID].
        destruct (read_file _ _ _ _ _) as [[[x|] roff] o1]; [exact ID|].
        destruct (read_file _ _ _ _ _) as [[[x|] uoff] o2]; [exact ID|].
        set (g2 := set_uread _ _ _). assert (H2 : saved_ser g2) by exact ID. pose proof (save_saved g2 H2) as H3.
        destruct (save_orders g2) as [[u|x] g3]; exact H3.
    - rewrite balance_frame by exact H. exact IH.
    - split; [|split; [exact ID|exact IA]]. cbn [gate_setup gs_orders]. destruct ok; [|reflexivity]. unfold data_of.
      destruct (dget _ (gs_data g)) as [l|] eqn:El; [apply (ID _ _ El)|reflexivity].
  Qed.
End Trails.

(** The claim: whatever happens, the order file of a day holds a header and the lines of
    the orders acknowledged on that day, in order. *)
Definition exactly_acked (env : genv -> Prop) : Prop :=
  forall udigit ptime f3 f4 go bal a g os cs, go_acct go <> [] -> go_stock go = true ->
    trail udigit ptime f3 f4 go bal env (fun _ => True) a g os cs ->
    forall d, exists ls,
      Forall2 (line_for go) (filter (fun q => (oq_day q =? d) && oq_ack q) os) ls /\
      holds order_header (go_eol go) ls (text_of d (gs_ofile g)).

Definition env_with (w : wout) (s : res unit) : genv := GEnv 19000 (19000 * DAY + 34200 * US) w s.
Definition op (id : string) (n : Z) (x : acct * gst) : acct * gst :=
  let '(_, a, g) := acc_order demo_gate (lit id) (19000 * DAY + 34200 * US) (lit "600000.XSHG") n (Limit (PNum (lit "10.5"))) Long (fst x) (snd x) in (a, g).
Lemma demo_code_form : code_form no_ud 46%N (lit "600000.XSHG").
Proof.
  exists (lit "600000"), (lit "XSHG"). split; [reflexivity|]. split; [discriminate|]. split; [|right; reflexivity].
  repeat (constructor; [split; discriminate|]). constructor.
Qed.
Definition demo_bal (g : gst) : res binfo * gst := (Err OSError, g).
Notation demo_trail env := (trail no_ud demo_ptime demo_f3 demo_f4 demo_go demo_bal env (fun _ => True)).
Definition rq (id : string) (n : Z) (b ak : bool) : oreq :=
  OReq (lit id) (lit "600000.XSHG") n (Limit (PNum (lit "10.5"))) 19000 b ak.
Lemma demo_start (env : genv -> Prop) e : env e -> demo_trail env acct_new (set_env e demo_g0) [] [].
Proof. intro H. apply t_start; try reflexivity; exact H. Qed.
Lemma demo_op (env : genv -> Prop) id n x os cs : demo_trail env (fst x) (snd x) os cs -> n <> 0 -> ge_date (gs_env (snd x)) = 19000 ->
  demo_trail env (fst (op id n x)) (snd (op id n x))
    (os ++ [rq id n (took (ge_write (gs_env (snd x))))
       (match fst (gate_order demo_go (new_order (lit id) (19000 * DAY + 34200 * US) (lit "600000.XSHG") n (Limit (PNum (lit "10.5"))) Long) (snd x))
        with Ok _ => true | Err _ => false end)]) cs.
Proof.
  intros T Hn Hd. unfold op. destruct (acc_order demo_gate _ _ _ _ _ _ _ _) as [[r a'] g'] eqn:E. cbn [fst snd].
  pose proof (t_order no_ud demo_ptime demo_f3 demo_f4 demo_go demo_bal env (fun _ => True) _ _ _ _ _ _ _ _ _ _ _ _ _ _ T demo_code_form Hn I E) as T'.
  rewrite Hd in T'. destruct (acc_order_book _ _ _ _ _ _ _ _ _ _ _ _ E) as (_ & _ & _ & R).
  unfold rq. cbn [g_order demo_gate anxin] in R. destruct (fst (gate_order _ _ _)); rewrite R in T'; exact T'.
Qed.

(** False: an order that could not be saved returns None, but its line is in the file. *)
Theorem C80_unsaved_refuted : ~ exactly_acked (fun e => ~ torn e).
Proof.
  intros Hc.
  assert (T : demo_trail (fun e => ~ torn e) _ _ _ _) by (apply (demo_op _ "1" 100 (acct_new, set_env (env_with WDone (Err OSError)) demo_g0) [] []);
    [apply demo_start; intros (n & x & H); discriminate|discriminate|reflexivity]).
  destruct (Hc no_ud demo_ptime demo_f3 demo_f4 demo_go demo_bal _ _ _ _ ltac:(discriminate) eq_refl T 19000) as (ls & F & H).
  match type of F with Forall2 _ ?q _ => replace q with (@nil oreq) in F by (vm_compute; reflexivity) end.
  inversion F; subst ls. unfold holds in H. apply (f_equal (@length N)) in H. vm_compute in H. discriminate.
Qed.
Print Assumptions C80_unsaved_refuted.

(** The claim for single orders: an order whose id was returned has a line of its own. *)
Definition own_line (env : genv -> Prop) : Prop :=
  forall udigit ptime f3 f4 go bal a g os cs q, go_acct go <> [] -> go_stock go = true -> go_eol go = eol_posix ->
    plain_opts go -> plain_req q ->
    trail udigit ptime f3 f4 go bal env (fun _ => True) a g os cs -> In q os -> oq_ack q = true ->
    exists l, In l (lines_of (text_of (oq_day q) (gs_ofile g))) /\ line_for go q l.

(** False: after a write that stops half way the next line is glued to the torn one, and
    its order is acknowledged all the same. *)
Theorem C80_torn_refuted : ~ own_line (fun _ => True).
Proof.
  intros Hc.
  pose (x1 := op "1" 100 (acct_new, set_env (env_with (WTorn 140 OSError) (Ok tt)) demo_g0)).
  assert (T1 : demo_trail (fun _ => True) (fst x1) (snd x1) [rq "1" 100 false false] []).
  { apply (demo_op (fun _ => True) "1" 100 (acct_new, set_env (env_with (WTorn 140 OSError) (Ok tt)) demo_g0) [] []); [apply demo_start; exact I|discriminate|reflexivity]. }
  pose (x2 := op "2" 200 (fst x1, set_env demo_env (snd x1))).
  assert (T2 : demo_trail (fun _ => True) (fst x2) (snd x2) [rq "1" 100 false false; rq "2" 200 true true] []).
  { apply (demo_op (fun _ => True) "2" 200 (fst x1, set_env demo_env (snd x1)) [rq "1" 100 false false] []); [|discriminate|reflexivity].
    apply t_env; [exact T1|exact I]. }
  assert (P : forall s, forallb (fun c => negb (c =? COMMA)%N && negb (c =? NL)%N) s = true -> plain s) by apply plain_lit_dec.
  assert (PO : plain_opts demo_go) by (repeat split; apply P; reflexivity).
  assert (PR : plain_req (rq "2" 200 true true)).
  { split; [apply P; reflexivity|]. split; [apply P; reflexivity|]. intros p E. injection E as <-. apply P; reflexivity. }
  destruct (Hc no_ud demo_ptime demo_f3 demo_f4 demo_go demo_bal _ _ _ _ (rq "2" 200 true true) ltac:(discriminate) eq_refl eq_refl PO PR T2
    ltac:(right; left; reflexivity) eq_refl) as (l & Hl & sym & cols & _ & (stamp & qty & Hcols & _) & El & HS).
  destruct (HS PO PR) as [Hsp _].
  assert (El' : removelast l = join_with COMMA cols) by (rewrite El; apply removelast_last).
  rewrite <- El' in Hsp. apply (f_equal (fun c => nth 1 c [])) in Hsp. rewrite Hcols in Hsp. cbn [app nth oq_id rq] in Hsp.
  assert (LL : lines_of (text_of (oq_day (rq "2" 200 true true)) (gs_ofile (snd x2))) =
    [order_header ++ [NL]; nl "093000.000000,1,UM0,8888,60093000.000000,2,UM0,8888,600000.SH,1,200,DMA,AT,0,10.5,10.5"]) by (vm_compute; reflexivity).
  rewrite LL in Hl. clear - Hl Hsp. destruct Hl as [Hl|[Hl|Hl]]; [| |destruct Hl]; rewrite <- Hl in Hsp; vm_compute in Hsp; discriminate.
Qed.
Print Assumptions C80_torn_refuted.

(** What holds when no write stops half way: the order file of a day is a header and the
    lines of the orders of that day that the disk took, in order, each with its data; the
    cancel file holds a line for every cancel of a known order that the disk took; and an
    order whose id was returned is among the written ones. *)
Theorem C80_files_partial :
  forall udigit ptime f3 f4 go bal (env : genv -> Prop) (sty : style -> Prop) a g os cs, go_acct go <> [] -> go_stock go = true -> (forall e, env e -> ~ torn e) ->
    trail udigit ptime f3 f4 go bal env sty a g os cs ->
    (forall d, exists ls, Forall2 (line_for go) (written d os) ls /\ holds order_header (go_eol go) ls (text_of d (gs_ofile g))) /\
    (forall d, exists ls, Forall2 (cline_for go) (cwritten d cs) ls /\ holds cancel_header (go_eol go) ls (text_of d (gs_cfile g))) /\
    (forall q, In q os -> oq_ack q = true -> In q (written (oq_day q) os)).
Proof.
  intros udigit ptime f3 f4 go bal env sty a g os cs Ha Hs He T.
  destruct (trail_inv udigit ptime f3 f4 go bal env sty a g os cs Ha Hs He T) as (IO & IC & _ & IA).
  split; [exact IO|]. split; [exact IC|]. intros q Hq Hk. apply filter_In. split; [exact Hq|]. rewrite Z.eqb_refl, (IA q Hq Hk). reflexivity.
Qed.
Print Assumptions C80_files_partial.

(** When moreover saving works and no price is of a kind JSON does not know, the written
    orders are exactly the acknowledged ones. *)
Theorem C80_exact_partial :
  forall udigit ptime f3 f4 go bal (env : genv -> Prop) (sty : style -> Prop) a g os cs, go_acct go <> [] -> go_stock go = true ->
    (forall e, env e -> ~ torn e /\ ge_save e = Ok tt) -> (forall st, sty st -> forall p, style_price st <> PBad p) ->
    trail udigit ptime f3 f4 go bal env sty a g os cs ->
    forall d, exists ls,
      Forall2 (line_for go) (filter (fun q => (oq_day q =? d) && oq_ack q) os) ls /\
      holds order_header (go_eol go) ls (text_of d (gs_ofile g)).
Proof.
  intros udigit ptime f3 f4 go bal env sty a g os cs Ha Hs He Hp T d.
  destruct (trail_acked udigit ptime f3 f4 go bal env sty a g os cs Ha Hs He Hp T) as (_ & _ & IA).
  destruct (trail_inv udigit ptime f3 f4 go bal env sty a g os cs Ha Hs (fun e H => proj1 (He e H)) T) as (IO & _).
  destruct (IO d) as (ls & F & H). exists ls. split; [|exact H].
  replace (filter _ os) with (written d os); [exact F|]. apply filter_ext_in. intros q Hq. rewrite (IA q Hq). reflexivity.
Qed.
Print Assumptions C80_exact_partial.

(** Then, on POSIX and with texts free of commas and line breaks, the lines of the file are
    the header and one line for each order, and an acknowledged order has its own. *)
Theorem C80_own_line_partial :
  forall udigit ptime f3 f4 go bal (env : genv -> Prop) (sty : style -> Prop) a g os cs, go_acct go <> [] -> go_stock go = true -> go_eol go = eol_posix ->
    plain_opts go -> (forall q, In q os -> plain_req q) -> (forall e, env e -> ~ torn e) ->
    trail udigit ptime f3 f4 go bal env sty a g os cs ->
    forall d, exists ls, Forall2 (line_for go) (written d os) ls /\
      lines_of (text_of d (gs_ofile g)) = match ls with [] => [] | _ => (order_header ++ [NL]) :: ls end /\
      (forall q, In q os -> oq_day q = d -> oq_ack q = true ->
         exists l, In l (lines_of (text_of d (gs_ofile g))) /\ line_for go q l).
Proof.
  intros udigit ptime f3 f4 go bal env sty a g os cs Ha Hs Heol HP HQ He T d.
  destruct (C80_files_partial udigit ptime f3 f4 go bal env sty a g os cs Ha Hs He T) as (HO & _ & HA).
  destruct (HO d) as (ls & F & H). exists ls. split; [exact F|].
  assert (W : Forall whole ls).
  { assert (HQ' : forall q, In q (written d os) -> plain_req q) by (intros q Hq; apply filter_In in Hq; apply HQ, Hq).
    clear H. induction F as [|q l qs ls Hl _ IH]; [constructor|]. constructor; [|apply IH; intros; apply HQ'; right; assumption].
    destruct Hl as (sym & cols & _ & _ & -> & Hs2). exists (join_with COMMA cols). rewrite Heol. split; [reflexivity|].
    apply (Hs2 HP). apply HQ'. left. reflexivity. }
  assert (L : lines_of (text_of d (gs_ofile g)) = match ls with [] => [] | _ => (order_header ++ [NL]) :: ls end).
  { rewrite H. destruct ls as [|l ls]; [reflexivity|]. rewrite Heol. unfold eol_posix. rewrite app_assoc, lines_whole.
    - f_equal. rewrite <- (app_nil_r (concat (l :: ls))), lines_concat by exact W. cbn [lines_of]. apply app_nil_r.
    - exists order_header. split; [reflexivity|]. intro X. assert (P : plain order_header \/ ~ In NL order_header); [right|destruct P as [[_ P]|P]; exact (P X)].
      clear. intro X. assert (B : existsb (N.eqb NL) order_header = true) by (apply existsb_exists; exists NL; split; [exact X|reflexivity]).
      vm_compute in B. discriminate. }
  split; [exact L|]. intros q Hq Hd Hk. specialize (HA q Hq Hk). rewrite Hd in HA. clear H. rewrite L.
  clear L W. revert HA. induction F as [|q' l qs ls Hl F IH]; intros [].
  - subst q'. exists l. split; [right; left; reflexivity|exact Hl].
  - destruct (IH H) as (l' & Hin & Hl'). exists l'. split; [|exact Hl']. destruct ls; [destruct Hin|]. destruct Hin as [Hin|Hin]; [left; exact Hin|right; right; exact Hin].
Qed.
Print Assumptions C80_own_line_partial.

(** three orders, of which the disk refuses the second *)
Definition x_a := op "1" 100 (acct_new, demo_g0).
Definition x_b := op "2" 200 (fst x_a, set_env (env_with (WFail TimeOut) (Ok tt)) (snd x_a)).
Definition x_c := op "3" (-300) (fst x_b, set_env demo_env (snd x_b)).
Example C80_demo :
  demo_trail (fun e => ~ torn e) (fst x_c) (snd x_c) [rq "1" 100 true true; rq "2" 200 false false; rq "3" (-300) true true] [] /\
  text_of 19000 (gs_ofile (snd x_c)) = order_header ++ [NL] ++
    nl "093000.000000,1,UM0,8888,600000.SH,1,100,DMA,AT,0,10.5,10.5" ++
    nl "093000.000000,3,UM0,8888,600000.SH,2,300,DMA,AT,0,10.5,10.5" /\
  written 19000 [rq "1" 100 true true; rq "2" 200 false false; rq "3" (-300) true true] = [rq "1" 100 true true; rq "3" (-300) true true].
Proof.
  assert (N : forall w s, (forall n x, w <> WTorn n x) -> ~ torn (env_with w s)).
  { intros w s H (n & x & E). apply (H n x E). }
  split; [|split; vm_compute; reflexivity].
  apply (demo_op (fun e => ~ torn e) "3" (-300) (fst x_b, set_env demo_env (snd x_b)) [rq "1" 100 true true; rq "2" 200 false false] []); [|discriminate|reflexivity].
  apply t_env; [|apply (N WDone (Ok tt)); discriminate].
  apply (demo_op (fun e => ~ torn e) "2" 200 (fst x_a, set_env (env_with (WFail TimeOut) (Ok tt)) (snd x_a)) [rq "1" 100 true true] []); [|discriminate|reflexivity].
  apply t_env; [|apply N; discriminate].
  apply (demo_op (fun e => ~ torn e) "1" 100 (acct_new, demo_g0) [] []); [|discriminate|reflexivity].
  apply (demo_start (fun e => ~ torn e) demo_env). apply (N WDone (Ok tt)); discriminate.
Qed.
