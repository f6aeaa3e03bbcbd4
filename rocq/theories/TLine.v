(** C130: what each line of the broker's files does to the orders, and what a sync makes of
    whole files, whatever stands in them. *)
From Verif Require Import PyBase PyStr LStr MTime MDate MOrder MAccount MGate SGate LGate LGate2 LGate3 LGate4 SLine.
Open Scope Z_scope.
Section C.
  Context (ptime f3 f4 : str -> option Z) (go : gopts).

  Lemma one_set id i' o : one_changed id i' o (dset id i' o).
  Proof. split; [apply dget_dset_same|]. intros k Hk. apply dget_dset_other. congruence. Qed.
  Lemma makes_order l i : let u := ULine (col 1 l) (col 2 l) (col 7 l) (col 11 l) (col 12 l) (col 13 l) (col 14 l) (col 15 l) (col 17 l) (col 18 l) in
    update_makes ptime f3 f4 l i (fst (update_order ptime f3 f4 u i)) (snd (update_order ptime f3 f4 u i)).
  Proof.
    cbn zeta. unfold update_order. cbn [ul_status ul_date ul_time ul_filled ul_amt ul_cancel ul_avg ul_text ul_no].
    destruct (parse_status (col 7 l)) as [st|x] eqn:E1.
    2:{ assert (x = ParserError) as -> by (unfold parse_status in E1; destruct (find _ _); congruence).
        apply um_status. intros st H. apply parse_status_iff in H. congruence. }
    apply parse_status_iff in E1.
    destruct (ptime _) as [t|] eqn:E2; [|exact (um_time _ _ _ l i st E1 E2)].
    destruct (py_int (col 11 l)) as [q|] eqn:E3; [|exact (um_filled _ _ _ l i st t E1 E2 E3)].
    destruct (f4 _) as [a|] eqn:E4; [|exact (um_deal _ _ _ l i st t q E1 E2 E3 E4)].
    destruct (py_int (col 14 l)) as [c|] eqn:E5; [|exact (um_canceled _ _ _ l i st t q a E1 E2 E3 E4 E5)].
    destruct (f3 _) as [p|] eqn:E6; [|exact (um_avg _ _ _ l i st t q a c E1 E2 E3 E4 E5 E6)]. exact (um_all _ _ _ l i st t q a c p E1 E2 E3 E4 E5 E6).
  Qed.
  Lemma update_header l o : header_line l -> update_line ptime f3 f4 l o = LNext o.
  Proof.
    intros H. unfold update_line. destruct (strip l) eqn:Ex; [destruct H as [r H]; rewrite Ex in H; discriminate|]. rewrite <- Ex.
    apply header_iff in H. rewrite H. reflexivity.
  Qed.
  Lemma update_unknown l o : update_for (col 17 l) l -> dget (col 17 l) o = None -> update_line ptime f3 f4 l o = LSkip.
  Proof.
    intros (Hh & Hc & _) Hd. unfold update_line. destruct (strip l) eqn:Ex.
    - pose proof (strip_commas l) as K. rewrite Ex, Hc in K. discriminate.
    - rewrite <- Ex. rewrite <- header_iff in Hh. destruct (startswith _ (strip l)); [congruence|].
      rewrite columns_length, Hc. cbn [Nat.ltb Nat.leb]. rewrite (uline_cols l Hc). cbn [ul_id]. rewrite Hd. reflexivity.
  Qed.
  Definition fate_of (r : lres) : fate := match r with LStop => Stops | LNext _ => Taken | LSkip => Passes | LFail _ x => Fails x end.
  Definition orders_of (r : lres) (o : dict str oinfo) : dict str oinfo :=
    match r with LStop | LSkip => o | LNext o' | LFail o' _ => o' end.

  Lemma update_fates l o : update_fate ptime f3 f4 l o (fate_of (update_line ptime f3 f4 l o)) (orders_of (update_line ptime f3 f4 l o) o).
  Proof.
    destruct (header_dec l) as [H|H].
    - rewrite update_header by exact H. apply uf_header; [exact H|intros id; reflexivity].
    - destruct (Nat.lt_trichotomy (commas l) 19) as [C|[C|C]].
      + rewrite update_short by assumption. apply uf_short; auto. intros id; reflexivity.
      + assert (U : update_for (col 17 l) l) by (split; [exact H|split; [exact C|reflexivity]]).
        destruct (dget (col 17 l) o) as [i|] eqn:E.
        * rewrite (update_line_known ptime f3 f4 l _ o i U E). cbn zeta. pose proof (makes_order l i) as M. cbn zeta in M.
          destruct (update_order _ _ _ _ i) as [i' [x|]]; cbn [fst snd fate_of orders_of] in *.
          -- change (Fails x) with (match Some x with Some y => Fails y | None => Taken end). eapply uf_known; eauto using one_set.
          -- change Taken with (match @None exn with Some y => Fails y | None => Taken end). eapply uf_known; eauto using one_set.
        * rewrite update_unknown by assumption. eapply uf_unknown; eauto. intros id; reflexivity.
      + rewrite update_line_long by assumption. apply uf_long; auto. intros id; reflexivity.
  Qed.
  Lemma result_cols l : commas l = 5%nat -> columns (strip l) = [col 0 l; col 1 l; col 2 l; col 3 l; col 4 l; col 5 l].
  Proof.
    intros H. pose proof (columns_length l) as Hl. rewrite H in Hl. unfold col.
    assert (Hn : forall k, (k < 6)%nat -> strip (nth k (split_on COMMA (strip l)) []) = nth k (columns (strip l)) []).
    { intros k Hk. unfold columns. rewrite <- (map_nth strip). apply nth_indep. fold (columns (strip l)). lia. }
    rewrite !Hn by lia. destruct (columns (strip l)) as [|a [|b [|c [|d [|e [|f [|]]]]]]]; cbn in Hl; try lia. reflexivity.
  Qed.
  Lemma result_fates l o : result_fate l o (fate_of (result_line l o)) (orders_of (result_line l o) o).
  Proof.
    destruct (header_dec l) as [H|H].
    - assert (E : result_line l o = LNext o).
      { unfold result_line. destruct (strip l) eqn:Ex; [destruct H as [r H]; rewrite Ex in H; discriminate|]. rewrite <- Ex.
        apply header_iff in H. rewrite H. reflexivity. }
      rewrite E. apply rf_header; [exact H|intros id; reflexivity].
    - destruct (Nat.lt_trichotomy (commas l) 5) as [C|[C|C]].
      + rewrite result_short by assumption. apply rf_short; auto. intros id; reflexivity.
      + unfold result_line. destruct (strip l) eqn:Ex.
        { pose proof (strip_commas l) as K. rewrite Ex, C in K. discriminate. }
        rewrite <- Ex. destruct (startswith _ (strip l)) eqn:Es; [apply header_iff in Es; contradiction|].
        rewrite (result_cols l C).
        destruct (str_eqb (col 1 l) (lit "1") && str_eqb (col 3 l) (lit "1")) eqn:B.
        * apply andb_prop in B as [B1 B2]. apply str_eqb_eq in B1, B2.
          assert (R : reject_for (col 2 l) l) by (repeat split; auto).
          destruct (dget (col 2 l) o) as [i|] eqn:E; cbn [fate_of orders_of].
          -- eapply rf_reject; [exact R|exact E|]. apply one_set.
          -- apply rf_other; auto; [|intros id; reflexivity]. intros id (_ & _ & _ & _ & <-). exact E.
        * cbn [fate_of orders_of]. apply rf_other; auto; [|intros id; reflexivity].
          intros id (_ & _ & X1 & X2 & _). exfalso. rewrite X1, X2 in B. discriminate.
      + assert (E : result_line l o = LFail o TypeError).
        { unfold result_line. destruct (strip l) eqn:Ex; [pose proof (strip_commas l) as K; rewrite Ex in K; cbn in K; lia|]. rewrite <- Ex.
          destruct (startswith _ (strip l)) eqn:Es; [apply header_iff in Es; contradiction|].
          pose proof (columns_length l) as Hl. destruct (columns (strip l)) as [|a [|b [|c [|d [|e [|f [|g r]]]]]]]; cbn in Hl; try lia. reflexivity. }
        rewrite E. apply rf_long; auto. intros id; reflexivity.
  Qed.

  Lemma loop_reads (kind : str -> dict str oinfo -> fate -> dict str oinfo -> Prop) step : (forall l o, kind l o (fate_of (step l o)) (orders_of (step l o) o)) ->
    forall ls pos off o e off' o', read_loop go step ls pos off o = (e, off', o') -> reads (go_ignore go) kind ls pos off o e off' o'.
  Proof.
    intros Hk. induction ls as [|l ls IH]; intros pos off o e off' o' H; cbn [read_loop] in H.
    - injection H as <- <- <-. constructor. intros id; reflexivity.
    - pose proof (Hk l o) as K. destruct (step l o) as [|o1| |o1 x]; cbn [fate_of orders_of] in K.
      + injection H as <- <- <-. constructor. exact K.
      + eapply r_take; [exact K|apply IH, H].
      + eapply r_pass; [exact K|apply IH, H].
      + destruct (go_ignore go) eqn:G.
        * eapply r_ignore; [reflexivity|exact K|]. apply IH. exact H.
        * injection H as <- <- <-. apply r_fail; [reflexivity|exact K].
  Qed.
End C.

(** ** the outcome is determined *)
Section U.
  Context (ptime f3 f4 : str -> option Z).
  Lemma same_refl o : same_orders o o. Proof. intros id; reflexivity. Qed.
  Lemma code_unique s st st' : status_code s st -> status_code s st' -> st = st'.
  Proof. intros H H'. apply parse_status_iff in H, H'. congruence. Qed.
  Lemma makes_unique l i i1 e1 i2 e2 : update_makes ptime f3 f4 l i i1 e1 -> update_makes ptime f3 f4 l i i2 e2 -> i1 = i2 /\ e1 = e2.
  Proof.
    intros H H'. destruct H; destruct H';
    try match goal with A : forall st, ~ status_code ?s st, B : status_code ?s _ |- _ => destruct (A _ B) end;
    repeat match goal with
    | A : status_code ?s ?x, B : status_code ?s ?y |- _ => first [constr_eq x y; fail 1 | pose proof (code_unique _ _ _ A B); subst y; clear B]
    | A : ?x = Some _, B : ?x = Some _ |- _ => rewrite A in B; injection B as <-
    | A : ?x = Some _, B : ?x = None |- _ => congruence
    | A : ?x = None, B : ?x = Some _ |- _ => congruence
    end; auto.
  Qed.
  Lemma one_same id i o o1 q q1 : same_orders o q -> one_changed id i o o1 -> one_changed id i q q1 -> same_orders o1 q1.
  Proof.
    intros S [A B] [A' B'] k. destruct (list_eq_dec N.eq_dec k id) as [->|N]; [congruence|]. rewrite B, B' by exact N. apply S.
  Qed.
  Lemma update_unique l o q f1 o1 f2 q1 : same_orders o q -> update_fate ptime f3 f4 l o f1 o1 -> update_fate ptime f3 f4 l q f2 q1 ->
    f1 = f2 /\ same_orders o1 q1.
  Proof.
    intros S H H'.
    assert (T : forall o1 q1, same_orders o o1 -> same_orders q q1 -> same_orders o1 q1)
      by (intros a b Ha Hb k; rewrite Hb, Ha; apply S).
    destruct H as [o1 H A|o1 H C A|o1 H C A|id o1 (H & C & I) D A|id i i1 e1 o1 (H & C & I) D M A];
    destruct H' as [q1 H' A'|q1 H' C' A'|q1 H' C' A'|id' q1 (H' & C' & I') D' A'|id' i' i1' e1' q1 (H' & C' & I') D' M' A'];
    try contradiction; try lia; try (split; [reflexivity|apply T; assumption]).
    - exfalso. rewrite I in I'. subst id'. rewrite (S id) in D'. congruence.
    - exfalso. rewrite I in I'. subst id'. rewrite (S id) in D'. congruence.
    - rewrite I in I'. subst id'. rewrite (S id), D in D'. injection D' as <-.
      destruct (makes_unique _ _ _ _ _ _ M M') as [<- <-]. split; [reflexivity|]. eapply one_same; eauto.
  Qed.
  Lemma result_unique l o q f1 o1 f2 q1 : same_orders o q -> result_fate l o f1 o1 -> result_fate l q f2 q1 ->
    f1 = f2 /\ same_orders o1 q1.
  Proof.
    intros S H H'.
    assert (T : forall o1 q1, same_orders o o1 -> same_orders q q1 -> same_orders o1 q1)
      by (intros a b Ha Hb k; rewrite Hb, Ha; apply S).
    destruct H as [o1 H A|o1 H C A|o1 H C A|id i o1 R D A|o1 H C N A];
    destruct H' as [q1 H' A'|q1 H' C' A'|q1 H' C' A'|id' i' q1 R' D' A'|q1 H' C' N' A'];
    try contradiction; try lia; try (destruct R as (R1 & R2 & R3)); try (destruct R' as (R1' & R2' & R3')); try contradiction; try lia;
    try (split; [reflexivity|apply T; assumption]).
    - assert (id' = id) as -> by (destruct R3 as (_ & _ & <-), R3' as (_ & _ & <-); reflexivity).
      rewrite (S id), D in D'. injection D' as <-. split; [reflexivity|]. eapply one_same; eauto.
    - exfalso. specialize (N' id ltac:(repeat split; try tauto)). rewrite (S id) in N'. congruence.
    - exfalso. specialize (N id' ltac:(repeat split; try tauto)). rewrite (S id') in D'. congruence.
  Qed.
  Lemma reads_unique ig (kind : str -> dict str oinfo -> fate -> dict str oinfo -> Prop) :
    (forall l o q f1 o1 f2 q1, same_orders o q -> kind l o f1 o1 -> kind l q f2 q1 -> f1 = f2 /\ same_orders o1 q1) ->
    forall ls pos off o e1 off1 o1, reads ig kind ls pos off o e1 off1 o1 ->
    forall q e2 off2 q1, same_orders o q -> reads ig kind ls pos off q e2 off2 q1 -> e1 = e2 /\ off1 = off2 /\ same_orders o1 q1.
  Proof.
    intros U ls pos off o e1 off1 o1 H. induction H as [pos off o o' A|l ls pos off o o' K|l ls pos off o oa e off' o' K R IH|l ls pos off o oa e off' o' K R IH|l ls pos off o x oa e off' o' G K R IH|l ls pos off o x o' G K];
    intros q e2 off2 q1 S H'; inversion H' as [? ? ? ? A'|? ? ? ? ? ? K'|? ? ? ? ? ? ? ? ? K' R'|? ? ? ? ? ? ? ? ? K' R'|? ? ? ? ? ? ? ? ? ? G' K' R'|? ? ? ? ? ? ? G' K']; subst.
    { split; [reflexivity|]. split; [reflexivity|]. intros k. rewrite A', A. apply S. }
    all: destruct (U _ _ _ _ _ _ _ S K K') as [F S']; try discriminate F; try congruence; auto;
      try (injection F as <-); try (eapply IH; eassumption); auto.
  Qed.
End U.

(** ** the theorems *)
Theorem C130_update : forall ptime f3 f4 l o,
  exists f o', update_fate ptime f3 f4 l o f o' /\ 
    match update_line ptime f3 f4 l o with
    | LStop => f = Stops | LSkip => f = Passes
    | LNext o1 => f = Taken /\ o1 = o' | LFail o1 x => f = Fails x /\ o1 = o'
    end.
Proof.
  intros. exists (fate_of (update_line ptime f3 f4 l o)), (orders_of (update_line ptime f3 f4 l o) o). split; [apply update_fates|].
  destruct (update_line ptime f3 f4 l o); cbn; auto.
Qed.
Print Assumptions C130_update.
(** A file read from any position: every line has its fate, in order. *)
Theorem C130_update_file : forall ptime f3 f4 go text off o e off' o',
  read_file go (update_line ptime f3 f4) text off o = (e, off', o') ->
  reads (go_ignore go) (update_fate ptime f3 f4) (lines_of (skipn off text)) off off o e off' o'.
Proof. intros ptime f3 f4 go text off o e off' o'. unfold read_file. apply loop_reads, update_fates. Qed.
Print Assumptions C130_update_file.
Theorem C130_result_file : forall go text off o e off' o',
  read_file go result_line text off o = (e, off', o') ->
  reads (go_ignore go) result_fate (lines_of (skipn off text)) off off o e off' o'.
Proof. intros go text off o e off' o'. unfold read_file. apply loop_reads, result_fates. Qed.
Print Assumptions C130_result_file.
(** The specification leaves nothing open. *)
Theorem C130_one_outcome : forall ptime f3 f4 ig ls pos off o e1 off1 o1 e2 off2 o2,
  reads ig (update_fate ptime f3 f4) ls pos off o e1 off1 o1 -> reads ig (update_fate ptime f3 f4) ls pos off o e2 off2 o2 ->
  e1 = e2 /\ off1 = off2 /\ forall id, dget id o1 = dget id o2.
Proof.
  intros ptime f3 f4 ig ls pos off o e1 off1 o1 e2 off2 o2 H H'.
  destruct (reads_unique ig _ (update_unique ptime f3 f4) _ _ _ _ _ _ _ H _ _ _ _ (same_refl o) H') as (A & B & C).
  split; [exact A|]. split; [exact B|]. intros id. symmetry. apply C.
Qed.
Print Assumptions C130_one_outcome.
Theorem C130_one_result : forall ig ls pos off o e1 off1 o1 e2 off2 o2,
  reads ig result_fate ls pos off o e1 off1 o1 -> reads ig result_fate ls pos off o e2 off2 o2 ->
  e1 = e2 /\ off1 = off2 /\ forall id, dget id o1 = dget id o2.
Proof.
  intros ig ls pos off o e1 off1 o1 e2 off2 o2 H H'.
  destruct (reads_unique ig _ (result_unique (fun _ => None) (fun _ => None) (fun _ => None)) _ _ _ _ _ _ _ H _ _ _ _ (same_refl o) H') as (A & B & C).
  split; [exact A|]. split; [exact B|]. intros id. symmetry. apply C.
Qed.
Print Assumptions C130_one_result.
(** A whole sync. *)
Theorem C130_sync : forall ptime f3 f4 go g r g', gate_sync_orders ptime f3 f4 go g = (r, g') ->
  let d := ge_date (gs_env g) in
  match dget d (gs_rfile g), dget d (gs_ufile g) with
  | Some rt, Some ut => exists e1 roff o1, reads (go_ignore go) result_fate (lines_of (skipn (gs_roff g) rt)) (gs_roff g) (gs_roff g) (gs_orders g) e1 roff o1 /\
      gs_roff g' = roff /\
      match e1 with
      | Some x => r = Err x /\ gs_orders g' = o1 /\ gs_uoff g' = gs_uoff g /\ gs_data g' = gs_data g
      | None => exists e2 uoff o2, reads (go_ignore go) (update_fate ptime f3 f4) (lines_of (skipn (gs_uoff g) ut)) (gs_uoff g) (gs_uoff g) o1 e2 uoff o2 /\
          gs_uoff g' = uoff /\ gs_orders g' = o2 /\
          match e2 with Some x => r = Err x /\ gs_data g' = gs_data g | None => forall l, r = Ok l -> l = dvals o2 end
      end
  | _, _ => r = Err FileNotFoundError /\ g' = g
  end.
Proof.
  intros ptime f3 f4 go g r g' H. cbn zeta. unfold gate_sync_orders in H.
  destruct (dget _ (gs_ufile g)) as [ut|]; destruct (dget _ (gs_rfile g)) as [rt|];
    try (injection H as <- <-; split; reflexivity).
  destruct (read_file go result_line rt (gs_roff g) (gs_orders g)) as [[e1 roff] o1] eqn:E1.
  exists e1, roff, o1. split; [apply C130_result_file, E1|]. destruct e1 as [x|].
  - injection H as <- <-. repeat split.
  - cbn [set_rread gs_uoff] in H.
    destruct (read_file go (update_line ptime f3 f4) ut (gs_uoff g) o1) as [[e2 uoff] o2] eqn:E2.
    destruct e2 as [x|].
    + injection H as <- <-. split; [reflexivity|]. exists (Some x), uoff, o2. split; [apply C130_update_file with (1 := E2)|]. repeat split.
    + unfold save_orders in H.
      destruct (forallb _ _); [destruct (ge_save _) as [[]|x]|]; injection H as <- <-;
      (split; [reflexivity|]; exists None, uoff, o2; split; [apply C130_update_file with (1 := E2)|]; split; [reflexivity|]; split; [reflexivity|]);
      intros l Hl; try discriminate. apply Ok_inj in Hl. symmetry. exact Hl.
Qed.
Print Assumptions C130_sync.

(** ** an update file with every kind of line: header, read in full, filled amount no number,
    an unknown order, too many columns, cut off *)
From Verif Require Import MApi TGate.
Definition b_filled : str := nl "t,20220108,093200,UM0,8888,600000.SH,2,3,300,10,AT,x,11,1100,0,B2,c,77,bad,x".
Definition b_other : str := nl "t,20220108,093200,UM0,8888,600000.SH,2,2,300,10,AT,300,10,3000,0,B1,c,78,done,x".
Definition b_short : str := nl "t,20220108".
Definition b_file : str := nl "updTime,orderDate" ++ u_part ++ b_filled ++ u_long ++ b_other ++ b_short ++ u_part.
Definition b_orders : dict str oinfo := gs_orders (w_gate demo_w1).
Example C130_demo :
  let '(e, off, o) := read_file demo_go (update_line demo_ptime demo_f3 demo_f4) b_file 0 b_orders in
  e = None /\ off = List.length (nl "updTime,orderDate" ++ u_part ++ b_filled ++ u_long) /\
  match dget (lit "77") o with
  | Some i => i_status i = lit "partly_canceled" /\ i_confirm i = Some (lit "B2") /\ i_filled i = Some 100 /\ i_err i = Some (lit "part")
  | None => False
  end.
Proof. vm_compute. repeat split. Qed.
(** with bad lines not ignored the third line's error is raised, and the status it gave stays *)
Example C130_strict :
  match read_loop (GOpts (go_acct demo_go) (go_stock demo_go) (go_counter demo_go) (go_algo demo_go) false (go_eol demo_go)) (update_line demo_ptime demo_f3 demo_f4)
    (lines_of b_file) 0 0 b_orders with
  | (Some x, off, o) => x = ValueError /\ off = List.length (nl "updTime,orderDate" ++ u_part) /\ option_map i_status (dget (lit "77") o) = Some (lit "partly_canceled")
  | _ => False
  end.
Proof. vm_compute. repeat split. Qed.
