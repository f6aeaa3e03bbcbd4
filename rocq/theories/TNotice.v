(** C81: a rejected cancel is told once. *)
From Coq Require Import String.
From Verif Require Import PyBase PyStr LStr MTime MDate MOrder MAccount MApi MGate MNotice SGate SNotice LGate LGate2 LGate3 LGate4 TGate.
Open Scope list_scope.
Open Scope nat_scope.

Lemma cancel_msg_iff l id msg : cancel_msg l = Some (id, msg) <-> rejects_cancel l id msg.
Proof.
  unfold cancel_msg, rejects_cancel. rewrite <- header_iff. destruct (startswith (lit "updTime") (strip l)) eqn:Eh.
  { split; [discriminate|intros [H _]; congruence]. }
  pose proof (columns_length l) as HL. pose proof (fun k => columns_nth l k) as HN.
  destruct (columns (strip l)) as [|c0 [|c1 [|c2 [|c3 [|c4 [|c5 [|c6 cs]]]]]]] eqn:Ec; cbn [List.length] in HL;
    try (split; [discriminate|intros (_ & H & _); lia]).
  assert (HC : commas l = 5) by lia.
  assert (E1 : col 1 l = c1) by (symmetry; apply (HN 1); lia). assert (E2 : col 2 l = c2) by (symmetry; apply (HN 2); lia).
  assert (E3 : col 3 l = c3) by (symmetry; apply (HN 3); lia). assert (E5 : col 5 l = c5) by (symmetry; apply (HN 5); lia).
  rewrite E1, E2, E3, E5. destruct (str_eqb_spec c1 (lit "2")) as [->|N1]; cbn [andb].
  - destruct (str_eqb_spec c3 (lit "1")) as [->|N2].
    + split; [intro H; injection H as -> ->; repeat split; auto|intros (_ & _ & _ & _ & -> & ->); reflexivity].
    + split; [discriminate|intros (_ & _ & _ & H & _); congruence].
  - split; [discriminate|intros (_ & _ & H & _); congruence].
Qed.

Lemma owed_app a m b m' : owed a m -> owed b m' -> owed (a ++ b) (m ++ m').
Proof. induction 1; intro H'; cbn [app]; [exact H'|constructor; auto|apply ow_none; auto]. Qed.
Lemma owed_det a : forall m m', owed a m -> owed a m' -> m = m'.
Proof.
  induction a as [|l a IH]; intros m m' H H'; inversion H; inversion H'; subst; try reflexivity.
  - match goal with A : rejects_cancel l _ _, B : rejects_cancel l _ _ |- _ => destruct A as (_ & _ & _ & _ & <- & <-), B as (_ & _ & _ & _ & <- & <-) end.
    f_equal. apply IH; assumption.
  - match goal with A : forall i m, ~ rejects_cancel l i m, B : rejects_cancel l _ _ |- _ => destruct (A _ _ B) end.
  - match goal with A : forall i m, ~ rejects_cancel l i m, B : rejects_cancel l _ _ |- _ => destruct (A _ _ B) end.
  - apply IH; assumption.
Qed.
Lemma owed_step l : owed [l] (match cancel_msg l with Some m => [m] | None => [] end).
Proof.
  destruct (cancel_msg l) as [[id msg]|] eqn:E; [apply ow_one; [apply cancel_msg_iff, E|constructor]|].
  apply ow_none; [|constructor]. intros id msg H. apply cancel_msg_iff in H. congruence.
Qed.

Lemma result_reads l o : readable 5 l -> (exists o', result_line l o = LNext o') \/ (exists o' x, result_line l o = LFail o' x /\ cancel_msg l = None).
Proof.
  intros Hr. pose proof (readable_nonempty 4 l Hr) as Hn. destruct Hr as [_ Hr]. unfold result_line, cancel_msg.
  destruct (strip l) as [|c0 s0] eqn:Es; [congruence|]. rewrite <- Es in *. clear c0 s0 Es.
  destruct (startswith (lit "updTime") (strip l)) eqn:Eh; [left; eexists; reflexivity|].
  destruct Hr as [Hr|Hr]; [apply header_iff in Hr; congruence|].
  pose proof (columns_length l) as HL.
  destruct (columns (strip l)) as [|c0 [|c1 [|c2 [|c3 [|c4 [|c5 [|c6 cs]]]]]]]; cbn [List.length] in HL; try lia.
  - left. destruct (_ && _); [destruct (dget _ _)|]; eexists; reflexivity.
  - right. eexists _, _. split; reflexivity.
Qed.

Section N.
  Context (ptime f3 f4 : str -> option Z) (go : gopts) (Hi : go_ignore go = true).

  Lemma res_loop_calm hs rs t : Forall (readable 5) rs -> pending 5 t -> forall pos off o log, off = pos ->
    exists o' m, res_loop go hs (lines_of (concat rs ++ t)) pos off o log = (None, pos + List.length (concat rs), o', log ++ (if hs then m else [])) /\ owed rs m.
  Proof.
    intros F P. assert (W : Forall whole rs) by (eapply Forall_impl; [|exact F]; intros l H; apply H).
    rewrite lines_concat by exact W. clear W. induction F as [|l rs Hl F IH]; intros pos off o log ->; cbn [concat].
    - exists o, []. split; [|constructor]. cbn [app List.length]. rewrite Nat.add_0_r, (lines_partial t) by apply P.
      replace (if hs then [] else []) with (@nil (str * str)) by (destruct hs; reflexivity). rewrite app_nil_r.
      destruct t as [|c t]; [reflexivity|]. cbn [res_loop]. rewrite (result_stop (c :: t) o); [reflexivity|discriminate|exact P].
    - cbn [app res_loop]. rewrite app_length, Nat.add_assoc. destruct (result_reads l o Hl) as [(o' & E)|(o' & x & E & Em)]; rewrite E.
      + destruct (IH (pos + List.length l) (pos + List.length l) o' (match cancel_msg l with Some m => if hs then log ++ [m] else log | None => log end) eq_refl) as (o2 & m & E2 & Om).
        exists o2, ((match cancel_msg l with Some m0 => [m0] | None => [] end) ++ m). rewrite E2. split; [|apply (owed_app [l]); [apply owed_step|exact Om]].
        f_equal. destruct (cancel_msg l) as [m0|], hs; cbn [app]; rewrite <- ?app_assoc, ?app_nil_r; reflexivity.
      + rewrite Hi. destruct (IH (pos + List.length l) (pos + List.length l) o' log eq_refl) as (o2 & m & E2 & Om).
        exists o2, m. rewrite E2. split; [reflexivity|]. apply (owed_app [l] [] rs m); [|exact Om]. pose proof (owed_step l) as H. rewrite Em in H. exact H.
  Qed.

  (** the log adds nothing to and takes nothing from the behaviour *)
  Lemma res_loop_same hs ls : forall pos off o log, fst (res_loop go hs ls pos off o log) = read_loop go result_line ls pos off o.
  Proof.
    clear Hi. induction ls as [|l ls IH]; intros; cbn [res_loop read_loop]; [reflexivity|]. destruct (result_line l o); auto. destruct (go_ignore go); auto.
  Qed.

  Definition NInv (d : Z) (x : nst) (b : option (list str)) : Prop :=
    ge_date (gs_env (n_gate x)) = d /\
    exists R t, text_of d (gs_rfile (n_gate x)) = concat R ++ t /\ Forall (readable 5) R /\ gs_roff (n_gate x) = List.length (concat R) /\
      match b with None => n_synced x = false /\ n_log x = [] | Some r0 => n_synced x = true /\ exists new, R = r0 ++ new /\ owed new (n_log x) end.

  Lemma order_frame o g : let g' := snd (gate_order go o g) in
    gs_env g' = gs_env g /\ gs_rfile g' = gs_rfile g /\ gs_roff g' = gs_roff g.
  Proof.
    cbn zeta. unfold gate_order. destruct (go_acct go); [repeat split|]. destruct (negb _); [repeat split|]. destruct (o_side o); [|repeat split].
    destruct (encode _); [|repeat split]. destruct (write_line _ _ _ _ _) as [[[]|x] txt]; [|repeat split].
    set (g1 := set_gorders _ _). pose proof (save_orders_files g1) as (_ & _ & H1 & _ & _ & _ & H2 & _ & H3). rewrite H1, H2, H3. repeat split.
  Qed.
  Lemma cancel_frame id g : let g' := snd (gate_cancel go id g) in
    gs_env g' = gs_env g /\ gs_rfile g' = gs_rfile g /\ gs_roff g' = gs_roff g.
  Proof. cbn zeta. unfold gate_cancel. destruct (write_line _ _ _ _ _). repeat split. Qed.

  Lemma sync_n_reads d x b rt rs : NInv d x b -> dget d (gs_ufile (n_gate x)) <> None -> dget d (gs_rfile (n_gate x)) = Some rt -> calm 5 rt rs ->
    NInv d (snd (sync_n ptime f3 f4 go x)) (Some match b with Some r0 => r0 | None => rs end) /\
    gs_roff (n_gate (snd (sync_n ptime f3 f4 go x))) = List.length (concat rs) /\
    match b with None => n_log (snd (sync_n ptime f3 f4 go x)) = []
    | Some r0 => exists new, rs = r0 ++ new /\ owed new (n_log (snd (sync_n ptime f3 f4 go x))) end.
  Proof.
    intros (Hd & R & t0 & ET & FR & Hoff & HB) Hu Hr (t & Er & Fr & Pt). unfold text_of in ET. rewrite Hr in ET.
    destruct (prefix_lines R t0 rs t) as (M & -> & _); [eapply Forall_impl; [|exact FR]; intros l H; apply H|
      eapply Forall_impl; [|exact Fr]; intros l H; apply H|apply Pt|congruence|].
    unfold sync_n. rewrite Hd. destruct (dget d (gs_ufile (n_gate x))) as [ut|]; [|congruence]. rewrite Hr.
    rewrite Hoff, Er, skipn_concat.
    destruct (res_loop_calm (n_synced x) M t (proj2 (proj1 (Forall_app _ _ _) Fr)) Pt (List.length (concat R)) (List.length (concat R)) (gs_orders (n_gate x)) (n_log x) eq_refl)
      as (o1 & m & E & Om). rewrite E.
    pose proof (read_file_ignores go (update_line ptime f3 f4) ut (gs_uoff (set_rread o1 (List.length (concat R) + List.length (concat M)) (n_gate x))) o1 Hi) as Hn.
    destruct (read_file go (update_line ptime f3 f4) ut _ o1) as [[x2 uoff] o2]. cbn [fst] in Hn. subst x2.
    set (g2 := set_uread _ _ _). pose proof (save_orders_files g2) as (_ & _ & S1 & _ & _ & _ & S2 & _ & S3).
    assert (HG : exists g3, snd (match save_orders g2 with (Ok _, g3) => (Ok (dvals (gs_orders g3)), NSt g3 true (n_log x ++ (if n_synced x then m else [])))
        | (Err e, g3) => (@Err (list oinfo) e, NSt g3 true (n_log x ++ (if n_synced x then m else []))) end) = NSt g3 true (n_log x ++ (if n_synced x then m else [])) /\
        gs_roff g3 = List.length (concat (R ++ M)) /\ gs_rfile g3 = gs_rfile (n_gate x) /\ gs_env g3 = gs_env (n_gate x)).
    { exists (snd (save_orders g2)). split; [destruct (save_orders g2) as [[u|e] g3]; reflexivity|].
      rewrite S1, S2, S3. cbn [g2 set_uread set_rread gs_roff gs_rfile gs_env]. rewrite concat_app, app_length. repeat split. }
    destruct HG as (g3 & -> & G1 & G2 & G3). unfold NInv. cbn [n_gate n_synced n_log]. rewrite G1, G2, G3.
    assert (HL : match b with None => n_log x ++ (if n_synced x then m else []) = [] | Some r0 => exists new, R ++ M = r0 ++ new /\ owed new (n_log x ++ (if n_synced x then m else [])) end).
    { destruct b as [r0|].
      - destruct HB as (-> & new & -> & On). exists (new ++ M). rewrite <- app_assoc. split; [reflexivity|apply owed_app; assumption].
      - destruct HB as (-> & ->). reflexivity. }
    split; [|split; [reflexivity|exact HL]]. split; [exact Hd|]. exists (R ++ M), t. unfold text_of. rewrite Hr. split; [exact Er|]. split; [exact Fr|].
    split; [reflexivity|]. split; [reflexivity|]. destruct b as [r0|]; [exact HL|]. exists []. rewrite HL, app_nil_r. split; [reflexivity|constructor].
  Qed.

  Lemma nhist_inv d x k b : nhist ptime f3 f4 go d x k b -> NInv d x b.
  Proof.
    induction 1 as [g H1 H2|x k b o _ IH|x k b id _ IH|x k b e _ IH H|x k b r u dr _ IH H|x k b rt rs _ IH H1 H2 H3|x k b _ IH H|x k b ok _ IH].
    - split; [exact H1|]. exists [], (text_of d (gs_rfile g)). cbn [n_gate n_synced n_log]. rewrite H2. repeat split. constructor.
    - destruct (order_frame o (n_gate x)) as (E1 & E2 & E3). unfold NInv, set_g. cbn [n_gate n_synced n_log]. rewrite E1, E2, E3. exact IH.
    - destruct (cancel_frame id (n_gate x)) as (E1 & E2 & E3). unfold NInv, set_g. cbn [n_gate n_synced n_log]. rewrite E1, E2, E3. exact IH.
    - destruct IH as (_ & IH). split; [exact H|exact IH].
    - destruct IH as (Hd & R & t & ET & FR & Hoff & HB). split; [exact Hd|]. exists R, (t ++ dr). cbn [set_g n_gate set_bfiles gs_rfile gs_roff].
      rewrite H, ET, <- app_assoc. repeat split; assumption.
    - apply (sync_n_reads d x b rt rs IH H1 H2 H3).
    - unfold sync_n. destruct IH as (Hd & IH). rewrite Hd. destruct (dget d (gs_ufile (n_gate x))); [|split; assumption].
      destruct (dget d (gs_rfile (n_gate x))); [destruct H; discriminate|split; assumption].
    - destruct IH as (Hd & IH). split; [exact Hd|]. exists [], (text_of d (gs_rfile (n_gate x))). cbn [restart_n n_gate n_synced n_log gate_setup gs_rfile gs_roff]. repeat split. constructor.
  Qed.
End N.

(** What is logged does not change what the gate does. *)
Theorem C81_same_gate :
  forall ptime f3 f4 go x,
    fst (sync_n ptime f3 f4 go x) = fst (gate_sync_orders ptime f3 f4 go (n_gate x)) /\
    n_gate (snd (sync_n ptime f3 f4 go x)) = snd (gate_sync_orders ptime f3 f4 go (n_gate x)).
Proof.
  intros ptime f3 f4 go x. unfold sync_n, gate_sync_orders. destruct (dget _ (gs_ufile _)) as [ut|]; [|split; reflexivity].
  destruct (dget _ (gs_rfile _)) as [rt|]; [|split; reflexivity].
  pose proof (res_loop_same go (n_synced x) (lines_of (skipn (gs_roff (n_gate x)) rt)) (gs_roff (n_gate x)) (gs_roff (n_gate x)) (gs_orders (n_gate x)) (n_log x)) as H.
  destruct (res_loop _ _ _ _ _ _ _) as [[[x1 roff] o1] log]. cbn [fst] in H.
  fold (read_file go result_line rt (gs_roff (n_gate x)) (gs_orders (n_gate x))) in H. rewrite <- H.
  destruct x1; [split; reflexivity|]. destruct (read_file _ _ ut _ o1) as [[x2 uoff] o2]. destruct x2; [split; reflexivity|].
  destruct (save_orders _) as [[u|e] g3]; split; reflexivity.
Qed.
Print Assumptions C81_same_gate.

(** With bad lines ignored and result files as in C36: after a sync the log holds the
    notices owed for the lines that came after the process's first sync, in order, each
    once; nothing is logged by the first sync. *)
Theorem C81_told_partial :
  forall ptime f3 f4 go d x k b rt rs,
    go_ignore go = true -> nhist ptime f3 f4 go d x k b ->
    dget d (gs_ufile (n_gate x)) <> None -> dget d (gs_rfile (n_gate x)) = Some rt -> calm 5 rt rs ->
    let x' := snd (sync_n ptime f3 f4 go x) in
    match b with
    | None => n_log x' = []
    | Some r0 => exists new, rs = r0 ++ new /\ owed new (n_log x')
    end.
Proof.
  intros ptime f3 f4 go d x k b rt rs Hi Hh Hu Hr Hc x'.
  apply (sync_n_reads ptime f3 f4 go Hi d x b rt rs (nhist_inv ptime f3 f4 go Hi d x k b Hh) Hu Hr Hc).
Qed.
Print Assumptions C81_told_partial.

(** The claim: after a sync the log holds the notices owed for all lines that came while
    the process was running. *)
Definition all_told : Prop :=
  forall ptime f3 f4 go d x k b rt r0 new,
    go_ignore go = true -> nhist ptime f3 f4 go d x k b ->
    dget d (gs_ufile (n_gate x)) <> None -> dget d (gs_rfile (n_gate x)) = Some rt -> calm 5 rt (r0 ++ new) ->
    List.length (concat r0) = k -> owed new (n_log (snd (sync_n ptime f3 f4 go x))).

(** order 77 is placed and canceled before the broker's files exist; its cancel is rejected *)
Definition r_cancel : str := nl "t,2,77,1,5,too late".
Definition q1 : nst := NSt (w_gate demo_w1) false [].
Definition q2 : nst := set_g (snd (gate_cancel demo_go (lit "77") (n_gate q1))) q1.
Definition q3 : nst := set_g (set_bfiles [(19000%Z, r_cancel)] [(19000%Z, u_open)] (n_gate q2)) q2.
Lemma r_cancel_calm r : calm 5 (concat (repeat r_cancel r)) (repeat r_cancel r).
Proof.
  exists []. split; [rewrite app_nil_r; reflexivity|]. split.
  - apply Forall_forall. intros l Hl. apply repeat_spec in Hl. subst l. split.
    + apply demo_line_whole; vm_compute; [reflexivity|discriminate|reflexivity].
    + right. vm_compute. lia.
  - split; [intros []|]. split; [|vm_compute; lia]. intros (r0 & H). vm_compute in H. discriminate.
Qed.
(** False: the process's first sync is silent about everything it finds. *)
Theorem C81_first_sync_refuted : ~ all_told.
Proof.
  intros Hc.
  assert (H : nhist demo_ptime demo_f3 demo_f4 demo_go 19000 q3 0 None).
  { apply (n_grow _ _ _ _ _ q2 _ _ _ _ r_cancel); [|reflexivity]. apply n_cancel. apply (n_start demo_ptime demo_f3 demo_f4 demo_go 19000 (w_gate demo_w1)); reflexivity. }
  specialize (Hc demo_ptime demo_f3 demo_f4 demo_go 19000%Z q3 0 None r_cancel [] [r_cancel] eq_refl H ltac:(discriminate) eq_refl).
  assert (C : calm 5 r_cancel ([] ++ [r_cancel])).
  { pose proof (r_cancel_calm 1) as X. cbn [repeat concat] in X. rewrite app_nil_r in X. exact X. }
  specialize (Hc C eq_refl). replace (n_log (snd (sync_n demo_ptime demo_f3 demo_f4 demo_go q3))) with (@nil (str * str)) in Hc by (vm_compute; reflexivity).
  inversion Hc as [| |l ls m Hn _ E1 E2]. apply (Hn (lit "77") (lit "too late")). apply cancel_msg_iff. vm_compute. reflexivity.
Qed.
Print Assumptions C81_first_sync_refuted.

(** a second rejection, after the first sync, is told once; syncing again adds nothing *)
Definition q4 : nst := snd (sync_n demo_ptime demo_f3 demo_f4 demo_go q3).
Definition q5 : nst := set_g (set_bfiles [(19000%Z, r_cancel ++ r_cancel)] [(19000%Z, u_open)] (n_gate q4)) q4.
Example C81_demo :
  nhist demo_ptime demo_f3 demo_f4 demo_go 19000 q5 0 (Some [r_cancel]) /\
  n_log (snd (sync_n demo_ptime demo_f3 demo_f4 demo_go q5)) = [(lit "77", lit "too late")] /\
  n_log (snd (sync_n demo_ptime demo_f3 demo_f4 demo_go (snd (sync_n demo_ptime demo_f3 demo_f4 demo_go q5)))) = [(lit "77", lit "too late")] /\
  owed [r_cancel] [(lit "77", lit "too late")].
Proof.
  split; [|split; [vm_compute; reflexivity|split; [vm_compute; reflexivity|apply ow_one; [apply cancel_msg_iff; vm_compute; reflexivity|constructor]]]].
  apply (n_grow _ _ _ _ _ q4 _ _ _ _ r_cancel); [|vm_compute; reflexivity].
  apply (n_sync demo_ptime demo_f3 demo_f4 demo_go 19000 q3 0 None r_cancel [r_cancel]); [|discriminate|reflexivity|].
  - apply (n_grow _ _ _ _ _ q2 _ _ _ _ r_cancel); [|reflexivity]. apply n_cancel. apply (n_start demo_ptime demo_f3 demo_f4 demo_go 19000 (w_gate demo_w1)); reflexivity.
  - pose proof (r_cancel_calm 1) as X. cbn [repeat concat] in X. rewrite app_nil_r in X. exact X.
Qed.
