(** C22, C23 and C25 (files), C35-C40, C43: the AnXin DMA gate. *)
From Coq Require Import String.
From Verif Require Import PyBase PyStr LStr MTime MDate LDate MOrder MAccount MApi SAccount LAccount3 LApi
  MGate SGate LGate LGate2 LGate3 LGate4.
Open Scope list_scope.
Open Scope Z_scope.

(** Settings for the examples. *)
Definition demo_go : gopts := GOpts (lit "8888") true (lit "UM0") (lit "DMA") true eol_posix.
Definition demo_ptime (s : str) : option Z :=
  match num 14 14 s with
  | Some z => match mk_date (z / 10000000000) (z / 100000000 mod 100) (z / 1000000 mod 100) with
              | Ok d => Some (d * DAY + 34200 * US) | Err _ => None end
  | None => None
  end.
Definition demo_f3 (s : str) : option Z := option_map (Z.mul 1000) (py_int s).
Definition demo_f4 (s : str) : option Z := option_map (Z.mul 10000) (py_int s).
Definition demo_env : genv := GEnv 19000 (19000 * DAY + 34200 * US) WDone (Ok tt).
Definition demo_g0 : gst := GSt [] 0 0 19000 [] [] [] [] [] demo_env.
Definition no_ud (_ : N) : bool := false.
Definition demo_gate : gate gst := anxin demo_ptime demo_f3 demo_f4 demo_go (fun g => (Err OSError, g)).
Definition demo_world : world gst := World true (Some acct_new) demo_g0.
Definition demo_place (id code : string) (z : Z) (st : starg) (w : world gst) :=
  api_order no_ud demo_gate (lit id) (19000 * DAY + 34200 * US) (CStr (lit code)) (AInt z) st SdFalsy w.
Definition demo_w1 : world gst := snd (demo_place "77" "600000.XSHG" (-300) (StStyle (Limit (PNum (lit "10.5")))) demo_world).
Definition nl (s : string) : str := lit s ++ [NL].
(** lines of an update file about order 77 *)
Definition u_open : str := nl "t,20220108,093000,UM0,8888,600000.SH,2,0,300,10,AT,0,0,0,0,B1,c,77,,x".
Definition u_part : str := nl "t,20220108,093100,UM0,8888,600000.SH,2,1,300,10,AT,100,10,1000,0,B1,c,77,part,x".
Definition u_done : str := nl "t,20220108,093200,UM0,8888,600000.SH,2,2,300,10,AT,300,10,3000,0,B1,c,77,done,x".
Definition u_else : str := nl "t,20220108,093200,UM0,8888,600000.SH,2,2,300,10,AT,300,10,3000,0,B2,c,99,,x".
Definition u_head : str := nl "updTime,orderDate,orderTime".
Definition r_rej : str := nl "t,1,77,1,E1,no money".
Definition with_files (r u : str) (g : gst) : gst := set_bfiles [(19000, r)] [(19000, u)] g.
Definition demo_sync (g : gst) : gst := snd (gate_sync_orders demo_ptime demo_f3 demo_f4 demo_go g).
Definition state_of (id : string) (g : gst) : option (str * option Z) :=
  option_map (fun i => (i_status i, i_filled i)) (dget (lit id) (gs_orders g)).

(** ** C35 *)

(** The symbol of every accepted code decodes back to it. *)
Theorem C35_inverse : forall udigit sep code, code_form udigit sep code ->
  exists sym, encode code = Ok sym /\ symbol_of code sym /\ decode sym = Ok code.
Proof. intros udigit sep code H. destruct (encode_form _ _ _ H) as (d & sym & A & B & C & _). eauto. Qed.
Print Assumptions C35_inverse.
Theorem C35_injective : forall udigit sep sep' c c' sym,
  code_form udigit sep c -> code_form udigit sep' c' -> encode c = Ok sym -> encode c' = Ok sym -> c = c'.
Proof.
  intros udigit sep sep' c c' sym H H' E E'.
  destruct (C35_inverse _ _ _ H) as (s & A & _ & B). destruct (C35_inverse _ _ _ H') as (s' & A' & _ & B'). congruence.
Qed.
Print Assumptions C35_injective.
Example C35_demo :
  encode (lit "000001.XSHE") = Ok (lit "000001.SZ") /\ decode (lit "000001.SZ") = Ok (lit "000001.XSHE") /\
  encode (lit "600000.XSHG") = Ok (lit "600000.SH") /\ encode (lit "600000.XHKG") = Err ValueError.
Proof. vm_compute. repeat split. Qed.

(** ** C22 *)

(** The header names as many columns as a line has. *)
Theorem C22_header :
  split_on COMMA order_header = order_names /\
  forall id acct counter algo sym z sty cols, order_columns id acct counter algo sym z sty cols -> List.length cols = List.length order_names.
Proof. split; [reflexivity|]. intros id acct counter algo sym z sty cols (stamp & qty & -> & _). destruct sty; reflexivity. Qed.
Print Assumptions C22_header.
(** An accepted order appends one line with exactly its data, if the texts it is made of
    contain no comma and no line break. *)
Theorem C22_order_line_partial :
  forall udigit ptime f3 f4 go bal sep id now c n st sd code z sty s w a w',
    let gt := anxin ptime f3 f4 go bal in
    order_args udigit sep c n st sd code z sty s -> ready w a ->
    api_order udigit gt id now c n st sd w = (Ok (Some id), w') ->
    sep <> COMMA -> sep <> NL -> plain id -> plain (go_acct go) -> plain (go_counter go) -> plain (go_algo go) ->
    (forall p, sty = Limit p -> plain (pval_str p)) ->
    let d := ge_date (gs_env (w_gate w)) in
    exists sym line,
      symbol_of code sym /\
      text_of d (gs_ofile (w_gate w')) = text_of d (gs_ofile (w_gate w)) ++
        (match text_of d (gs_ofile (w_gate w)) with [] => order_header ++ go_eol go | _ => [] end) ++ line ++ go_eol go /\
      ~ In NL line /\
      order_columns id (go_acct go) (go_counter go) (go_algo go) sym z sty (split_on COMMA line).
Proof.
  intros udigit ptime f3 f4 go bal sep id now c n st sd code z sty s w a w' gt Ha Hw E S1 S2 P1 P2 P3 P4 P6 d.
  destruct (order_accepted udigit gt sep id now c n st sd code z sty s w a Ha Hw) as (o & r & a' & g' & A & B & Sd & C & D & R & _ & _).
  rewrite E in A. injection A as A ->. subst r.
  destruct (order_args_checks udigit sep c n st sd code z sty s Ha) as (_ & _ & _ & _ & Hz).
  destruct R as [R _]. destruct (R eq_refl) as [[] Eg].
  assert (Hc : o_code o = code) by apply B.
  destruct Ha as (_ & Hf & _).
  destruct (gate_order go o (w_gate w)) as [r2 g2] eqn:F. cbn [gt anxin g_order] in D, Eg. rewrite F in D, Eg. cbn in Eg. subst r2.
  injection D as <-. cbn [w_gate].
  assert (Hacct : go_acct go <> []) by (intro X; unfold gate_order in F; rewrite X in F; discriminate).
  assert (Hst : go_stock go = true) by (unfold gate_order in F; destruct (go_acct go); [congruence|]; destruct (go_stock go); [reflexivity|discriminate]).
  rewrite <- Hc in Hf. destruct (gate_order_form go udigit sep o (w_gate w) Hacct Hst Sd Hf) as (sym & Es & Hs & G). cbn zeta in G. rewrite F in G. fold d in G.
  set (line := join_with COMMA (order_fields go (ge_now (gs_env (w_gate w))) o sym)) in *.
  exists sym, line. rewrite Hc in *. split; [exact Hs|].
  assert (Ps : plain sym).
  { destruct (encode_form _ _ _ Hf) as (dd & sym' & Es' & _ & _ & _ & Fd & K). rewrite Es in Es'. apply Ok_inj in Es'. subst sym'.
    pose proof (digit_chars_no udigit COMMA dd ltac:(reflexivity) eq_refl Fd) as N1.
    pose proof (digit_chars_no udigit NL dd ltac:(reflexivity) eq_refl Fd) as N2.
    destruct K as [-> | ->]; split; intro Hx; apply in_app_or in Hx; destruct Hx as [Hx|[Hx|Hx]]; try contradiction; try congruence;
      cbn in Hx; destruct Hx as [Hx|[Hx|[]]]; discriminate. }
  assert (Hne : order_fields go (ge_now (gs_env (w_gate w))) o sym <> []) by (unfold order_fields; destruct (o_style o); discriminate).
  destruct (split_plain _ Hne (order_fields_plain go o sym _ now code z sty id B P1 P2 P3 P4 Ps P6)) as [Q1 Q2].
  split; [|split; [exact Q2|]].
  - destruct (write_line go order_header (line ++ go_eol go) (text_of d (gs_ofile (w_gate w))) (ge_write (gs_env (w_gate w)))) as [[[]|x] txt] eqn:W; [|discriminate].
    apply write_ok in W.
    match type of G with _ = save_orders ?x => pose proof (save_orders_files x) as (_ & _ & _ & _ & Sf & _); rewrite <- G in Sf end.
    cbn in Sf. rewrite Sf, text_same. exact W.
  - fold line in Q1. rewrite Q1. eapply order_columns_ok; [exact B|exact Hz].
Qed.
Print Assumptions C22_order_line_partial.
(** C22 is false for codes whose separator is a comma (accepted, see C20) and for limit
    prices given as text with a comma: the line has more columns than the 12 announced. *)
Theorem C22_comma_refuted :
  exists w w', ready w acct_new /\
    demo_place "77" "600000,XSHG" 100 StFalsy w = (Ok (Some (lit "77")), w') /\
    text_of 19000 (gs_ofile (w_gate w')) = order_header ++ eol_posix ++ nl "093000.000000,77,UM0,8888,600000,SH,1,100,DMA,P6,0,0,0" /\
    List.length (split_on COMMA (lit "093000.000000,77,UM0,8888,600000,SH,1,100,DMA,P6,0,0,0")) <> List.length (split_on COMMA order_header).
Proof.
  exists demo_world, (snd (demo_place "77" "600000,XSHG" 100 StFalsy demo_world)).
  split; [split; reflexivity|]. split; [vm_compute; reflexivity|]. split; vm_compute; [reflexivity|discriminate].
Qed.
Print Assumptions C22_comma_refuted.
Theorem C22_text_price_refuted :
  exists w w', ready w acct_new /\
    demo_place "77" "600000.XSHG" 100 (StStyle (Limit (PTxt (lit "1,5")))) w = (Ok (Some (lit "77")), w') /\
    text_of 19000 (gs_ofile (w_gate w')) = order_header ++ eol_posix ++ nl "093000.000000,77,UM0,8888,600000.SH,1,100,DMA,AT,0,1,5,1,5".
Proof.
  exists demo_world, (snd (demo_place "77" "600000.XSHG" 100 (StStyle (Limit (PTxt (lit "1,5")))) demo_world)).
  split; [split; reflexivity|]. split; vm_compute; reflexivity.
Qed.
Print Assumptions C22_text_price_refuted.
Example C22_demo :
  fst (demo_place "77" "600000.XSHG" (-300) (StStyle (Limit (PNum (lit "10.5")))) demo_world) = Ok (Some (lit "77")) /\
  text_of 19000 (gs_ofile (w_gate demo_w1)) =
    order_header ++ eol_posix ++ nl "093000.000000,77,UM0,8888,600000.SH,2,300,DMA,AT,0,10.5,10.5" /\
  text_of 19000 (gs_ofile (w_gate (snd (demo_place "78" "000001.XSHE" 200 StFalsy demo_w1)))) =
    order_header ++ eol_posix ++ nl "093000.000000,77,UM0,8888,600000.SH,2,300,DMA,AT,0,10.5,10.5"
      ++ nl "093000.000000,78,UM0,8888,000001.SZ,1,200,DMA,P6,0,0,0".
Proof. vm_compute. repeat split. Qed.

(** ** C23, the order file *)

(** order() returns its id only if its line was appended, completely and once; when the
    write fails without appending anything, it returns None and the file is as before. *)
Theorem C23_order_file_partial :
  forall udigit ptime f3 f4 go bal sep id now c n st sd code z sty s w a,
    let gt := anxin ptime f3 f4 go bal in
    order_args udigit sep c n st sd code z sty s -> ready w a ->
    let d := ge_date (gs_env (w_gate w)) in
    let old := text_of d (gs_ofile (w_gate w)) in
    exists o r w',
      api_order udigit gt id now c n st sd w = (Ok r, w') /\ order_for id now code z sty o /\
      let new := text_of d (gs_ofile (w_gate w')) in
      (r = Some id -> exists sym, symbol_of code sym /\
         new = old ++ (match old with [] => order_header ++ go_eol go | _ => [] end)
                   ++ join_with COMMA (order_fields go (ge_now (gs_env (w_gate w))) o sym) ++ go_eol go) /\
      (forall x, ge_write (gs_env (w_gate w)) = WFail x -> r = None /\ new = old).
Proof.
  intros udigit ptime f3 f4 go bal sep id now c n st sd code z sty s w a gt Ha Hw d old.
  destruct (order_accepted udigit gt sep id now c n st sd code z sty s w a Ha Hw) as (o & r & a' & g' & A & B & Sd & C & D & R & RN & _).
  exists o, r, (World true (Some a') g'). split; [exact A|]. split; [exact B|]. cbn zeta. cbn [w_gate].
  assert (Hc : o_code o = code) by apply B. destruct Ha as (_ & Hf & _). rewrite <- Hc in Hf.
  cbn [gt anxin g_order] in D, R, RN.
  destruct (gate_order go o (w_gate w)) as [r2 g2] eqn:F. cbn [fst] in D, R, RN. injection D as <-.
  destruct (go_acct go) as [|ac acr] eqn:Eac.
  { unfold gate_order in F. rewrite Eac in F. injection F as <- <-. split; [|intros x Hx; split; [apply RN; eauto|reflexivity]].
    intro X. apply R in X. destruct X; discriminate. }
  destruct (go_stock go) eqn:Est.
  2:{ unfold gate_order in F. rewrite Eac, Est in F. injection F as <- <-. split; [|intros x Hx; split; [apply RN; eauto|reflexivity]].
      intro X. apply R in X. destruct X; discriminate. }
  destruct (gate_order_form go udigit sep o (w_gate w) ltac:(congruence) Est Sd Hf) as (sym & Es & Hs & G). cbn zeta in G. rewrite F in G.
  fold d old in G.
  destruct (write_line go order_header _ old (ge_write (gs_env (w_gate w)))) as [rw txt] eqn:W.
  split.
  - intro X. apply R in X. destruct X as [[] X]. subst r2. exists sym. rewrite Hc in Hs. split; [exact Hs|].
    destruct rw as [[]|x]; [|discriminate]. apply write_ok in W.
    match type of G with _ = save_orders ?x => pose proof (save_orders_files x) as (_ & _ & _ & _ & Sf & _); rewrite <- G in Sf end.
    cbn in Sf. rewrite Sf, text_same. exact W.
  - intros x Hx. rewrite Hx in W. cbn in W. injection W as <- <-. injection G as -> ->. split; [apply RN; eauto|]. cbn. apply text_same.
Qed.
Print Assumptions C23_order_file_partial.
(** C23: "if it returns None, nothing was submitted".  False: when the save file cannot be
    written, the order line has already been appended for the broker. *)
Theorem C23_save_refuted :
  forall udigit ptime f3 f4 go bal sep id now c n st sd code z sty s w a x,
    let gt := anxin ptime f3 f4 go bal in
    order_args udigit sep c n st sd code z sty s -> ready w a ->
    go_acct go <> [] -> go_stock go = true ->
    ge_write (gs_env (w_gate w)) = WDone -> ge_save (gs_env (w_gate w)) = Err x ->
    let d := ge_date (gs_env (w_gate w)) in
    exists o w' sym h, api_order udigit gt id now c n st sd w = (Ok None, w') /\ order_for id now code z sty o /\
      text_of d (gs_ofile (w_gate w')) = text_of d (gs_ofile (w_gate w)) ++ h
        ++ join_with COMMA (order_fields go (ge_now (gs_env (w_gate w))) o sym) ++ go_eol go.
Proof.
  intros udigit ptime f3 f4 go bal sep id now c n st sd code z sty s w a x gt Ha Hw Hac Hst Hwr Hsv d.
  destruct (order_accepted udigit gt sep id now c n st sd code z sty s w a Ha Hw) as (o & r & a' & g' & A & B & Sd & C & D & R & RN & _).
  assert (Hc : o_code o = code) by apply B. destruct Ha as (_ & Hf & _). rewrite <- Hc in Hf.
  destruct (gate_order_form go udigit sep o (w_gate w) Hac Hst Sd Hf) as (sym & Es & Hs & G). cbn zeta in G.
  cbn [gt anxin g_order] in D, R, RN. rewrite G, Hwr in *. cbn in D, R, RN.
  match type of D with save_orders ?x = _ => set (g1 := x) in * end.
  assert (E : exists y, save_orders g1 = (Err y, g1)).
  { unfold save_orders. cbn [g1 set_gorders set_ofile gs_env]. rewrite Hsv. destruct (forallb _ _); eauto. }
  destruct E as [y E]. rewrite E in D, R, RN. cbn in D, R, RN. injection D as <-.
  assert (Er : r = None) by (apply RN; eauto). subst r.
  exists o, (World true (Some a') g1), sym, (match text_of d (gs_ofile (w_gate w)) with [] => order_header ++ go_eol go | _ => [] end).
  split; [exact A|]. split; [exact B|]. cbn. apply text_same.
Qed.
Print Assumptions C23_save_refuted.
Example C23_file_demo :
  let w := World true (Some acct_new) (set_env (GEnv 19000 0 WDone (Err OSError)) demo_g0) in
  fst (demo_place "77" "600000.XSHG" 100 StFalsy w) = Ok None /\
  text_of 19000 (gs_ofile (w_gate (snd (demo_place "77" "600000.XSHG" 100 StFalsy w)))) =
    order_header ++ eol_posix ++ nl "000000.000000,77,UM0,8888,600000.SH,1,100,DMA,P6,0,0,0" /\
  let w2 := World true (Some acct_new) (set_env (GEnv 19000 0 (WFail TimeOut) (Ok tt)) demo_g0) in
  fst (demo_place "77" "600000.XSHG" 100 StFalsy w2) = Ok None /\
  text_of 19000 (gs_ofile (w_gate (snd (demo_place "77" "600000.XSHG" 100 StFalsy w2)))) = [].
Proof. vm_compute. repeat split. Qed.

(** ** C25, the cancel file *)

(** The header of the cancel file. *)
Theorem C25_header : split_on COMMA cancel_header = cancel_names.
Proof. reflexivity. Qed.
Print Assumptions C25_header.
(** One line for a known id if the write works, nothing otherwise; the order file and the
    gate's orders are untouched. *)
Theorem C25_cancel_file :
  forall ptime f3 f4 go bal id w a, ready w a -> book_ok a ->
    let gt := anxin ptime f3 f4 go bal in
    let g := w_gate w in
    let d := ge_date (gs_env g) in
    let old := text_of d (gs_cfile g) in
    exists a' g', api_cancel gt id w = (Ok tt, World true (Some a') g') /\
      (known a id -> ge_write (gs_env g) = WDone ->
         text_of d (gs_cfile g') = old ++ (match old with [] => cancel_header ++ go_eol go | _ => [] end)
           ++ fmt_stamp (ge_now (gs_env g)) ++ COMMA :: id ++ go_eol go) /\
      (known a id -> (exists x, ge_write (gs_env g) = WFail x) -> text_of d (gs_cfile g') = old) /\
      (~ known a id -> g' = g) /\
      gs_ofile g' = gs_ofile g /\ gs_orders g' = gs_orders g /\ gs_data g' = gs_data g /\ a_orders a' = a_orders a /\ a_heap a' = a_heap a.
Proof.
  intros ptime f3 f4 go bal id w a Hw HB gt g d old. pose proof (api_cancel_spec gt id w a Hw) as X. cbn zeta in X.
  assert (K : known a id <-> dmem id (a_orders a) = true).
  { unfold dmem. destruct (dget id (a_orders a)) as [r|] eqn:E; split; intro H; try discriminate; auto.
    - destruct HB as [_ HB]. destruct (HB _ _ E) as (o & Ho & _). exists o, r. auto.
    - destruct H as (o & r & Hr & _). congruence. }
  rewrite X. destruct (dmem id (a_orders a)).
  2:{ eexists _, _. split; [reflexivity|]. split; [intro H; apply K in H; discriminate|].
      split; [intro H; apply K in H; discriminate|]. split; [reflexivity|]. repeat split. }
  eexists _, _. split; [reflexivity|]. cbn [gt anxin g_cancel]. fold g. unfold gate_cancel. fold d. fold old.
  destruct (write_line go cancel_header _ old (ge_write (gs_env g))) as [rw txt] eqn:W. cbn [snd set_cfile gs_cfile gs_ofile gs_orders gs_data].
  split; [|split; [|split; [tauto|repeat split]]].
  - intros _ Hx. rewrite Hx in W. cbn in W. injection W as <- <-. rewrite text_same.
    unfold old at 2. destruct (text_of d (gs_cfile g)) eqn:E; fold old in E; rewrite ?E; cbn [join_with]; rewrite <- ?app_assoc; reflexivity.
  - intros _ [x Hx]. rewrite Hx in W. cbn in W. injection W as <- <-. apply text_same.
Qed.
Print Assumptions C25_cancel_file.
Example C25_file_demo :
  text_of 19000 (gs_cfile (w_gate (snd (batch_cancel demo_gate [lit "77"; lit "5"; lit "77"] demo_w1)))) =
    cancel_header ++ eol_posix ++ nl "093000.000000,77" ++ nl "093000.000000,77".
Proof. vm_compute. reflexivity. Qed.
(** A batch appends the lines of its known ids, in order. *)
Theorem C25_batch_file :
  forall ptime f3 f4 go bal ids w a, ready w a ->
    let gt := anxin ptime f3 f4 go bal in
    let g := w_gate w in
    let d := ge_date (gs_env g) in
    let old := text_of d (gs_cfile g) in
    ge_write (gs_env g) = WDone ->
    exists a' g', batch_cancel gt ids w = (Ok tt, World true (Some a') g') /\
      (known_ids a ids <> [] ->
         text_of d (gs_cfile g') = old ++ (match old with [] => cancel_header ++ go_eol go | _ => [] end)
           ++ concat (map (fun id => fmt_stamp (ge_now (gs_env g)) ++ COMMA :: id ++ go_eol go) (known_ids a ids))) /\
      (known_ids a ids = [] -> g' = g).
Proof.
  intros ptime f3 f4 go bal ids w a Hw gt g d old Hd.
  destruct (batch_cancel_spec gt ids w a Hw) as (a' & E & _). eexists _, _. split; [exact E|]. fold g. cbn [gt anxin g_cancel].
  split; [|intros ->; reflexivity]. generalize (known_ids a ids). intros l Hl.
  assert (H : forall l g0, ge_write (gs_env g0) = WDone ->
    let d0 := ge_date (gs_env g0) in let old0 := text_of d0 (gs_cfile g0) in
    let g1 := fold_left (fun g id => snd (gate_cancel go id g)) l g0 in
    gs_env g1 = gs_env g0 /\
    (l <> [] -> text_of d0 (gs_cfile g1) = old0 ++ (match old0 with [] => cancel_header ++ go_eol go | _ => [] end)
           ++ concat (map (fun id => fmt_stamp (ge_now (gs_env g0)) ++ COMMA :: id ++ go_eol go) l))).
  { clear. induction l as [|id l IH]; intros g0 Hd; cbn zeta; [split; [reflexivity|congruence]|]. cbn [fold_left].
    set (g2 := snd (gate_cancel go id g0)).
    assert (E2 : gs_env g2 = gs_env g0 /\ text_of (ge_date (gs_env g0)) (gs_cfile g2) =
        text_of (ge_date (gs_env g0)) (gs_cfile g0) ++ (match text_of (ge_date (gs_env g0)) (gs_cfile g0) with [] => cancel_header ++ go_eol go | _ => [] end)
          ++ fmt_stamp (ge_now (gs_env g0)) ++ COMMA :: id ++ go_eol go).
    { unfold g2, gate_cancel. rewrite Hd. cbn [write_line snd set_cfile gs_env gs_cfile]. split; [reflexivity|]. rewrite text_same.
      cbn [join_with]. rewrite <- !app_assoc. reflexivity. }
    destruct E2 as [E2 E3]. specialize (IH g2). rewrite E2 in IH. destruct (IH Hd) as [I1 I2]. split; [exact I1|]. intros _.
    destruct l as [|id' l]; [cbn [fold_left map concat]; rewrite E3, app_nil_r; reflexivity|].
    rewrite (I2 ltac:(discriminate)), E3.
    set (h := match text_of (ge_date (gs_env g0)) (gs_cfile g0) with [] => _ | _ => _ end).
    set (o0 := text_of (ge_date (gs_env g0)) (gs_cfile g0)). clearbody h o0.
    replace (match o0 ++ h ++ fmt_stamp (ge_now (gs_env g0)) ++ COMMA :: id ++ go_eol go with [] => cancel_header ++ go_eol go | _ :: _ => [] end) with (@nil N).
    2:{ destruct o0; [|reflexivity]. destruct h; [|reflexivity]. cbn [app]. destruct (fmt_stamp _); reflexivity. }
    cbn [map concat app]. rewrite <- !app_assoc. cbn [app]. rewrite <- !app_assoc. reflexivity. }
  destruct (H l g Hd) as [_ H2]. exact (H2 Hl).
Qed.
Print Assumptions C25_batch_file.

(** ** C36 *)

(** C36 asks for every growth pattern of the file.  Proved: for every history of orders,
    growing broker files, syncs, failures and restarts in which each sync finds complete
    data lines (at least 20 columns, or a header) followed by an unfinished one with fewer
    than 20 columns, and no order is both rejected in the result file and reported in the
    update file: a sync leaves every order as reading the whole files once, right after
    all orders were submitted. *)
Theorem C36_incremental_partial :
  forall ptime f3 f4 go d g p rt ut rs us,
    go_ignore go = true -> hist ptime f3 f4 go d g p ->
    dget d (gs_rfile g) = Some rt -> dget d (gs_ufile g) = Some ut ->
    calm 5 rt rs -> calm 19 ut us -> exclusive rs us ->
    let once := GSt p 0 0 d [] [] (gs_rfile g) (gs_ufile g) [] (gs_env g) in
    forall id, dget id (gs_orders (snd (gate_sync_orders ptime f3 f4 go g))) =
               dget id (gs_orders (snd (gate_sync_orders ptime f3 f4 go once))).
Proof.
  intros ptime f3 f4 go d g p rt ut rs us Hi Hh Hr Hu Cr Cu X once id.
  pose proof (hist_inv ptime f3 f4 go d g p Hi Hh) as I.
  destruct (sync_reads ptime f3 f4 go d g p rt ut rs us Hi I Hr Hu Cr Cu X) as (_ & _ & _ & _ & _ & G1 & _).
  assert (I2 : Inv ptime f3 f4 d once p).
  { split; [reflexivity|]. split; [apply I|]. exists [], []. split; [eexists; reflexivity|]. split; [eexists; reflexivity|].
    split; [constructor|]. split; [constructor|]. split; [intros ? ? ? []|]. split; [intro k; cbn; destruct (dget k p); reflexivity|].
    split; [left; reflexivity|]. split; [left; reflexivity|]. exists [], []. split; [exists []; reflexivity|]. split; [exists []; reflexivity|].
    cbn. discriminate. }
  destruct (sync_reads ptime f3 f4 go d once p rt ut rs us Hi I2 Hr Hu Cr Cu X) as (_ & _ & _ & _ & _ & G2 & _).
  rewrite G1, G2. reflexivity.
Qed.
Print Assumptions C36_incremental_partial.
(** ... and an order whose last line parses has exactly the values of that line. *)
Theorem C36_last_line_partial :
  forall ptime f3 f4 go d g p rt ut rs pre l post id i st t q a c pz,
    go_ignore go = true -> hist ptime f3 f4 go d g p ->
    dget d (gs_rfile g) = Some rt -> dget d (gs_ufile g) = Some ut ->
    calm 5 rt rs -> calm 19 ut (pre ++ l :: post) -> exclusive rs (pre ++ l :: post) ->
    dget id p = Some i -> update_for id l -> (forall x, In x post -> ~ update_for id x) ->
    status_code (col 7 l) st -> ptime (col 1 l ++ col 2 l) = Some t -> py_int (col 11 l) = Some q ->
    f4 (col 13 l) = Some a -> py_int (col 14 l) = Some c -> f3 (col 12 l) = Some pz ->
    dget id (gs_orders (snd (gate_sync_orders ptime f3 f4 go g))) =
    Some (OInfo (i_code i) (i_price i) (i_amount i) (i_action i) (i_id i) (status_str st) (i_style i) (i_create i)
      (Some (fmt_dt t)) (i_side i) (Some (col 15 l)) (Some q) (Some c) (Some a) (Some pz) (i_comm i) (Some (col 18 l))).
Proof.
  intros ptime f3 f4 go d g p rt ut rs pre l post id i st t q a c pz Hi Hh Hr Hu Cr Cu X Hp H1 H2 H3 H4 H5 H6 H7 H8.
  pose proof (hist_inv ptime f3 f4 go d g p Hi Hh) as I.
  destruct (sync_reads ptime f3 f4 go d g p rt ut rs _ Hi I Hr Hu Cr Cu X) as (_ & _ & _ & _ & _ & G1 & _).
  rewrite G1, Hp. cbn [option_map]. f_equal. eapply replay_last; eassumption.
Qed.
Print Assumptions C36_last_line_partial.
(** False in general: a sync that sees a line without its line break applies it, but then
    stands before the line break, takes it for the end of the file, and never reads on. *)
Theorem C36_line_break_refuted :
  forall ptime f3 f4 go pre rest o,
    read_file go (update_line ptime f3 f4) (pre ++ NL :: rest) (List.length pre) o = (None, List.length pre, o).
Proof.
  intros. change (NL :: rest) with ([NL] ++ rest). apply blocked; [exists []; split; [reflexivity|intros []]|reflexivity].
Qed.
Print Assumptions C36_line_break_refuted.
(** A history where that loses the final fill for good. *)
Theorem C36_refuted :
  exists g0 part rest,
    let g1 := demo_sync (with_files [] part g0) in
    let g2 := demo_sync (with_files [] (part ++ rest) g1) in
    let once := demo_sync (with_files [] (part ++ rest) g0) in
    state_of "77" g2 <> state_of "77" once /\
    state_of "77" (demo_sync (with_files [] (part ++ rest ++ u_done ++ u_done) g2)) = state_of "77" g2.
Proof.
  exists (w_gate demo_w1), (removelast u_open), (NL :: u_done). vm_compute. split; [discriminate|reflexivity].
Qed.
Print Assumptions C36_refuted.
(** hypotheses of the positive theorems met, with a file seen in mid-line *)
Lemma demo_hist : hist demo_ptime demo_f3 demo_f4 demo_go 19000 (w_gate demo_w1)
  (match dget (lit "77") (gs_orders (w_gate demo_w1)) with Some i => dset (lit "77") i [] | None => [] end).
Proof.
  pose (o := new_order (lit "77") (19000 * DAY + 34200 * US) (lit "600000.XSHG") (-300) (Limit (PNum (lit "10.5"))) Long).
  assert (E : w_gate demo_w1 = snd (gate_order demo_go o demo_g0)) by (vm_compute; reflexivity).
  assert (E2 : lit "77" = o_id o) by reflexivity. rewrite E, E2.
  apply (h_order demo_ptime demo_f3 demo_f4 demo_go 19000 demo_g0 [] o).
  - apply h_start; reflexivity.
  - reflexivity.
  - intros l [].
  - intros l [].
Qed.
Definition half : str := firstn 40 u_done.
Lemma demo_line_whole l : forallb (fun c => negb (c =? NL)%N) (removelast l) = true -> l <> [] -> last l 0%N = NL -> whole l.
Proof.
  intros H Hne Hl. exists (removelast l). split; [rewrite (app_removelast_last 0%N Hne) at 1; rewrite Hl; reflexivity|].
  intro X. rewrite forallb_forall in H. specialize (H _ X). discriminate.
Qed.
Example C36_demo :
  calm 19 (u_open ++ u_else ++ u_part ++ half) [u_open; u_else; u_part] /\ calm 5 [] [] /\ exclusive [] [u_open; u_else; u_part] /\
  update_for (lit "77") u_part /\ status_code (col 7 u_part) Sfilling /\
  (let g1 := demo_sync (with_files [] (u_open ++ u_else ++ u_part ++ half) (w_gate demo_w1)) in
   state_of "77" g1 = Some (lit "filling", Some 100) /\
   state_of "77" (demo_sync (with_files [] (u_open ++ u_else ++ u_part ++ u_done) g1)) = Some (lit "filled", Some 300)).
Proof.
  assert (R : forall l, In l [u_open; u_else; u_part] -> readable 19 l).
  { intros l Hl. cbn in Hl. repeat (destruct Hl as [<-|Hl]; [split; [apply demo_line_whole; vm_compute; congruence|right; vm_compute; lia]|]). contradiction. }
  split; [|split; [|split; [|split; [|split; [vm_compute; auto|vm_compute; auto]]]]].
  - exists half. split; [vm_compute; reflexivity|]. split; [apply Forall_forall, R|].
    split; [|split; [|vm_compute; lia]]; [vm_compute; intuition discriminate|]. intro H. apply header_iff in H. vm_compute in H. discriminate.
  - exists []. split; [reflexivity|]. split; [constructor|]. split; [intros []|]. split; [|vm_compute; lia]. intro H. apply header_iff in H. discriminate.
  - intros id r u [].
  - split; [intro H; apply header_iff in H; vm_compute in H; discriminate|]. split; vm_compute; reflexivity.
Qed.

(** ** C37 *)

(** C37 asks for every malformed line.  Proved for lines with at least 20 columns: whatever
    such lines stand before [l], it is applied.  (Too many columns, unknown status, bad
    numbers, bad dates; see [readable].) *)
Theorem C37_later_lines_partial :
  forall ptime f3 f4 go d g p rt ut rs pre bad mid l post id i st t q a c pz,
    go_ignore go = true -> hist ptime f3 f4 go d g p ->
    dget d (gs_rfile g) = Some rt -> dget d (gs_ufile g) = Some ut ->
    let us := pre ++ bad :: mid ++ l :: post in
    calm 5 rt rs -> calm 19 ut us -> exclusive rs us ->
    dget id p = Some i -> update_for id l -> (forall x, In x post -> ~ update_for id x) ->
    status_code (col 7 l) st -> ptime (col 1 l ++ col 2 l) = Some t -> py_int (col 11 l) = Some q ->
    f4 (col 13 l) = Some a -> py_int (col 14 l) = Some c -> f3 (col 12 l) = Some pz ->
    exists i', dget id (gs_orders (snd (gate_sync_orders ptime f3 f4 go g))) = Some i' /\
      i_status i' = status_str st /\ i_filled i' = Some q /\ i_canceled i' = Some c /\ i_avg i' = Some pz.
Proof.
  intros. subst us. eexists. split.
  - eapply (C36_last_line_partial ptime f3 f4 go d g p rt ut rs (pre ++ bad :: mid) l post id i st t q a c pz); try eassumption;
      rewrite <- app_assoc; assumption.
  - repeat split.
Qed.
Print Assumptions C37_later_lines_partial.
(** False for a line with fewer columns (also an empty one): once the reader stands before
    it, nothing behind it is ever read, however the file grows. *)
Theorem C37_short_line_refuted :
  forall ptime f3 f4 go pre l rest o, whole l -> ~ header_line l -> (commas l < 19)%nat ->
    read_file go (update_line ptime f3 f4) (pre ++ l ++ rest) (List.length pre) o = (None, List.length pre, o).
Proof. intros. apply blocked; [assumption|]. apply update_short; assumption. Qed.
Print Assumptions C37_short_line_refuted.
Theorem C37_short_result_refuted :
  forall go pre l rest o, whole l -> ~ header_line l -> (commas l < 5)%nat ->
    read_file go result_line (pre ++ l ++ rest) (List.length pre) o = (None, List.length pre, o).
Proof. intros. apply blocked; [assumption|]. apply result_short; assumption. Qed.
Print Assumptions C37_short_result_refuted.
Definition u_long : str := nl "t,20220108,093200,UM0,8888,600000.SH,2,2,300,10,AT,300,10,3000,0,B1,c,77,done,x,y".
Example C37_demo :
  readable 19 u_long /\ ~ update_for (lit "77") u_long /\
  state_of "77" (demo_sync (with_files [] (u_open ++ u_long ++ u_part) (w_gate demo_w1))) = Some (lit "filling", Some 100) /\
  whole (nl "oops") /\ ~ header_line (nl "oops") /\
  state_of "77" (demo_sync (with_files [] (u_open ++ nl "oops" ++ u_part) (w_gate demo_w1))) = Some (lit "open", Some 0) /\
  state_of "77" (demo_sync (with_files [] (u_open ++ nl "" ++ u_part) (w_gate demo_w1))) = Some (lit "open", Some 0).
Proof.
  split; [split; [apply demo_line_whole; vm_compute; congruence|right; vm_compute; lia]|].
  split; [intros (_ & H & _); vm_compute in H; discriminate|]. split; [vm_compute; reflexivity|].
  split; [apply demo_line_whole; vm_compute; congruence|]. split; [intro H; apply header_iff in H; vm_compute in H; discriminate|].
  split; vm_compute; reflexivity.
Qed.

(** ** C38 *)

(** A skipped line with too many columns or an unknown status changes nothing. *)
Theorem C38_unchanged_partial :
  forall ptime f3 f4 go pre l o, go_ignore go = true -> whole l -> ~ header_line l ->
    (19 < commas l)%nat \/ (commas l = 19%nat /\ (forall st, ~ status_code (col 7 l) st) /\ exists i, dget (col 17 l) o = Some i) ->
    exists o', read_file go (update_line ptime f3 f4) (pre ++ l) (List.length pre) o = (None, List.length (pre ++ l), o') /\
      forall id, dget id o' = dget id o.
Proof.
  intros ptime f3 f4 go pre l o Hi Hw Hh [Hc|(Hc & Hs & i & Hd)]; rewrite read_one by exact Hw.
  - rewrite update_line_long by assumption. rewrite Hi. exists o. split; reflexivity.
  - rewrite (update_line_known ptime f3 f4 l (col 17 l) o i) by first [exact Hd | split; [exact Hh|split; [exact Hc|reflexivity]]].
    cbn zeta. unfold update_order. cbn [ul_status]. destruct (parse_status (col 7 l)) as [st|x] eqn:E.
    { apply parse_status_iff in E. exfalso. eapply Hs, E. }
    rewrite Hi. eexists. split; [reflexivity|]. intro id. rewrite dget_dset. destruct (eqb_spec id (col 17 l)) as [->|]; [congruence|reflexivity].
Qed.
Print Assumptions C38_unchanged_partial.
(** False for every line with a valid status and an unparsable time: it is skipped, but the
    order has the new status. *)
Theorem C38_refuted :
  forall ptime f3 f4 go pre l o id i st, go_ignore go = true -> whole l -> update_for id l ->
    status_code (col 7 l) st -> ptime (col 1 l ++ col 2 l) = None -> dget id o = Some i ->
    exists o' i', update_line ptime f3 f4 l o = LFail o' ValueError /\
      read_file go (update_line ptime f3 f4) (pre ++ l) (List.length pre) o = (None, List.length (pre ++ l), o') /\
      dget id o' = Some i' /\ i_status i' = status_str st.
Proof.
  intros ptime f3 f4 go pre l o id i st Hi Hw Hu Hs Ht Hd. rewrite read_one by exact Hw.
  rewrite (update_line_known ptime f3 f4 l id o i Hu Hd). cbn zeta. unfold update_order. cbn [ul_status ul_date ul_time].
  apply parse_status_iff in Hs. rewrite Hs, Ht, Hi. eexists _, _. split; [reflexivity|]. split; [reflexivity|].
  rewrite dget_dset_same. split; reflexivity.
Qed.
Print Assumptions C38_refuted.
Definition u_bad : str := nl "t,20229999,093200,UM0,8888,600000.SH,2,2,300,10,AT,300,10,3000,0,B1,c,77,,x".
Definition u_bad_status : str := nl "t,20220108,093200,UM0,8888,600000.SH,2,6,300,10,AT,300,10,3000,0,B1,c,77,,x".
Example C38_demo :
  status_code (col 7 u_bad) Sfilled /\ demo_ptime (col 1 u_bad ++ col 2 u_bad) = None /\
  state_of "77" (demo_sync (with_files [] (u_open ++ u_bad) (w_gate demo_w1))) = Some (lit "filled", Some 0) /\
  state_of "77" (demo_sync (with_files [] (u_open ++ u_bad_status) (w_gate demo_w1))) = Some (lit "open", Some 0).
Proof. vm_compute. auto 10. Qed.

(** ** C39 *)

(** Proved, under the same conditions as C36: after any history that ends with a sync that
    saved, restarting and syncing on the same files gives every order the same values. *)
Theorem C39_restart_partial :
  forall ptime f3 f4 go d g0 p rt ut rs us l,
    go_ignore go = true -> hist ptime f3 f4 go d g0 p ->
    dget d (gs_rfile g0) = Some rt -> dget d (gs_ufile g0) = Some ut ->
    calm 5 rt rs -> calm 19 ut us -> exclusive rs us ->
    fst (gate_sync_orders ptime f3 f4 go g0) = Ok l ->
    let g := snd (gate_sync_orders ptime f3 f4 go g0) in
    forall id, dget id (gs_orders (snd (gate_sync_orders ptime f3 f4 go (gate_setup true g)))) = dget id (gs_orders g).
Proof.
  intros ptime f3 f4 go d g0 p rt ut rs us l Hi Hh Hr Hu Cr Cu X Hok g id.
  pose proof (hist_inv ptime f3 f4 go d g0 p Hi Hh) as I.
  destruct (sync_reads ptime f3 f4 go d g0 p rt ut rs us Hi I Hr Hu Cr Cu X) as (D & E & Fr & Fu & _ & G1 & _ & _ & _ & S & _).
  fold g in D, E, Fr, Fu, G1, S. specialize (S l Hok).
  assert (Hh2 : hist ptime f3 f4 go d g p).
  { apply h_sync; [exact Hh|]. intros r u Hr2 Hu2. exists rs, us. rewrite Hr in Hr2. rewrite Hu in Hu2. injection Hr2 as <-. injection Hu2 as <-. auto. }
  pose proof (h_restart ptime f3 f4 go d g p Hh2) as Hh3. cbn zeta in Hh3.
  pose proof (hist_inv ptime f3 f4 go d _ _ Hi Hh3) as I3.
  assert (Hr3 : dget d (gs_rfile (gate_setup true g)) = Some rt) by (cbn; rewrite Fr; exact Hr).
  assert (Hu3 : dget d (gs_ufile (gate_setup true g)) = Some ut) by (cbn; rewrite Fu; exact Hu).
  destruct (sync_reads ptime f3 f4 go d _ _ rt ut rs us Hi I3 Hr3 Hu3 Cr Cu X) as (_ & _ & _ & _ & _ & G3 & _).
  rewrite G3, (dget_filter (fun k => dmem k (gs_orders (gate_setup true g)))).
  assert (O3 : gs_orders (gate_setup true g) = gs_orders g).
  { cbn. rewrite E, (proj1 (proj2 I)), S. unfold data_of. rewrite dget_dset_same. reflexivity. }
  rewrite O3. unfold dmem. rewrite G1. destruct (dget id p); reflexivity.
Qed.
Print Assumptions C39_restart_partial.
(** False in general: an order reported open by the broker, then rejected in the result
    file, is rejected before the restart and open afterwards. *)
Theorem C39_refuted :
  exists g, (exists l, fst (gate_sync_orders demo_ptime demo_f3 demo_f4 demo_go g) = Ok l) /\
    state_of "77" (demo_sync g) = Some (lit "rejected", Some 0) /\
    state_of "77" (demo_sync (gate_setup true (demo_sync g))) = Some (lit "open", Some 0).
Proof.
  exists (with_files r_rej u_open (demo_sync (with_files [] u_open (w_gate demo_w1)))).
  split; [eexists; vm_compute; reflexivity|]. split; vm_compute; reflexivity.
Qed.
Print Assumptions C39_refuted.
Example C39_demo :
  let g := demo_sync (with_files [] (u_open ++ u_else ++ u_part ++ half) (w_gate demo_w1)) in
  state_of "77" (gate_setup true g) = Some (lit "filling", Some 100) /\
  gs_uoff g <> 0%nat /\ gs_uoff (gate_setup true g) = 0%nat /\
  state_of "77" (demo_sync (gate_setup true g)) = Some (lit "filling", Some 100).
Proof. vm_compute. repeat split. discriminate. Qed.

(** ** C40 *)

(** False: the read positions are kept while the file names change with the date, so as
    long as today's update file is not longer than what was read of an earlier one, none
    of its lines is applied. *)
Theorem C40_refuted :
  forall ptime f3 f4 go g rt ut,
    dget (ge_date (gs_env g)) (gs_rfile g) = Some rt -> dget (ge_date (gs_env g)) (gs_ufile g) = Some ut ->
    (List.length rt <= gs_roff g)%nat -> (List.length ut <= gs_uoff g)%nat ->
    let g' := snd (gate_sync_orders ptime f3 f4 go g) in
    gs_orders g' = gs_orders g /\ gs_uoff g' = gs_uoff g /\ gs_roff g' = gs_roff g.
Proof.
  intros ptime f3 f4 go g rt ut Hr Hu Lr Lu. cbn zeta. unfold gate_sync_orders. rewrite Hu, Hr, beyond_end by exact Lr.
  cbn [set_rread gs_uoff]. rewrite beyond_end by exact Lu. set (g2 := set_uread _ _ _).
  pose proof (save_orders_files g2) as (S1 & S2 & S3 & _). destruct (save_orders g2) as [[]  g3]; cbn in *; auto.
Qed.
Print Assumptions C40_refuted.
(** Proved: whatever was read on other days, of today's files exactly what lies behind the
    read positions is applied, as if the files began there. *)
Lemma loop_shift go step ls : forall p1 q1 p2 q2 o,
  fst (fst (read_loop go step ls p1 q1 o)) = fst (fst (read_loop go step ls p2 q2 o)) /\
  snd (read_loop go step ls p1 q1 o) = snd (read_loop go step ls p2 q2 o).
Proof.
  induction ls as [|l ls IH]; intros; cbn [read_loop]; [split; reflexivity|]. destruct (step l o); auto. destruct (go_ignore go); auto.
Qed.
Lemma sync_value ptime f3 f4 go g rt ut :
  dget (ge_date (gs_env g)) (gs_rfile g) = Some rt -> dget (ge_date (gs_env g)) (gs_ufile g) = Some ut ->
  gs_orders (snd (gate_sync_orders ptime f3 f4 go g)) =
  let '(x, _, o1) := read_file go result_line rt (gs_roff g) (gs_orders g) in
  match x with Some _ => o1 | None => snd (read_file go (update_line ptime f3 f4) ut (gs_uoff g) o1) end.
Proof.
  intros Hr Hu. unfold gate_sync_orders. rewrite Hr, Hu. destruct (read_file go result_line rt (gs_roff g) (gs_orders g)) as [[[x|] ro] o1]; [reflexivity|].
  cbn [set_rread gs_uoff]. destruct (read_file go (update_line ptime f3 f4) ut (gs_uoff g) o1) as [[[x|] uo] o2]; [reflexivity|].
  cbn [snd]. set (g2 := set_uread _ _ _). pose proof (save_orders_files g2) as (S1 & _). destruct (save_orders g2) as [[] g3]; cbn in *; exact S1.
Qed.
Theorem C40_rest_partial :
  forall ptime f3 f4 go g rt ut,
    let d := ge_date (gs_env g) in
    dget d (gs_rfile g) = Some rt -> dget d (gs_ufile g) = Some ut ->
    gs_orders (snd (gate_sync_orders ptime f3 f4 go g)) =
    gs_orders (snd (gate_sync_orders ptime f3 f4 go
      (GSt (gs_orders g) 0 0 d [] [] [(d, skipn (gs_roff g) rt)] [(d, skipn (gs_uoff g) ut)] [] (gs_env g)))).
Proof.
  intros ptime f3 f4 go g rt ut d Hr Hu. rewrite (sync_value ptime f3 f4 go g rt ut Hr Hu).
  rewrite (sync_value ptime f3 f4 go _ (skipn (gs_roff g) rt) (skipn (gs_uoff g) ut)) by (cbn [gs_env gs_rfile gs_ufile dget]; fold d; rewrite eqb_refl; reflexivity).
  cbn [gs_roff gs_uoff gs_orders]. unfold read_file. cbn [skipn].
  destruct (loop_shift go result_line (lines_of (skipn (gs_roff g) rt)) (gs_roff g) (gs_roff g) 0 0 (gs_orders g)) as [A B].
  destruct (read_loop go result_line _ (gs_roff g) _ _) as [[x1 r1] o1]. destruct (read_loop go result_line _ 0 _ _) as [[x2 r2] o2]. cbn [fst snd] in A, B. subst x2 o2.
  destruct x1; [reflexivity|]. apply loop_shift.
Qed.
Print Assumptions C40_rest_partial.
(** So an order known to the gate, of whatever day, has the values of its last line behind
    the read positions. *)
Theorem C40_behind_partial :
  forall ptime f3 f4 go g rt ut rs pre l post id i st t q a c pz,
    go_ignore go = true ->
    dget (ge_date (gs_env g)) (gs_rfile g) = Some rt -> dget (ge_date (gs_env g)) (gs_ufile g) = Some ut ->
    calm 5 (skipn (gs_roff g) rt) rs -> calm 19 (skipn (gs_uoff g) ut) (pre ++ l :: post) -> exclusive rs (pre ++ l :: post) ->
    dget id (gs_orders g) = Some i -> update_for id l -> (forall x, In x post -> ~ update_for id x) ->
    status_code (col 7 l) st -> ptime (col 1 l ++ col 2 l) = Some t -> py_int (col 11 l) = Some q ->
    f4 (col 13 l) = Some a -> py_int (col 14 l) = Some c -> f3 (col 12 l) = Some pz ->
    dget id (gs_orders (snd (gate_sync_orders ptime f3 f4 go g))) =
    Some (OInfo (i_code i) (i_price i) (i_amount i) (i_action i) (i_id i) (status_str st) (i_style i) (i_create i)
      (Some (fmt_dt t)) (i_side i) (Some (col 15 l)) (Some q) (Some c) (Some a) (Some pz) (i_comm i) (Some (col 18 l))).
Proof.
  intros ptime f3 f4 go g rt ut rs pre l post id i st t q a c pz Hi Hr Hu Cr Cu X Hp H1 H2 H3 H4 H5 H6 H7 H8.
  rewrite (C40_rest_partial ptime f3 f4 go g rt ut Hr Hu). set (g' := GSt _ _ _ _ _ _ _ _ _ _). set (d := ge_date (gs_env g)) in *.
  assert (I2 : Inv ptime f3 f4 d g' (gs_orders g)).
  { split; [reflexivity|]. split; [reflexivity|]. exists [], []. split; [eexists; reflexivity|]. split; [eexists; reflexivity|].
    split; [constructor|]. split; [constructor|]. split; [intros ? ? ? []|]. split; [intro k; cbn; destruct (dget k (gs_orders g)); reflexivity|].
    split; [left; reflexivity|]. split; [left; reflexivity|]. exists [], []. split; [exists []; reflexivity|]. split; [exists []; reflexivity|].
    cbn. discriminate. }
  destruct (sync_reads ptime f3 f4 go d g' _ (skipn (gs_roff g) rt) (skipn (gs_uoff g) ut) rs (pre ++ l :: post) Hi I2) as (_ & _ & _ & _ & _ & G1 & _);
    [unfold g'; cbn [gs_rfile dget]; rewrite eqb_refl; reflexivity|unfold g'; cbn [gs_ufile dget]; rewrite eqb_refl; reflexivity|assumption|assumption|assumption|].
  rewrite G1, Hp. cbn [option_map]. f_equal. eapply replay_last; eassumption.
Qed.
Print Assumptions C40_behind_partial.
(** a file of the next day that is longer than what was read: its fill is seen *)
Example C40_behind_demo :
  let g1 := demo_sync (with_files [] (u_head ++ u_open) (w_gate demo_w1)) in
  let pad := u_head ++ u_else in
  let g2 := set_env (GEnv 19001 (19001 * DAY) WDone (Ok tt)) (set_bfiles [(19001, [])] [(19001, firstn (gs_uoff g1) (pad ++ pad ++ pad) ++ u_done)] g1) in
  dget (lit "77") (gs_orders g1) <> None /\ skipn (gs_uoff g2) (firstn (gs_uoff g1) (pad ++ pad ++ pad) ++ u_done) = u_done /\
  state_of "77" (demo_sync g2) = Some (lit "filled", Some 300).
Proof. vm_compute. repeat split. discriminate. Qed.
(** Within a day, or while the positions are 0, C36 applies.  A process running over
    midnight with an order still open: its fill on the next day is never seen. *)
Example C40_demo :
  let g1 := demo_sync (with_files [] (u_head ++ u_open) (w_gate demo_w1)) in
  let g2 := set_env (GEnv 19001 (19001 * DAY) WDone (Ok tt)) (set_bfiles [(19001, [])] [(19001, u_done)] g1) in
  state_of "77" g1 = Some (lit "open", Some 0) /\ (List.length u_done <= gs_uoff g1)%nat /\
  state_of "77" (demo_sync g2) = Some (lit "open", Some 0) /\
  state_of "77" (demo_sync (gate_setup true (set_data (dset 19001 (gs_orders g1) []) g2))) = Some (lit "filled", Some 300).
Proof. vm_compute. repeat split. lia. Qed.

(** ** C43 *)

(** Proved for orders whose price JSON can represent: after any sequence of orders (failing
    or not), cancels, syncs, failures and file changes, a sync works as soon as both
    broker files exist and the save file can be written. *)
Theorem C43_sync_works_partial :
  forall ptime f3 f4 go ops g,
    go_ignore go = true -> (forall o, In (GOOrder o) ops -> match o_price o with PBad _ => False | _ => True end) ->
    gs_orders g = [] ->
    let g' := g_steps ptime f3 f4 go ops g in
    ge_save (gs_env g') = Ok tt ->
    dget (ge_date (gs_env g')) (gs_ufile g') <> None -> dget (ge_date (gs_env g')) (gs_rfile g') <> None ->
    exists l, fst (gate_sync_orders ptime f3 f4 go g') = Ok l /\
      l = dvals (gs_orders (snd (gate_sync_orders ptime f3 f4 go g'))).
Proof.
  intros ptime f3 f4 go ops g Hi Ho Hg g' He Hu Hr. eexists. split; [|reflexivity]. apply sync_ser; try assumption.
  apply steps_ser; [|rewrite Hg; reflexivity]. intros o Hin. specialize (Ho o Hin). unfold serialisable. cbn. destruct (o_price o); tauto.
Qed.
Print Assumptions C43_sync_works_partial.
(** False for an order with a price JSON cannot represent (a Decimal, say): its line is
    written, order() fails, and every later sync of the process fails, whatever happens. *)
Theorem C43_refuted :
  forall ptime f3 f4 go udigit sep o g,
    go_acct go <> [] -> go_stock go = true -> o_side o = Long -> code_form udigit sep (o_code o) ->
    ge_write (gs_env g) = WDone -> (exists r, o_price o = PBad r) ->
    (exists x, fst (gate_order go o g) = Err x) /\
    text_of (ge_date (gs_env g)) (gs_ofile (snd (gate_order go o g))) <> text_of (ge_date (gs_env g)) (gs_ofile g) /\
    forall ops, (forall o', In (GOOrder o') ops -> o_id o' <> o_id o) ->
      exists x, fst (gate_sync_orders ptime f3 f4 go (g_steps ptime f3 f4 go ops (snd (gate_order go o g)))) = Err x.
Proof.
  intros ptime f3 f4 go udigit sep o g Ha Hs Hl Hf Hw [rp Hp].
  destruct (gate_order_form go udigit sep o g Ha Hs Hl Hf) as (sym & Es & Hsy & G). cbn zeta in G. rewrite Hw in G. cbn [write_line] in G.
  set (g1 := set_gorders _ _) in G.
  assert (B : bad (o_id o) (gs_orders g1)).
  { exists (json o). split; [apply dget_dset_same|]. unfold serialisable. cbn. rewrite Hp. reflexivity. }
  rewrite (save_bad _ _ B) in G. rewrite G. cbn [fst snd]. split; [eauto|]. split.
  - unfold g1. cbn [set_gorders set_ofile gs_ofile]. rewrite text_same. intro E.
    rewrite <- (app_nil_r (text_of (ge_date (gs_env g)) (gs_ofile g))) in E at 3. apply app_inv_head in E.
    apply app_eq_nil in E. destruct E as [_ E]. apply app_eq_nil in E. destruct E as [E _].
    unfold order_fields in E. cbn [app join_with] in E. apply app_eq_nil in E. destruct E. discriminate.
  - intros ops Hops. apply (sync_bad ptime f3 f4 go (o_id o)). apply steps_bad; assumption.
Qed.
Print Assumptions C43_refuted.
Example C43_demo :
  let w := snd (demo_place "78" "600000.XSHG" 100 (StStyle (Limit (PBad (lit "1.5")))) demo_w1) in
  fst (demo_place "78" "600000.XSHG" 100 (StStyle (Limit (PBad (lit "1.5")))) demo_w1) = Ok None /\
  fst (gate_sync_orders demo_ptime demo_f3 demo_f4 demo_go (with_files [] u_open (w_gate w))) = Err TypeError /\
  (exists l, fst (gate_sync_orders demo_ptime demo_f3 demo_f4 demo_go (with_files [] u_open (w_gate demo_w1))) = Ok l).
Proof. split; [vm_compute; reflexivity|]. split; [vm_compute; reflexivity|]. eexists. vm_compute. reflexivity. Qed.
