(** C136: the rows of the order and the cancel file. *)
From Coq Require Import String.
From Verif Require Import PyBase PyStr SDate MTime MDate MOrder MAccount MGate MNewline SAccount SGate SOfile SNewline SWinOrders
  LStr LUtils LGate TGate TOfile TNewline.
Open Scope list_scope.
Open Scope Z_scope.

(** ** a text has one list of rows *)
Definition unbreak (l : str) : str := rev (drop_while (fun c => (c =? 10) || (c =? 13))%N (rev l)).
Lemma unbreak_plain b k : breakless b -> k = [] \/ k = [10%N] \/ k = [13%N; 10%N] \/ k = [13%N] -> unbreak (b ++ k) = b.
Proof.
  intros [B1 B2] Hk. assert (E : drop_while (fun c => (c =? 10) || (c =? 13))%N (rev b) = rev b).
  { destruct (rev b) as [|c r] eqn:Er; [reflexivity|]. assert (I : In c b) by (apply in_rev; rewrite Er; left; reflexivity). cbn [drop_while].
    destruct (N.eqb_spec c 10) as [->|_]; [contradiction|]. destruct (N.eqb_spec c 13) as [->|_]; [contradiction|]. reflexivity. }
  unfold unbreak. rewrite rev_app_distr. destruct Hk as [-> |[-> |[-> | ->]]]; cbn [rev app drop_while N.eqb Pos.eqb orb]; rewrite E; apply rev_involutive.
Qed.
Lemma rows_broken t rs : rows t rs -> exists ls, broken t ls /\ rs = map unbreak ls.
Proof.
  induction 1 as [|b Hn Hb|b k s rs Hb Hk _ (ls & IH & ->)].
  - exists []. split; constructor.
  - exists [b]. split; [constructor; assumption|]. cbn [map]. rewrite <- (app_nil_r b) at 2. rewrite unbreak_plain; auto.
  - exists ((b ++ k) :: ls). split; [constructor; assumption|]. cbn [map]. rewrite unbreak_plain; auto.
    destruct Hk as [-> |[-> |[-> _]]]; auto.
Qed.
(** every text has its rows, and only those *)
Theorem C136_rows : forall t, exists rs, rows t rs /\ forall rs', rows t rs' -> rs' = rs.
Proof.
  intro t. pose proof (proj1 (C135_lines t _) eq_refl) as B.
  assert (R : rows t (map unbreak (ulines t))).
  { induction B as [|b Hn Hb|b k s ls Hb Hk _ IH]; [constructor| |].
    - cbn [map]. rewrite <- (app_nil_r b) at 2. rewrite unbreak_plain; auto. constructor; assumption.
    - cbn [map]. rewrite unbreak_plain; auto; [constructor; assumption|]. destruct Hk as [-> |[-> |[-> _]]]; auto. }
  exists (map unbreak (ulines t)). split; [exact R|]. intros rs' H. destruct (rows_broken t rs' H) as (ls & Hl & ->).
  apply C135_lines in Hl. subst ls. reflexivity.
Qed.
Print Assumptions C136_rows.

(** ** the texts of the files *)
Definition rowed (eol : str) (r l : str) : Prop := l = r ++ eol /\ breakless r.
Lemma posix_rows rs ls : Forall2 (rowed eol_posix) rs ls -> rows (concat ls) rs.
Proof.
  induction 1 as [|r l rs ls [-> Hr] _ IH]; [constructor|]. cbn [concat]. rewrite <- app_assoc. apply ro_line; auto.
Qed.
Lemma windows_rows rs ls : Forall2 (rowed eol_windows) rs ls -> rows (concat ls) (flat_map (fun r => [r; []]) rs).
Proof.
  induction 1 as [|r l rs ls [-> Hr] _ IH]; [constructor|]. cbn [concat flat_map app]. rewrite <- app_assoc. unfold eol_windows.
  change ([MGate.CR; MGate.CR; NL] ++ concat ls) with ([13%N] ++ ([] ++ [13%N; 10%N] ++ concat ls)).
  apply ro_line; [exact Hr|right; right; split; [reflexivity|discriminate]|]. apply ro_line; [split; intros []|auto|exact IH].
Qed.
Lemma header_row eol header ls rs text : breakless header -> Forall2 (rowed eol) rs ls -> holds header eol ls text ->
  exists ls', Forall2 (rowed eol) (table header rs) ls' /\ text = concat ls'.
Proof.
  unfold holds, table. intros Hh F ->. destruct F as [|r l rs ls Hr F]; [exists []; split; [constructor|reflexivity]|].
  exists ((header ++ eol) :: l :: ls). split; [|cbn [concat]; rewrite <- !app_assoc; reflexivity].
  constructor; [split; [reflexivity|exact Hh]|]. constructor; assumption.
Qed.
Lemma breakless_dec s : forallb (fun c => negb (c =? 10)%N && negb (c =? 13)%N) s = true -> breakless s.
Proof. rewrite forallb_forall. intro H. split; intro X; specialize (H _ X); discriminate. Qed.
Lemma numeral_breakless s : numeral s -> breakless s.
Proof. unfold numeral. rewrite Forall_forall. intro H. split; intro X; specialize (H _ X); lia. Qed.
Lemma symbol_breakless code sym : symbol_of code sym -> breakless code -> breakless sym.
Proof.
  assert (K : forall c d sep (s t : str), ~ In c t -> ~ In c (d ++ sep :: s) -> ~ In c (d ++ sep :: t)).
  { intros c d sep s t Ht H X. apply H. apply in_app_or in X. apply in_or_app. destruct X as [X|[X|X]]; [left; exact X|right; left; exact X|contradiction]. }
  intros (d & sep & H) [P1 P2]. destruct H as [[-> ->]|[-> ->]]; (split; eapply K; [|eassumption| |eassumption]);
    cbn; intros [X|[X|[]]]; discriminate.
Qed.
Lemma row_breakless go q r : whole_opts go -> whole_req q -> row_for go q r -> breakless r.
Proof.
  intros (O1 & O2 & O3) (Q1 & Q2 & Q3) (sym & cols & Hs & (stamp & qty & Hc & _ & Hst & Hq) & ->).
  pose proof (symbol_breakless _ _ Hs Q2) as Hsym. pose proof (numeral_breakless _ Hst) as B1. pose proof (numeral_breakless _ Hq) as B2.
  assert (A : Forall breakless cols).
  { rewrite Hc. apply Forall_app. split.
    - repeat (constructor; [first [assumption|destruct (0 <? oq_n q); apply breakless_dec; reflexivity]|]). constructor.
    - destruct (oq_style q) as [m|p]; cbn [price_fields].
      + repeat (constructor; [first [destruct (0 <? oq_n q); apply breakless_dec; reflexivity|apply breakless_dec; reflexivity]|]). constructor.
      + pose proof (Q3 p eq_refl) as B3. repeat (constructor; [first [exact B3|apply breakless_dec; reflexivity]|]). constructor. }
  rewrite Forall_forall in A. split; intro X; (apply join_In in X; [|discriminate]); destruct X as (w & Hw & X); destruct (A w Hw); contradiction.
Qed.
Lemma rows_of_lines go qs ls : whole_opts go -> (forall q, In q qs -> whole_req q) -> Forall2 (line_for go) qs ls ->
  exists rs, Forall2 (row_for go) qs rs /\ Forall2 (rowed (go_eol go)) rs ls.
Proof.
  intros HO HQ F. induction F as [|q l qs ls (sym & cols & Hs & Hc & -> & _) _ IH]; [exists []; split; constructor|].
  destruct IH as (rs & F1 & F2); [intros; apply HQ; right; assumption|]. exists (join_with COMMA cols :: rs).
  assert (R : row_for go q (join_with COMMA cols)) by (exists sym, cols; auto).
  split; constructor; auto. split; [reflexivity|]. apply (row_breakless go q); auto. apply HQ. left. reflexivity.
Qed.
Lemma crows_of_lines go qs ls : (forall q, In q qs -> breakless (cq_id q)) -> Forall2 (cline_for go) qs ls ->
  exists rs, Forall2 crow_for qs rs /\ Forall2 (rowed (go_eol go)) rs ls.
Proof.
  intros HQ F. induction F as [|q l qs ls (stamp & -> & Hst) _ IH]; [exists []; split; constructor|].
  destruct IH as (rs & F1 & F2); [intros; apply HQ; right; assumption|]. exists ((stamp ++ COMMA :: cq_id q) :: rs).
  split; constructor; auto; [exists stamp; auto|]. split; [rewrite <- app_assoc; reflexivity|].
  destruct (numeral_breakless _ Hst) as [N1 N2]. destruct (HQ q (or_introl eq_refl)) as [M1 M2].
  split; intro X; apply in_app_or in X; destruct X as [X|[X|X]]; try discriminate; contradiction.
Qed.

(** ** The claim: the order file of a day has a row with the names and one row for each
    order, and nothing else. *)
Definition one_row_each (eol : str) : Prop :=
  forall udigit ptime f3 f4 go bal (env : genv -> Prop) (sty : style -> Prop) a g os cs, go_acct go <> [] -> go_stock go = true -> go_eol go = eol ->
    (forall e, env e -> ~ torn e) -> whole_opts go -> (forall q, In q os -> whole_req q) ->
    trail udigit ptime f3 f4 go bal env sty a g os cs ->
    forall d, exists rs, Forall2 (row_for go) (written d os) rs /\ rows (text_of d (gs_ofile g)) (table order_header rs).

(** True on POSIX; the same for the cancel file. *)
Theorem C136_posix_partial : one_row_each eol_posix.
Proof.
  intros udigit ptime f3 f4 go bal env sty a g os cs Ha Hs Heol He HO HQ T d.
  destruct (C80_files_partial udigit ptime f3 f4 go bal env sty a g os cs Ha Hs He T) as (FO & _ & _). destruct (FO d) as (ls & F & H).
  destruct (rows_of_lines go _ ls HO (fun q Hq => HQ q (proj1 (proj1 (filter_In _ _ _) Hq))) F) as (rs & F1 & F2).
  exists rs. split; [exact F1|]. rewrite Heol in *.
  destruct (header_row eol_posix order_header ls rs _ ltac:(apply breakless_dec; reflexivity) F2 H) as (ls' & F3 & ->). apply posix_rows, F3.
Qed.
Print Assumptions C136_posix_partial.

(** On Windows every row is followed by an empty one, in both files; without the empty rows
    it is the table. *)
Theorem C136_windows_partial :
  forall udigit ptime f3 f4 go bal (env : genv -> Prop) (sty : style -> Prop) a g os cs, go_acct go <> [] -> go_stock go = true -> go_eol go = eol_windows ->
    (forall e, env e -> ~ torn e) -> whole_opts go -> (forall q, In q os -> whole_req q) -> (forall q, In q cs -> breakless (cq_id q)) ->
    trail udigit ptime f3 f4 go bal env sty a g os cs ->
    forall d,
      (exists rs, Forall2 (row_for go) (written d os) rs /\ rows (text_of d (gs_ofile g)) (spaced order_header rs) /\
        filter nonblank (spaced order_header rs) = table order_header rs) /\
      (exists rs, Forall2 crow_for (cwritten d cs) rs /\ rows (text_of d (gs_cfile g)) (spaced cancel_header rs) /\
        filter nonblank (spaced cancel_header rs) = table cancel_header rs).
Proof.
  intros udigit ptime f3 f4 go bal env sty a g os cs Ha Hs Heol He HO HQ HC T d.
  assert (NB : forall header rs, nonblank header = true -> Forall (fun r => nonblank r = true) rs -> filter nonblank (spaced header rs) = table header rs).
  { intros header rs Hh F. assert (G : Forall (fun r => nonblank r = true) (table header rs)) by (destruct F; constructor; auto; constructor; auto).
    unfold spaced. clear F. induction G as [|r l Hr _ IH]; [reflexivity|]. cbn [flat_map app filter]. rewrite Hr. cbn [nonblank]. rewrite IH. reflexivity. }
  destruct (C80_files_partial udigit ptime f3 f4 go bal env sty a g os cs Ha Hs He T) as (FO & FC & _). split.
  - destruct (FO d) as (ls & F & H). destruct (rows_of_lines go _ ls HO (fun q Hq => HQ q (proj1 (proj1 (filter_In _ _ _) Hq))) F) as (rs & F1 & F2).
    exists rs. split; [exact F1|]. rewrite Heol in *. split.
    + destruct (header_row eol_windows order_header ls rs _ ltac:(apply breakless_dec; reflexivity) F2 H) as (ls' & F3 & ->). apply windows_rows, F3.
    + apply NB; [reflexivity|]. clear - F1. induction F1 as [|q r qs rs (sym & cols & _ & (stamp & qty & -> & _) & ->) _ IH]; constructor; auto.
      cbn [app join_with]. destruct stamp; reflexivity.
  - destruct (FC d) as (ls & F & H). destruct (crows_of_lines go _ ls (fun q Hq => HC q (proj1 (proj1 (filter_In _ _ _) Hq))) F) as (rs & F1 & F2).
    exists rs. split; [exact F1|]. rewrite Heol in *. split.
    + destruct (header_row eol_windows cancel_header ls rs _ ltac:(apply breakless_dec; reflexivity) F2 H) as (ls' & F3 & ->). apply windows_rows, F3.
    + apply NB; [reflexivity|]. clear - F1. induction F1 as [|q r qs rs (stamp & -> & _) _ IH]; constructor; auto. destruct stamp; reflexivity.
Qed.
Print Assumptions C136_windows_partial.

Theorem C136_cancel_posix :
  forall udigit ptime f3 f4 go bal (env : genv -> Prop) (sty : style -> Prop) a g os cs, go_acct go <> [] -> go_stock go = true -> go_eol go = eol_posix ->
    (forall e, env e -> ~ torn e) -> (forall q, In q cs -> breakless (cq_id q)) ->
    trail udigit ptime f3 f4 go bal env sty a g os cs ->
    forall d, exists rs, Forall2 crow_for (cwritten d cs) rs /\ rows (text_of d (gs_cfile g)) (table cancel_header rs).
Proof.
  intros udigit ptime f3 f4 go bal env sty a g os cs Ha Hs Heol He HC T d.
  destruct (C80_files_partial udigit ptime f3 f4 go bal env sty a g os cs Ha Hs He T) as (_ & FC & _). destruct (FC d) as (ls & F & H).
  destruct (crows_of_lines go _ ls (fun q Hq => HC q (proj1 (proj1 (filter_In _ _ _) Hq))) F) as (rs & F1 & F2).
  exists rs. split; [exact F1|]. rewrite Heol in *.
  destruct (header_row eol_posix cancel_header ls rs _ ltac:(apply breakless_dec; reflexivity) F2 H) as (ls' & F3 & ->). apply posix_rows, F3.
Qed.
Print Assumptions C136_cancel_posix.

(** an order and its cancel on Windows *)
Definition win_go : gopts := GOpts (lit "8888") true (lit "UM0") (lit "DMA") true eol_windows.
Definition win_gate := anxin demo_ptime demo_f3 demo_f4 win_go demo_bal.
Definition win_x :=
  let '(_, a, g) := acc_order win_gate (lit "1") (19000 * DAY + 34200 * US) (lit "600000.XSHG") 100 (Limit (PNum (lit "10.5"))) Long acct_new demo_g0 in (a, g).
Definition win_y := acc_cancel win_gate (lit "1") (fst win_x) (snd win_x).
Lemma win_trail : trail no_ud demo_ptime demo_f3 demo_f4 win_go demo_bal (fun e => ~ torn e) (fun _ => True) (fst win_y) (snd win_y)
  [rq "1" 100 true true] [CReq (lit "1") 19000 true true].
Proof.
  assert (T0 : trail no_ud demo_ptime demo_f3 demo_f4 win_go demo_bal (fun e => ~ torn e) (fun _ => True) acct_new demo_g0 [] []).
  { apply t_start; try reflexivity. intros (n & x & E). discriminate E. }
  assert (T1 : trail no_ud demo_ptime demo_f3 demo_f4 win_go demo_bal (fun e => ~ torn e) (fun _ => True) (fst win_x) (snd win_x) [rq "1" 100 true true] []).
  { assert (N : 100 <> 0) by discriminate.
    destruct (acc_order win_gate (lit "1") (19000 * DAY + 34200 * US) (lit "600000.XSHG") 100 (Limit (PNum (lit "10.5"))) Long acct_new demo_g0) as [[r a'] g'] eqn:E.
    pose proof (t_order _ _ _ _ _ _ (fun e => ~ torn e) (fun _ => True) _ _ _ _ _ _ _ _ _ _ _ _ _ _ T0 demo_code_form N I E) as T.
    unfold win_x. rewrite E. cbn [fst snd]. assert (R : r = Some (lit "1")) by (apply (f_equal (fun x => fst (fst x))) in E; vm_compute in E; symmetry; exact E).
    rewrite R in T. exact T. }
  exact (t_cancel _ _ _ _ _ _ _ _ _ _ _ _ (lit "1") T1).
Qed.
Example C136_demo :
  trail no_ud demo_ptime demo_f3 demo_f4 win_go demo_bal (fun e => ~ torn e) (fun _ => True) (fst win_y) (snd win_y)
    [rq "1" 100 true true] [CReq (lit "1") 19000 true true] /\
  whole_opts win_go /\ whole_req (rq "1" 100 true true) /\
  map unbreak (ulines (text_of 19000 (gs_ofile (snd win_y)))) =
    [order_header; []; lit "093000.000000,1,UM0,8888,600000.SH,1,100,DMA,AT,0,10.5,10.5"; []] /\
  map unbreak (ulines (text_of 19000 (gs_cfile (snd win_y)))) = [cancel_header; []; lit "093000.000000,1"; []].
Proof.
  split; [exact win_trail|]. split; [repeat split; apply breakless_dec; reflexivity|]. split; [|split; vm_compute; reflexivity].
  split; [apply breakless_dec; reflexivity|]. split; [apply breakless_dec; reflexivity|]. intros p E. injection E as <-. apply breakless_dec. reflexivity.
Qed.

(** False on Windows. *)
Theorem C136_windows_refuted : ~ one_row_each eol_windows.
Proof.
  intro H. destruct C136_demo as (T & HO & HQ & E & _).
  assert (HQ' : forall q, In q [rq "1" 100 true true] -> whole_req q) by (intros q [<-|[]]; exact HQ).
  destruct (H no_ud demo_ptime demo_f3 demo_f4 win_go demo_bal (fun e => ~ torn e) (fun _ => True) _ _ _ _ ltac:(discriminate) eq_refl eq_refl (fun e h => h) HO
    HQ' T 19000) as (rs & F & R).
  match type of F with Forall2 _ ?q _ => replace q with [rq "1" 100 true true] in F by (vm_compute; reflexivity) end.
  inversion F as [|q r qs rs' _ F']; subst. inversion F'; subst. clear F F'.
  destruct (rows_broken _ _ R) as (ls & B & X). apply C135_lines in B. rewrite <- B, E in X. discriminate.
Qed.
Print Assumptions C136_windows_refuted.
