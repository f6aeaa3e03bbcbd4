(** C82 for processes that run for years: how many orders are submitted each day.

    Proved: when every write to the order file works, the order file of a day that is over
    holds one line for each instant owed that day (C82_years_partial).  False on the days
    d + i (cf_count - 1), i >= 1, on which every instant is called twice (C90): there each order
    is submitted twice (C82_twice_refuted). *)
From Coq Require Import Permutation Sorted String.
From Verif Require Import PyBase PyStr MTime MDate MTimeExpr MEventSource MQueue MLoop MSched MBus MStrategy SEvent SExpr SStrategy
  MProcess SProcess LProcess MOrder MAccount MApi MGate SAccount SGate SOfile SSystem SLong LEventSource2 LGate4 TProcess TGate TOfile TSystem TLong.
Open Scope list_scope.
Open Scope Z_scope.

(** ** counting *)
Fixpoint total (l : list nat) : nat := match l with [] => 0 | n :: l' => n + total l' end.
Lemma count_sum (L : list Z) : NoDup L -> forall l, (forall x, In x l -> In x L) -> List.length l = total (map (fun x => count_occ Z.eq_dec l x) L).
Proof.
  intros HL. induction l as [|y l IH]; intros H; [clear; induction L; cbn; auto|].
  cbn [List.length]. rewrite (IH (fun x Hx => H x (or_intror Hx))). assert (Hy := H y (or_introl eq_refl)). clear IH H. revert HL Hy. induction L as [|z L IH]; intros HL []; subst.
  - cbn [map total]. rewrite (count_occ_cons_eq _ _ eq_refl). inversion HL as [|? ? N _]; subst. cbn [Nat.add]. f_equal. f_equal. f_equal.
    apply map_ext_in. intros x Hx. rewrite count_occ_cons_neq; [reflexivity|]. intros ->. contradiction.
  - inversion HL as [|? ? N HL']; subst. cbn [map total]. rewrite (count_occ_cons_neq Z.eq_dec l (x := y) (y := z)); [|intros ->; contradiction].
    rewrite Nat.add_succ_r || idtac. specialize (IH HL' H). lia.
Qed.
Lemma count_filter (P : Z -> bool) l x : P x = true -> count_occ Z.eq_dec (filter P l) x = count_occ Z.eq_dec l x.
Proof.
  intros H. induction l as [|y l IH]; [reflexivity|]. cbn [filter count_occ]. destruct (Z.eq_dec y x) as [->|N].
  - rewrite H. cbn [count_occ]. destruct (Z.eq_dec x x); [rewrite IH; reflexivity|contradiction].
  - destruct (P y); [cbn [count_occ]; destruct (Z.eq_dec y x); [contradiction|exact IH]|exact IH].
Qed.
Lemma total_const (n : nat) {A} (l : list A) (f : A -> nat) : (forall x, In x l -> f x = n) -> total (map f l) = (n * List.length l)%nat.
Proof. induction l as [|x l IH]; intros H; cbn [map total List.length]; [lia|]. rewrite (H x (or_introl eq_refl)), IH by (intros; apply H; right; assumption). lia. Qed.
Lemma total_filter {A} (l : list A) (p : A -> bool) (f : A -> nat) : (forall x, In x l -> f x = if p x then 1%nat else 0%nat) -> total (map f l) = List.length (filter p l).
Proof.
  induction l as [|x l IH]; intros H; [reflexivity|]. cbn [map total filter]. rewrite (H x (or_introl eq_refl)), IH by (intros; apply H; right; assumption).
  destruct (p x); reflexivity.
Qed.

(** the instants called are owed ones *)
Lemma owed_in now offs d e S x : owed_on now offs d e S -> In x S -> exists D o, d <= D <= e /\ In o offs /\ x = D * DAY + o /\ now <= x.
Proof.
  intros (dl & parts & Hd & HF & ->) Hx. assert (G : Forall (fun D => d <= D <= e) dl) by (apply Forall_forall; intros D HD; apply Hd, HD).
  clear Hd. induction HF as [|D p dl parts (HP & _) HF IH]; [destruct Hx|]. cbn [concat] in Hx. apply in_app_or in Hx as [Hx|Hx].
  - apply (Permutation_in _ HP) in Hx. apply filter_In in Hx as [Hx Hle]. apply in_map_iff in Hx as (o & <- & Ho). exists D, o. apply Z.leb_le in Hle. apply Forall_inv in G. auto.
  - apply IH; [exact Hx|]. apply Forall_inv_tail in G. exact G.
Qed.
Lemma windows_in now offs w ds calls x : in_windows now offs w ds calls -> In x calls -> exists D o, In o offs /\ x = D * DAY + o /\ now <= x.
Proof.
  intros (Ss & HF & (t & Hc) & _) Hx. assert (Hin : In x (concat Ss)) by (rewrite Hc; apply in_or_app; left; exact Hx). clear Hc.
  induction HF as [|d S ds Ss HO HF IH]; [destruct Hin|]. cbn [concat] in Hin. apply in_app_or in Hin as [Hin|Hin]; [|apply IH, Hin].
  destruct (owed_in _ _ _ _ _ _ HO Hin) as (D & o & _ & H). exists D, o. exact H.
Qed.

(** The claim: when the loop goes to sleep at [clock] and the times of day [D] have passed,
    the order file of [D] holds a header and one line for each time of day owed to the entry,
    which are the lines of the orders placed that day. *)
Definition days_claim (orders : Z -> Z -> Z -> Z -> list Z -> nat) : Prop :=
  forall fuel cfg sc tz ctx now calls ns dates s4 s0 s ls ps,
    start fuel cfg sc tz ctx None now calls ns dates = Some (s4, s0) -> List.length dates = List.length (st_srcs s4) ->
    Forall ok_label ls -> l_exec (sched_handler fuel (loop_cfg cfg sc s4) tz) s0 ls = Some s ->
    cf_hist cfg = false ->
    market_period sc s4 = raw_of ps -> Forall (fun p => tod_ok (fst p) /\ tod_ok (snd p)) ps ->
    Forall (fun p => fst p mod US = 0 /\ snd p mod US = 0) ps -> ps <> [] ->
    (1441 <= fuel)%nat -> (Z.to_nat (cf_count cfg) < fuel)%nat ->
    forall k nm fid t offs d,
      nth_error (asked calls) k = Some (nm, fid, t) -> owes ps t offs ->
      nth_error dates (List.length (st_srcs s4) - List.length (asked calls) + k) = Some d ->
      tz mod US = 0 -> same_day (sched_handler fuel (loop_cfg cfg sc s4) tz) tz s0 ls ->
      Forall tod_ok offs -> offs <> [] -> NoDup offs -> 2 <= cf_count cfg -> dt_date (now k) <= d ->
    forall clock ex s' m D,
      w_hung (l_w s) = false ->
      l_step (sched_handler fuel (loop_cfg cfg sc s4) tz) s (LTurn clock ex) = Some s' -> l_mode s' = Arming m ->
      d <= D -> (forall o, In o offs -> D * DAY + o - tz <= clock * 1000) ->
    forall udigit ptime f3 f4 go bal (env : genv -> Prop) code n st sep a g os cs,
      (forall e, env e -> ge_write e = WDone) ->
      go_acct go <> [] -> go_stock go = true -> code_form udigit sep code -> n <> 0 ->
      works ptime f3 f4 go bal env k code n st (invoked s4 (l_w s)) a g os cs ->
      exists lines, List.length lines = orders (cf_count cfg) (now k) d D offs /\
        Forall2 (line_for go) (filter (fun q => oq_day q =? D) os) lines /\
        Forall (fun q => oq_code q = code /\ oq_n q = n /\ oq_style q = st) os /\
        holds order_header (go_eol go) lines (text_of D (gs_ofile g)).

(** those not before the start *)
Definition owed_orders (count now d D : Z) (offs : list Z) : nat := List.length (filter (fun o => now <=? D * DAY + o) offs).
(** ... each twice on some days *)
Definition real_orders (count now d D : Z) (offs : list Z) : nat :=
  if (d <? D) && ((D - d) mod (count - 1) =? 0) then (2 * List.length offs)%nat else owed_orders count now d D offs.

(** Missing for the full claim (one order per instant): the days on which the calls are made
    twice. *)
Theorem C82_years_partial : days_claim real_orders.
Proof.
  intros fuel cfg sc tz ctx now calls ns dates s4 s0 s ls ps H1 H2 H3 H4 H5 H6 H7 H8 H9 H10 H11 k nm fid t offs d G1 G2 G3 G4 G5 G6 G7 G8 G9 G10
    clock ex s' m D K1 K2 K3 K4 K5 udigit ptime f3 f4 go bal env code n st sep a g os cs He Ha Hs Hc Hn W.
  pose proof (C90_days_partial fuel cfg sc tz ctx now calls ns dates s4 s0 s ls ps H1 H2 H3 H4 H5 H6 H7 H8 H9 H10 H11 k nm fid t offs d G1 G2 G3 G4 G5 G6 G7 G9 G10 clock ex s' m D) as HD.
  destruct (C117_same_day fuel cfg sc tz ctx now calls ns dates s4 s0 s ls ps H1 H2 H3 H4 H5 H6 H7 H8 H9 H10 H11 k nm fid t offs d G1 G2 G3 G4 G5 G6 G7 G9 G10) as (i & HW).
  destruct (works_trail udigit ptime f3 f4 go bal env k code n st sep Hc Hn _ _ _ _ _ W) as (T & HM).
  pose proof (works_done udigit ptime f3 f4 go bal env k code n st sep Hc Hn _ _ _ _ _ He W Ha Hs) as Hd.
  assert (NT : forall e, env e -> ~ torn e) by (intros e X (j & x & E); rewrite (He e X) in E; discriminate).
  destruct (C80_files_partial udigit ptime f3 f4 go bal env (fun s => s = st) a g os cs Ha Hs NT T) as (HO & _ & _).
  destruct (HO D) as (lines & F & Hh). exists lines.
  assert (Ew : written D os = filter (fun q => oq_day q =? D) os) by (unfold written; apply filter_ext_in; intros q Hq; rewrite (Hd q Hq), andb_true_r; reflexivity).
  rewrite Ew in F. split; [|split; [exact F|split; [|exact Hh]]].
  2: { apply Forall_forall. clear - W. induction W; try assumption; [intros q []|]. intros q Hq. apply in_app_or in Hq. destruct Hq as [Hq|[<-|[]]]; [apply IHW, Hq|repeat split]. }
  rewrite <- (Forall2_len _ _ _ F). rewrite (filter_map_day D os (map fst (calls_of k (invoked s4 (l_w s))))) by (rewrite HM, map_map; reflexivity).
  set (C := map fst (calls_of k (invoked s4 (l_w s)))) in *.
  assert (HDAY : 0 < DAY) by (unfold DAY, US; lia).
  assert (Hday : forall o, In o offs -> on_day D (D * DAY + o) = true).
  { intros o Ho. rewrite Forall_forall in G6. specialize (G6 o Ho). unfold tod_ok in G6. unfold on_day. apply Z.eqb_eq. rewrite Z.div_add_l, Z.div_small by lia. lia. }
  rewrite (count_sum (map (fun o => D * DAY + o) offs)).
  - rewrite map_map. rewrite (map_ext_in _ (fun o => times (D * DAY + o) C)) by (intros o Ho; unfold times; apply count_filter, Hday, Ho).
    assert (Hdue : forall o, In o offs -> D * DAY + o - tz <= clock * 1000).
    { exact K5. }
    assert (HN : forall o, In o offs -> now k <= D * DAY + o -> (1 <= times (D * DAY + o) C <= 2)%nat /\
      ((D - d) mod (cf_count cfg - 1) <> 0 \/ D = d -> times (D * DAY + o) C = 1%nat) /\
      ((D - d) mod (cf_count cfg - 1) = 0 -> d < D -> times (D * DAY + o) C = 2%nat)).
    { intros o Ho Hle. destruct (HD o G8 K1 K2 K3 Ho K4 Hle (Hdue o Ho)) as (A & B & E). split; [exact A|]. split; [exact B|]. intros X Y. exact (E X Y Hdue). }
    unfold real_orders. destruct (Z.ltb_spec d D) as [Hlt|Hge]; cbn [andb].
    + assert (Hle : forall o, In o offs -> now k <= D * DAY + o).
      { intros o Ho. rewrite Forall_forall in G6. specialize (G6 o Ho). unfold tod_ok in G6. unfold dt_date in G10.
        pose proof (Z.mod_pos_bound (now k) DAY HDAY). pose proof (Z_div_mod_eq_full (now k) DAY). nia. }
      destruct (Z.eqb_spec ((D - d) mod (cf_count cfg - 1)) 0) as [E|E].
      * apply total_const. intros o Ho. apply (HN o Ho (Hle o Ho)); assumption.
      * unfold owed_orders. apply total_filter. intros o Ho. rewrite (proj2 (Z.leb_le _ _) (Hle o Ho)). apply (HN o Ho (Hle o Ho)). left. exact E.
    + assert (D = d) by lia. unfold owed_orders. apply total_filter. intros o Ho. destruct (Z.leb_spec (now k) (D * DAY + o)) as [Hle|Hgt].
      * apply (HN o Ho Hle). right. assumption.
      * unfold times. apply count_occ_not_In. intros Hin. destruct (windows_in _ _ _ _ _ _ HW Hin) as (D' & o' & _ & _ & X). lia.
  - apply FinFun.Injective_map_NoDup; [intros x y; lia|exact G8].
  - intros x Hx. apply filter_In in Hx as [Hx Hd']. destruct (windows_in _ _ _ _ _ _ HW Hx) as (D' & o & Ho & -> & _). unfold on_day in Hd'. apply Z.eqb_eq in Hd'.
    rewrite Forall_forall in G6. specialize (G6 o Ho). unfold tod_ok in G6. rewrite Z.div_add_l, Z.div_small in Hd' by lia. apply in_map_iff. exists o. split; [|exact Ho]. f_equal. f_equal. lia.
Qed.
Print Assumptions C82_years_partial.

(** any calls can be followed by orders *)
Lemma works_exist ptime f3 f4 go bal k code n st inv :
  exists a g os, works ptime f3 f4 go bal (fun e => ge_write e = WDone) k code n st inv a g os [].
Proof.
  induction inv as [|[t c] inv (a & g & os & W)] using rev_ind.
  - exists acct_new, demo_g0, []. apply w_start; reflexivity.
  - assert (X : (exists o, c = CbUser k o) \/ forall o, c <> CbUser k o).
    { destruct c as [j o| |]; try (right; intros o; discriminate). destruct (Nat.eq_dec j k) as [->|N]; [left; eauto|right; intros o' E; injection E as E _; contradiction]. }
    destruct X as [(o & ->)|X]; [|exists a, g, os; apply w_other; assumption].
    set (e := GEnv (t / DAY) t WDone (Ok tt)).
    destruct (acc_order (anxin ptime f3 f4 go bal) (lit "1") t code n st Long a (set_env e g)) as [[r a'] g'] eqn:E.
    eexists a', g', _. eapply w_order; [apply w_env with (e := e); [exact W|reflexivity]|reflexivity|exact E].
Qed.

(** The claim that every instant is ordered once. *)
Theorem C82_twice_refuted : ~ days_claim owed_orders.
Proof.
  intros H. destruct year_state as (s4 & s0 & s & s' & m & E1 & E2 & E3 & E4 & H1 & H2 & H3 & H4 & H5 & H6).
  destruct (works_exist demo_ptime demo_f3 demo_f4 demo_go demo_bal 0 (lit "600000.XSHG") 100 (Limit (PNum (lit "10.5"))) (invoked s4 (l_w s))) as (a & g & os & W).
  assert (P : forall orders, days_claim orders -> orders 365 demo_now 20000 20364 [34260 * US] = List.length (filter (fun q => oq_day q =? 20364) os)).
  { intros orders HC. destruct (HC 1500%nat cfg_default scfg_default demo_tz 0 (fun _ => demo_now) year_calls demo_ns [20000] s4 s0 s year_labels demo_ps) with
      (k := 0%nat) (nm := lit "h") (fid := 3%nat) (t := lit "9:31") (offs := [34260 * US]) (d := 20000) (clock := year_clock) (ex := false) (s' := s') (m := m)
      (D := 20364) (udigit := no_ud) (ptime := demo_ptime) (f3 := demo_f3) (f4 := demo_f4) (go := demo_go) (bal := demo_bal) (env := fun e => ge_write e = WDone)
      (code := lit "600000.XSHG") (n := 100) (st := Limit (PNum (lit "10.5"))) (sep := 46%N) (a := a) (g := g) (os := os) (cs := @nil creq) as (lines & L & F & _); try assumption.
    - rewrite H1. reflexivity.
    - constructor; [exact I|]. apply Forall_app. split.
      + apply Forall_forall. intros l Hl. apply in_flat_map in Hl as (i & _ & [<-|[<-|[]]]); exact I.
      + repeat constructor.
    - reflexivity.
    - unfold demo_ps. repeat constructor; vm_compute; discriminate.
    - unfold demo_ps. repeat constructor.
    - discriminate.
    - apply Nat.leb_le. vm_compute. reflexivity.
    - apply Nat.leb_le. vm_compute. reflexivity.
    - reflexivity.
    - exact year_owes.
    - rewrite H1. reflexivity.
    - reflexivity.
    - repeat constructor; vm_compute; discriminate.
    - discriminate.
    - repeat constructor. intros [].
    - vm_compute. discriminate.
    - vm_compute. discriminate.
    - lia.
    - intros o [<-|[]]. vm_compute. discriminate.
    - auto.
    - discriminate.
    - reflexivity.
    - exact demo_code_form.
    - discriminate.
    - transitivity (List.length lines); [symmetry; exact L|symmetry; apply (Forall2_len _ _ _ F)]. }
  pose proof (P _ H) as A. rewrite <- (P _ C82_years_partial) in A. vm_compute in A. discriminate.
Qed.
Print Assumptions C82_twice_refuted.

(** Orders of 366 calls, two of them on day 20364. *)
Example C82_demo_years :
  map (fun D => real_orders 365 demo_now 20000 D [34260 * US]) [20000; 20001; 20363; 20364; 20365] = [1; 1; 1; 2; 1]%nat /\
  real_orders 365 demo_now 20000 20000 [0; 34260 * US] = 1%nat.
Proof. vm_compute. auto. Qed.
