(** C83: a call of the gate behaves as if made at one moment. *)
From Coq Require Import String.
From Verif Require Import PyBase PyStr LStr SDate MTime MDate LDate MOrder MAccount MApi MGate MBalance SAccount SGate LGate LGate4 MMidnight SMidnight TGate TBalance.
Open Scope list_scope.
Open Scope Z_scope.

(** ** the order files *)
Lemma dec_digits k : forall z, 0 <= z < 10 ^ Z.of_nat k -> dec (digits k z) z.
Proof.
  induction k as [|k IH]; intros z Hz; [change (10 ^ Z.of_nat 0) with 1 in Hz; replace z with 0 by lia; constructor|].
  cbn [digits]. rewrite Nat2Z.inj_succ, Z.pow_succ_r in Hz by lia.
  replace z with (10 * (z / 10) + z mod 10) at 3 by (symmetry; apply Z_div_mod_eq_full).
  constructor; [apply IH; split; [apply Z.div_pos; lia|apply Z.div_lt_upper_bound; lia]|]. pose proof (Z.mod_pos_bound z 10). lia.
Qed.
Lemma field_digits k z : 0 <= z < 10 ^ Z.of_nat k -> SDate.field k k (digits k z) z.
Proof. intro H. split; [rewrite digits_length; lia|apply dec_digits, H]. Qed.
Lemma stamp_reads now : stamp_text (fmt_stamp now) (now mod DAY).
Proof.
  unfold fmt_stamp, dt_time. pose proof (Z.mod_pos_bound now DAY ltac:(unfold DAY, US; lia)) as H. set (t := now mod DAY) in *. clearbody t. clear now.
  assert (H1 : 0 <= t / US < 86400) by (split; [apply Z.div_pos; unfold US; lia|apply Z.div_lt_upper_bound; unfold DAY, US in *; lia]).
  assert (H2 : t = US * (t / US) + t mod US) by apply Z_div_mod_eq_full.
  pose proof (Z.mod_pos_bound t US ltac:(unfold US; lia)) as H3.
  set (s := t / US) in *. clearbody s.
  assert (A : 0 <= s / 3600 < 24) by (split; [apply Z.div_pos; lia|apply Z.div_lt_upper_bound; lia]).
  pose proof (Z.mod_pos_bound (s / 60) 60 ltac:(lia)) as B. pose proof (Z.mod_pos_bound s 60 ltac:(lia)) as C.
  exists (digits 2 (s / 3600)), (s / 3600), (digits 2 (s / 60 mod 60)), (s / 60 mod 60), (digits 2 (s mod 60)), (s mod 60), (digits 6 (t mod US)), (t mod US).
  split; [reflexivity|]. do 4 (split; [apply field_digits; cbn; unfold US in *; lia|]). split; [unfold clock; lia|].
  pose proof (Z_div_mod_eq_full s 60). pose proof (Z_div_mod_eq_full (s / 60) 60). rewrite Z.div_div in H4 by lia. change (60 * 60) with 3600 in *.
  assert (Q : s / 60 / 60 = s / 3600) by (rewrite Z.div_div by lia; reflexivity). unfold US in *. lia.
Qed.

(** The claim: after an order (a cancel) that returned, the file that has grown is that of
    the day of the call, and the line carries the time of the call. *)
Definition lines_stamped (env : genv -> Prop) : Prop :=
  (forall go o g g', env (gs_env g) -> gate_order go o g = (Ok tt, g') ->
     stamped order_header (go_eol go) (gs_ofile g) (gs_ofile g') (ge_now (gs_env g))) /\
  (forall go id g g', env (gs_env g) -> gate_cancel go id g = (Ok tt, g') ->
     stamped cancel_header (go_eol go) (gs_cfile g) (gs_cfile g') (ge_now (gs_env g))).

Lemma write_ok go header line old w txt : write_line go header line old w = (Ok tt, txt) ->
  txt = old ++ (match old with [] => header ++ go_eol go | _ => [] end) ++ line.
Proof. unfold write_line. destruct w; intro E; inversion E. reflexivity. Qed.
Lemma save_ofile g : gs_ofile (snd (save_orders g)) = gs_ofile g.
Proof. unfold save_orders. destruct (forallb _ _); [|reflexivity]. destruct (ge_save (gs_env g)); reflexivity. Qed.

(** It holds when the date is read on the day of the time stamp. *)
Theorem C83_stamps_partial : lines_stamped (fun e => ge_date e = ge_now e / DAY).
Proof.
  split.
  - intros go o g g' He E. unfold gate_order in E. destruct (go_acct go); [discriminate|].
    destruct (negb (go_stock go)); [discriminate|]. destruct (o_side o); [|discriminate].
    destruct (encode (o_code o)) as [sym|]; [|discriminate].
    destruct (write_line _ _ _ _ _) as [[[]|x] txt] eqn:Ew; [|discriminate]. apply write_ok in Ew.
    assert (E' : gs_ofile g' = dset (ge_date (gs_env g)) txt (gs_ofile g)).
    { replace g' with (snd (Ok tt, g')) by reflexivity. rewrite <- E, save_ofile. reflexivity. }
    cbn [order_fields app] in Ew.
    exists (ge_date (gs_env g)), (ge_now (gs_env g) mod DAY), (fmt_stamp (ge_now (gs_env g))). eexists. split; [apply stamp_reads|].
    split; [rewrite He; pose proof (Z_div_mod_eq_full (ge_now (gs_env g)) DAY); lia|]. rewrite E'. split; [|intros D' HD; apply text_other, HD].
    rewrite text_same, Ew. do 2 f_equal. cbn [join_with]. rewrite <- app_assoc. reflexivity.
  - intros go id g g' He E. unfold gate_cancel in E. destruct (write_line _ _ _ _ _) as [r txt] eqn:Ew. injection E as -> <-. apply write_ok in Ew.
    exists (ge_date (gs_env g)), (ge_now (gs_env g) mod DAY), (fmt_stamp (ge_now (gs_env g))), id. split; [apply stamp_reads|].
    split; [rewrite He; pose proof (Z_div_mod_eq_full (ge_now (gs_env g)) DAY); lia|]. cbn [set_cfile gs_cfile]. split; [|intros D' HD; apply text_other, HD].
    rewrite text_same, Ew. cbn [join_with]. rewrite <- (app_assoc (fmt_stamp _)). reflexivity.
Qed.
Print Assumptions C83_stamps_partial.

(** False otherwise: the time is read before the date.  A cancel sent a microsecond before
    midnight is written to the file of the next day, stamped almost a day ahead. *)
Definition late : genv := GEnv 19001 (19001 * DAY - 1) WDone (Ok tt).
Definition late_g : gst := set_env late demo_g0.
Definition late_g' : gst := snd (gate_cancel demo_go (lit "77") late_g).
Lemma late_facts : gate_cancel demo_go (lit "77") late_g = (Ok tt, late_g') /\ ge_date (gs_env late_g) = (ge_now (gs_env late_g) + 1) / DAY /\
  text_of 19000 (gs_cfile late_g') = [] /\ ge_now (gs_env late_g) = 19001 * DAY - 1.
Proof. vm_compute. repeat split. Qed.
Lemma dec_range s v : dec s v -> 0 <= v < 10 ^ Z.of_nat (List.length s).
Proof. induction 1 as [|s v d Hs IH Hd]; [cbn; lia|]. rewrite app_length, Nat.add_1_r, Nat2Z.inj_succ, Z.pow_succ_r by lia. lia. Qed.
Theorem C83_stamps_refuted : ~ lines_stamped (fun e => ge_date e = (ge_now e + 1) / DAY).
Proof.
  destruct late_facts as (Hg & Hd & Ht & Hn). revert Hg Hd Ht Hn. generalize late_g late_g'. intros g g' Hg Hd Ht Hn [_ H].
  destruct (H demo_go (lit "77") g g' Hd Hg)
    as (D & t & st & rest & (hs & h & ms & m & ss & sec & fs & us & _ & _ & _ & _ & (F & Du) & (C1 & C2 & C3) & Et) & En & Eo & _).
  apply dec_range in Du. replace (List.length fs) with 6%nat in Du by lia. change (10 ^ Z.of_nat 6) with 1000000 in Du.
  assert (D = 19000) by (rewrite Hn in En; unfold DAY, US in En; lia). subst D. rewrite Ht in Eo.
  symmetry in Eo. do 3 apply app_eq_nil, proj2 in Eo. discriminate Eo.
Qed.
Print Assumptions C83_stamps_refuted.

(** ** sync_orders *)
Section Sync.
  Context (ptime f3 f4 : str -> option Z) (go : gopts).
  Notation sync := (gate_sync_orders ptime f3 f4 go).
  Notation syncm := (sync_m ptime f3 f4 go).

  Lemma save_at d r u g : save_orders (at_day d r u g) = (fst (save_orders g), at_day d r u (snd (save_orders g))).
  Proof.
    unfold save_orders, at_day. cbn. destruct (forallb _ _); [|reflexivity]. destruct (ge_save (gs_env g)) eqn:E;
      unfold set_env, set_data, set_bfiles; cbn; rewrite E; reflexivity.
  Qed.

  (** Both files are opened on one day [d], and are there: apart from a file missing at the
      first look, the sync is the one of [d]. *)
  Theorem C83_sync_partial : forall m1 m2 m3 m4 g d,
    m_day m3 = d -> m_day m4 = d -> dmem d (m_r m3) = true -> dmem d (m_u m4) = true ->
    (syncm m1 m2 m3 m4 g = (Err FileNotFoundError, g) /\ (dmem (m_day m1) (m_u m1) = false \/ dmem (m_day m2) (m_r m2) = false)) \/
    sync (at_day d (m_r m3) (m_u m4) g) = (fst (syncm m1 m2 m3 m4 g), at_day d (m_r m3) (m_u m4) (snd (syncm m1 m2 m3 m4 g))).
  Proof.
    intros m1 m2 m3 m4 g d H3 H4 Hr Hu. unfold sync_m. rewrite H3, H4. unfold dmem in *.
    destruct (dget (m_day m1) (m_u m1)) as [x1|]; [|left; auto]. destruct (dget (m_day m2) (m_r m2)) as [x2|]; [|left; auto]. right.
    unfold gate_sync_orders. cbn [at_day set_env set_bfiles gs_env ge_date gs_ufile gs_rfile gs_roff gs_uoff gs_orders].
    destruct (dget d (m_r m3)) as [rt|]; [|discriminate]. destruct (dget d (m_u m4)) as [ut|]; [|discriminate].
    destruct (read_file go result_line rt (gs_roff g) (gs_orders g)) as [[x roff] o1]. cbn [set_rread gs_uoff].
    destruct x as [x|]; [reflexivity|]. change (gs_uoff (at_day d (m_r m3) (m_u m4) g)) with (gs_uoff g).
    destruct (read_file go (update_line ptime f3 f4) ut (gs_uoff g) o1) as [[x uoff] o2].
    destruct x as [x|]; [reflexivity|].
    change (set_uread o2 uoff (set_rread o1 roff (at_day d (m_r m3) (m_u m4) g))) with (at_day d (m_r m3) (m_u m4) (set_uread o2 uoff (set_rread o1 roff g))).
    rewrite save_at. cbn [set_rread gs_uoff]. destruct (save_orders _) as [[y|y] g3]; cbn [fst snd]; reflexivity.
  Qed.

  (** All readings on one day, and no file goes away: the sync is one of that day, with the
      files as first looked for or as read. *)
  Theorem C83_sync_one_day_partial : forall m1 m2 m3 m4 g d,
    m_day m1 = d -> m_day m2 = d -> m_day m3 = d -> m_day m4 = d ->
    (dmem d (m_u m1) = true -> dmem d (m_u m4) = true) -> (dmem d (m_r m2) = true -> dmem d (m_r m3) = true) ->
    exists r u, (r = m_r m2 /\ u = m_u m1 \/ r = m_r m3 /\ u = m_u m4) /\
      sync (at_day d r u g) = (fst (syncm m1 m2 m3 m4 g), at_day d r u (snd (syncm m1 m2 m3 m4 g))).
  Proof.
    intros m1 m2 m3 m4 g d H1 H2 H3 H4 Hu Hr.
    assert (X : dmem d (m_u m1) && dmem d (m_r m2) = false \/ dmem d (m_u m4) = true /\ dmem d (m_r m3) = true /\ dmem d (m_u m1) = true /\ dmem d (m_r m2) = true).
    { destruct (dmem d (m_u m1)); [|left; reflexivity]. destruct (dmem d (m_r m2)); [|left; reflexivity]. right. auto. }
    destruct X as [X|(U4 & R3 & U1 & R2)].
    - exists (m_r m2), (m_u m1). split; [left; auto|]. unfold gate_sync_orders, sync_m. cbn [at_day set_env set_bfiles gs_env ge_date gs_ufile gs_rfile].
      rewrite H1, H2. unfold dmem in X. destruct (dget d (m_u m1)); [|reflexivity]. destruct (dget d (m_r m2)); [discriminate|reflexivity].
    - exists (m_r m3), (m_u m4). split; [right; auto|]. destruct (C83_sync_partial m1 m2 m3 m4 g d H3 H4 R3 U4) as [[_ Hx]|E]; [|exact E].
      exfalso. rewrite H1, H2 in Hx. destruct Hx; congruence.
  Qed.
End Sync.
Print Assumptions C83_sync_partial.
Print Assumptions C83_sync_one_day_partial.

(** The claim across midnight: with files that do not change, the sync is one of the days at
    which the clock was read. *)
Definition sync_of_one_day : Prop :=
  forall ptime f3 f4 go d d' r u g m1 m2 m3 m4,
    d' = d + 1 -> Forall (fun m => (m_day m = d \/ m_day m = d') /\ m_r m = r /\ m_u m = u) [m1; m2; m3; m4] ->
    m_day m1 <= m_day m2 <= m_day m3 -> m_day m3 <= m_day m4 ->
    (forall x, x = d \/ x = d' -> dmem x r = true /\ dmem x u = true) ->
    exists x, (x = d \/ x = d') /\
      gate_sync_orders ptime f3 f4 go (at_day x r u g) =
        (fst (sync_m ptime f3 f4 go m1 m2 m3 m4 g), at_day x r u (snd (sync_m ptime f3 f4 go m1 m2 m3 m4 g))).

(** False: order 77 was rejected and order 78 filled on day 19000; the results are read
    before midnight, the updates after it, from the file of the new day.  The sync shows the
    one and not the other. *)
Definition two_orders : gst := w_gate (snd (demo_place "78" "000001.XSHE" 200 StFalsy demo_w1)).
Definition u_78 : str := nl "t,20220108,093200,UM0,8888,000001.SZ,1,2,200,10,P6,200,10,2000,0,B2,c,78,,x".
Definition mid_r : dict Z str := [(19000, r_rej); (19001, [])].
Definition mid_u : dict Z str := [(19000, u_head ++ u_78); (19001, u_head)].
Definition mid (d : Z) : mom := Mom d mid_r mid_u [] [].
Notation mid_sync g := (sync_m demo_ptime demo_f3 demo_f4 demo_go (mid 19000) (mid 19000) (mid 19000) (mid 19001) g).
Definition states (g : gst) : list (str * str) := map (fun kv => (fst kv, i_status (snd kv))) (gs_orders g).
Theorem C83_sync_refuted : ~ sync_of_one_day.
Proof.
  intros H. destruct (H demo_ptime demo_f3 demo_f4 demo_go 19000 19001 mid_r mid_u two_orders (mid 19000) (mid 19000) (mid 19000) (mid 19001)) as (x & Hx & E).
  - reflexivity.
  - repeat (apply Forall_cons; [cbn; auto|]); apply Forall_nil.
  - cbn. lia.
  - cbn. lia.
  - intros x [->| ->]; split; reflexivity.
  - apply (f_equal (fun y => states (snd y))) in E. destruct Hx as [->| ->]; vm_compute in E; discriminate.
Qed.
Print Assumptions C83_sync_refuted.
Example C83_sync_demo :
  states two_orders = [(lit "77", lit "new"); (lit "78", lit "new")] /\
  states (snd (mid_sync two_orders)) = [(lit "77", lit "rejected"); (lit "78", lit "new")] /\
  map (fun d => states (snd (gate_sync_orders demo_ptime demo_f3 demo_f4 demo_go (at_day d mid_r mid_u two_orders)))) [19000; 19001] =
    [[(lit "77", lit "rejected"); (lit "78", lit "filled")]; [(lit "77", lit "new"); (lit "78", lit "new")]] /\
  (** with both files opened on the new day it is the sync of the new day *)
  states (snd (sync_m demo_ptime demo_f3 demo_f4 demo_go (mid 19000) (mid 19000) (mid 19001) (mid 19001) two_orders)) = [(lit "77", lit "new"); (lit "78", lit "new")] /\
  dmem 19001 (m_r (mid 19001)) = true /\ dmem 19001 (m_u (mid 19001)) = true.
Proof. vm_compute. repeat split. Qed.

(** ** sync_balance *)
Section Balance.
  Context (F : Type) (pnum pyfloat : str -> option F) (trunc : F -> option Z) (round4 round3 : F -> Z) (minus : F -> F -> F).
  (** Both files are read on one day, and are there: apart from a file missing at a look,
      the result is that of the day. *)
  Theorem C83_balance_partial : forall acct m1 m2 m3 m4 d,
    m_day m2 = d -> m_day m4 = d -> dmem d (m_a m2) = true -> dmem d (m_p m4) = true ->
    (balance_m pnum pyfloat trunc round4 round3 minus acct m1 m2 m3 m4 = Err FileNotFoundError /\
       (dmem (m_day m1) (m_a m1) = false \/ dmem (m_day m3) (m_p m3) = false)) \/
    balance_m pnum pyfloat trunc round4 round3 minus acct m1 m2 m3 m4 =
      sync_balance pnum pyfloat trunc round4 round3 minus acct (dget d (m_a m2)) (dget d (m_p m4)).
  Proof.
    intros acct m1 m2 m3 m4 d H2 H4 Ha Hp. unfold balance_m, sync_balance. rewrite H2, H4. unfold dmem in *.
    destruct (dget (m_day m1) (m_a m1)) as [x|]; [|left; auto].
    destruct (dget d (m_a m2)) as [at_|]; [|discriminate]. destruct (dget d (m_p m4)) as [pt|]; [|discriminate].
    destruct acct as [|c acct]; [right; reflexivity|]. destruct (read_csv (Some at_)) as [adf|]; [|right; reflexivity]. cbn [rbind].
    destruct (fr_rows adf) eqn:Er; [right; reflexivity|]. destruct (asset_loop _ _ _ _ _ _ _ _) as [cash|]; [|right; reflexivity]. cbn [rbind].
    destruct (dget (m_day m3) (m_p m3)) as [y|]; [right; reflexivity|left; auto].
  Qed.
End Balance.
Print Assumptions C83_balance_partial.

(** The claim across midnight, as for the orders; false: cash of the old day, positions of
    the new one. *)
Definition balance_of_one_day : Prop :=
  forall acct d d' a p m1 m2 m3 m4,
    d' = d + 1 -> Forall (fun m => (m_day m = d \/ m_day m = d') /\ m_a m = a /\ m_p m = p) [m1; m2; m3; m4] ->
    m_day m1 <= m_day m2 <= m_day m3 -> m_day m3 <= m_day m4 ->
    (forall x, x = d \/ x = d' -> dmem x a = true /\ dmem x p = true) ->
    exists x, (x = d \/ x = d') /\
      @balance_m Z py_int py_int Some (fun z => z) (fun z => z) Z.sub acct m1 m2 m3 m4 = zsync acct (dget x a) (dget x p).
Definition assets_new : str := file [lit "acct,exchange,totalAsset,enabledBalance,currentBalance"; lit "12,,2000,300,500"; lit ",,,,"].
Definition pos_new : str := positions [lit "12,000001.SZ,500,50,9,10,5000"; lit ",,,,,,"].
Definition mid_b (d : Z) : mom := Mom d [] [] [(19000, assets); (19001, assets_new)] [(19000, pos1); (19001, pos_new)].
Theorem C83_balance_refuted : ~ balance_of_one_day.
Proof.
  intros H. destruct (H (lit "12") 19000 19001 (m_a (mid_b 0)) (m_p (mid_b 0)) (mid_b 19000) (mid_b 19000) (mid_b 19001) (mid_b 19001)) as (x & Hx & E).
  - reflexivity.
  - repeat (apply Forall_cons; [cbn; auto|]); apply Forall_nil.
  - cbn. lia.
  - cbn. lia.
  - intros x [->| ->]; split; reflexivity.
  - destruct Hx as [->| ->]; vm_compute in E; discriminate.
Qed.
Print Assumptions C83_balance_refuted.
Example C83_balance_demo :
  @balance_m Z py_int py_int Some (fun z => z) (fun z => z) Z.sub (lit "12") (mid_b 19000) (mid_b 19000) (mid_b 19001) (mid_b 19001) =
    Ok (Some (BCash (Some 1000) (Some 300) (Some 200)), [BPos (lit "000001.XSHE") 500 50 (Some 9) (Some 10) (Some 5000)]) /\
  @balance_m Z py_int py_int Some (fun z => z) (fun z => z) Z.sub (lit "12") (mid_b 19000) (mid_b 19001) (mid_b 19001) (mid_b 19001) =
    Ok (Some (BCash (Some 2000) (Some 300) (Some 200)), [BPos (lit "000001.XSHE") 500 50 (Some 9) (Some 10) (Some 5000)]).
Proof. vm_compute. auto. Qed.

(** an order at 9:30 on its day meets the condition of [C83_stamps_partial] *)
Example C83_stamps_demo :
  ge_date demo_env = ge_now demo_env / DAY /\
  text_of 19000 (gs_cfile (snd (gate_cancel demo_go (lit "77") demo_g0))) = cancel_header ++ nl "" ++ nl "093000.000000,77" /\
  stamp_text (lit "093000.000000") (34200 * US).
Proof.
  split; [reflexivity|]. split; [vm_compute; reflexivity|].
  pose proof (stamp_reads (19000 * DAY + 34200 * US)) as H. vm_compute in H. exact H.
Qed.
