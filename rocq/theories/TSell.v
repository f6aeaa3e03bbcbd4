(** C98: a strategy that sells at most its closeable amount. *)
From Coq Require Import String.
From Verif Require Import PyBase PyStr LStr MTime MOrder MAccount SAccount LAccount LAccount2 LAccount3 MGate LGate MBalance MCsv MFolio SFolio SSell TGate TFolio.
Open Scope list_scope.
Open Scope Z_scope.

Section Selling.
  Context (ptime f3 f4 : str -> option Z) (go : gopts).
  Context {F : Type} (pnum pyfloat : str -> option F) (trunc : F -> option Z) (round4 round3 : F -> Z) (minus : F -> F -> F).
  Notation gt := (full_gate ptime f3 f4 go pnum pyfloat trunc round4 round3 minus).
  Notation now_files := (of_now go pnum pyfloat trunc round4 round3 minus).
  Notation selling := (selling ptime f3 f4 go pnum pyfloat trunc round4 round3 minus).

  Definition within (a : acct) (left : str -> Z) : Prop :=
    NoDup (dkeys (a_long a)) /\ (forall c p, dget c (a_long a) = Some p -> ps_avail p <= left c) /\ forall c, 0 <= left c.
  Lemma closeable_long a c : NoDup (dkeys (a_long a)) -> closeable a c = match dget c (a_long a) with Some p => ps_avail p | None => 0 end.
  Proof. intros H. unfold closeable, long_view. rewrite (view_same _ H). reflexivity. Qed.

  Lemma fold_from ps : forall d c q, dget c (fold_left (fun d p => dset (bp_code p) (pos_made p) d) ps d) = Some q ->
    dget c d = Some q \/ exists p, In p ps /\ bp_code p = c /\ q = pos_made p.
  Proof.
    induction ps as [|p ps IH]; intros d c q H; cbn [fold_left] in H; [left; exact H|].
    destruct (IH _ _ _ H) as [E|(p' & A & B)]; [|right; exists p'; split; [right; exact A|exact B]].
    destruct (eqb_spec c (bp_code p)) as [->|N].
    - rewrite dget_dset_same in E. injection E as <-. right. exists p. split; [left; reflexivity|auto].
    - rewrite dget_dset_other in E by exact N. left. exact E.
  Qed.
  Lemma fold_nodup ps : forall d, NoDup (dkeys d) -> NoDup (dkeys (fold_left (fun d p => dset (bp_code p) (pos_made p) d) ps d)).
  Proof. induction ps as [|p ps IH]; intros d H; cbn [fold_left]; [exact H|]. apply IH, NoDup_dset, H. Qed.

  (** the position map after an order *)
  Lemma order_long id now code n st sd a f r a' f' : acc_order gt id now code n st sd a f = (r, a', f') ->
    a_long a' = match r, dget code (a_long a) with
                | Some _, Some p => dset code (pos_order_created (new_order id now code n st sd) p) (a_long a)
                | _, _ => a_long a
                end.
  Proof.
    unfold acc_order. destruct (g_order gt _ f) as [[u|x] f1]; intros [= <- <- <-]; [|reflexivity].
    unfold acc_order_created. cbn [new_order o_side o_code acc_log store a_long]. destruct (dget code (a_long a)); reflexivity.
  Qed.
  Lemma cancel_long id a (f : fgst) : a_long (fst (acc_cancel gt id a f)) = a_long a.
  Proof. rewrite acc_cancel_spec. cbn [fst]. destruct (dmem _ _); reflexivity. Qed.
  Lemma sync_long a (f : fgst) : a_long (fst (acc_sync_orders gt a f)) = a_long a.
  Proof. unfold acc_sync_orders. destruct (g_sync_orders gt f) as [[l|] f1]; cbn [fst]; [apply sync_all_long|reflexivity]. Qed.
  Lemma balance_long a f : a_long (fst (acc_sync_balance gt a f)) = a_long a \/
    exists cash ps, sync_balance_q pnum pyfloat trunc round4 round3 minus (go_acct go) (dget (today f) (fg_assets f)) (dget (today f) (fg_positions f)) = Ok (cash, ps) /\
      a_long (fst (acc_sync_balance gt a f)) = fold_left (fun d p => dset (bp_code p) (pos_made p) d) ps [].
  Proof.
    unfold acc_sync_balance. cbn [full_gate g_sync_balance]. unfold full_balance.
    destruct (sync_balance_q _ _ _ _ _ _ _ _ _) as [[[c|] ps]|x]; cbn [rbind fst snd option_map b_cash b_pos]; [|left; reflexivity|left; reflexivity].
    right. exists (Some c), ps. split; [reflexivity|].
    match goal with |- context [add_positions _ ?x] => destruct (add_entries ps x) as (_ & H2 & _) end. cbv zeta in H2. rewrite H2. reflexivity.
  Qed.

  Lemma selling_within a f left past : selling now_files acked a f left past -> within a left.
  Proof.
    induction 1 as [f left H0|a f left past id now code n st sd r a' f' left' S (I1 & I2 & I3) Hc E Ha Hw Hn|a f left past id S IH|a f left past S IH
      |a f left past S (I1 & I2 & I3) R|a f left past f' left' S (I1 & I2 & I3) H|a f left past ok S (I1 & I2 & I3)].
    - split; [constructor|]. split; [intros c p; discriminate|exact H0].
    - pose proof (order_long _ _ _ _ _ _ _ _ _ _ _ E) as EL.
      assert (D : forall c, left c - (if str_eqb code c && (n <? 0) then - n else 0) <= left' c \/ r = None /\ left' c = left c).
      { intros c. destruct r as [i|]; [|right; split; [reflexivity|apply Hn, Ha; reflexivity]]. left.
        assert (Dec : wrote f f' \/ ~ wrote f f').
        { unfold wrote. destruct (str_eqb_spec (text_of (today f) (gs_ofile (fg_gate f'))) (text_of (today f) (gs_ofile (fg_gate f)))) as [X|X]; [right; intro Y; apply Y, X|left; exact X]. }
        destruct Dec as [W|W]; [rewrite (Hw W c); lia|]. rewrite (Hn W c). destruct (str_eqb code c && (n <? 0)) eqn:B; [|lia]. apply andb_prop in B as [_ B]. lia. }
      rewrite (closeable_long a code I1) in Hc.
      assert (LB : forall c, str_eqb code c && (n <? 0) = true -> - n <= left c).
      { intros c B. apply andb_prop in B as [B1 B2]. apply str_eqb_eq in B1. subst c. specialize (Hc ltac:(lia)).
        destruct (dget code (a_long a)) as [p|] eqn:Ep; [specialize (I2 _ _ Ep); lia|specialize (I3 code); lia]. }
      split; [|split].
      + rewrite EL. destruct r; [|exact I1]. destruct (dget code (a_long a)); [apply NoDup_dset|]; exact I1.
      + intros c p Hp. rewrite EL in Hp. destruct r as [i|].
        * destruct (D c) as [Dc|[X _]]; [|discriminate]. destruct (dget code (a_long a)) as [q|] eqn:Eq.
          -- destruct (eqb_spec c code) as [->|N].
             ++ rewrite dget_dset_same in Hp. injection Hp as <-. specialize (I2 _ _ Eq). unfold pos_order_created. cbn [new_order o_action o_amount].
                rewrite (proj2 (str_eqb_eq code code) eq_refl) in Dc. cbn [andb] in Dc. destruct (Z.ltb_spec n 0) as [L|L]; [|lia]. specialize (Hc L). cbn [set_avail ps_avail]. lia.
             ++ rewrite dget_dset_other in Hp by exact N. specialize (I2 _ _ Hp). destruct (str_eqb_spec code c) as [X|X]; [congruence|]. cbn [andb] in Dc. lia.
          -- specialize (I2 _ _ Hp). destruct (str_eqb_spec code c) as [X|X]; [congruence|]. cbn [andb] in Dc. lia.
        * specialize (I2 _ _ Hp). destruct (D c) as [Dc|[_ X]]; [|lia]. rewrite (Hn (Ha eq_refl) c). exact I2.
      + intros c. specialize (I3 c). destruct (D c) as [Dc|[_ X]]; [|lia]. destruct (str_eqb code c && (n <? 0)) eqn:B; [specialize (LB c B); lia|lia].
    - unfold within. rewrite cancel_long. exact IH.
    - unfold within. rewrite sync_long. exact IH.
    - destruct (balance_long a f) as [E|(cash & ps & E1 & E2)]; unfold within; [rewrite E; auto|]. rewrite E2. split; [apply fold_nodup; constructor|]. split; [|exact I3].
      intros c q Hq. destruct (fold_from _ _ _ _ Hq) as [X|(p & Hp & <- & ->)]; [discriminate|]. exact (R cash ps p E1 Hp).
    - split; [exact I1|]. split; [intros c p Hp; specialize (I2 c p Hp); specialize (H c); lia|intros c; specialize (I3 c); specialize (H c); lia].
    - split; [constructor|]. split; [intros c p; discriminate|exact I3].
  Qed.

  (** C98 asks that such a strategy never asks the broker for shares it does not have.
      Proved: if each position file read knows all orders sent before (it says at most what
      can still be sold) and no order that returned None left anything in the order file. *)
  Theorem C98_within_partial : never_oversold ptime f3 f4 go pnum pyfloat trunc round4 round3 minus now_files acked.
  Proof. intros a f left past S c. apply (selling_within a f left past S). Qed.
  (** then closeable_amount is never more than can really be sold *)
  Theorem C98_closeable_partial : forall a f left past c, selling now_files acked a f left past -> closeable a c <= left c.
  Proof.
    intros a f left past c S. destruct (selling_within a f left past S) as (I1 & I2 & I3). rewrite (closeable_long a c I1).
    destruct (dget c (a_long a)) as [p|] eqn:E; [apply (I2 _ _ E)|apply I3].
  Qed.
End Selling.
Print Assumptions C98_within_partial.
Print Assumptions C98_closeable_partial.

(** ** demonstrations: 50 shares can be sold *)
Definition zreport := of_then demo_go py_int py_int Some (fun z : Z => z) (fun z => z) Z.sub.
Definition znow := of_now demo_go py_int py_int Some (fun z : Z => z) (fun z => z) Z.sub.
Definition zselling := selling (fun _ => None) demo_f3 demo_f4 demo_go py_int py_int Some (fun z : Z => z) (fun z => z) Z.sub.
Definition znever := never_oversold (fun _ => None) demo_f3 demo_f4 demo_go py_int py_int Some (fun z : Z => z) (fun z => z) Z.sub.
Definition the_code : str := lit "000001.XSHE".
Definition left_of (k : Z) (c : str) : Z := if str_eqb the_code c then k else 0.
Definition sell (n : Z) (x : acct * fgst) : option str * (acct * fgst) :=
  let '(r, a, f) := acc_order zgate (lit "1") 0 the_code (- n) (Market (PNum (lit "0"))) Long (fst x) (snd x) in (r, (a, f)).
Definition read (x : acct * fgst) : acct * fgst := acc_sync_balance zgate (fst x) (snd x).

Lemma tells_files a_rows p_rows g ps left :
  match @sync_balance_q Z py_int py_int Some (fun z => z) (fun z => z) Z.sub (lit "8888") (Some (asset_file a_rows)) (Some (position_file p_rows)) with
  | Ok x => snd x = ps | Err _ => False end ->
  ge_date (gs_env g) = 19000 -> Forall (fun p => bp_avail p <= left (bp_code p)) ps ->
  tells demo_go py_int py_int Some (fun z : Z => z) (fun z => z) Z.sub left (FG g [(19000, asset_file a_rows)] [(19000, position_file p_rows)]).
Proof.
  intros H Hd HF cash qs p E Hp. unfold today in E. cbn [fg_gate fg_assets fg_positions] in E. rewrite Hd in E. cbn [dget] in E.
  change (eqb 19000 19000) with true in E. cbv iota in E. change (go_acct demo_go) with (lit "8888") in E. rewrite E in H. cbn [snd] in H. subst qs.
  rewrite Forall_forall in HF. apply HF, Hp.
Qed.
Lemma zsell report ack n a f k past r a' f' : zselling report ack a f (left_of k) past -> 0 < n -> closeable a the_code >= n ->
  sell n (a, f) = (r, (a', f')) -> (r = None -> ack f f') -> wrote f f' -> zselling report ack a' f' (left_of (k - n)) (left_of k :: past).
Proof.
  intros S Hn Hc E Ha Hw. unfold sell in E. cbn [fst snd] in E.
  destruct (acc_order zgate (lit "1") 0 the_code (- n) (Market (PNum (lit "0"))) Long a f) as [[r1 a1] f1] eqn:E1. injection E as <- <- <-.
  eapply (s_order _ _ _ _ _ _ _ _ _ _ report ack a f (left_of k) past (lit "1") 0 the_code (- n) (Market (PNum (lit "0"))) Long r1 a1 f1 (left_of (k - n)) S).
  - intros _. lia.
  - exact E1.
  - exact Ha.
  - intros _ c. unfold left_of. destruct (str_eqb the_code c); cbn [andb]; [|lia]. destruct (Z.ltb_spec (- n) 0); lia.
  - intros X. contradiction.
Qed.

(** sells 30 and 20 of 50, the file being rewritten in between *)
Definition left30 : list str := [lit "8888,000001.SZ,100,20,9,10,1000"].
Definition sd0 : acct * fgst := (acct_new, with_files cash1 held1).
Definition sd1 := read sd0.
Definition sd2 := snd (sell 30 sd1).
Definition sd3 : acct * fgst := (fst sd2, FG (fg_gate (snd sd2)) [(19000, asset_file cash1)] [(19000, position_file left30)]).
Definition sd4 := read sd3.
Definition sd5 := snd (sell 20 sd4).
Lemma sd_start report ack : zselling report ack (fst sd0) (snd sd0) (left_of 50) [].
Proof. apply s_start. intros c. unfold left_of. destruct (str_eqb the_code c); lia. Qed.
Lemma held1_tells g k : ge_date (gs_env g) = 19000 -> 50 <= k ->
  tells demo_go py_int py_int Some (fun z : Z => z) (fun z => z) Z.sub (left_of k) (FG g [(19000, asset_file cash1)] [(19000, position_file held1)]).
Proof.
  intros Hd Hk. eapply tells_files; [vm_compute; reflexivity|exact Hd|]. repeat constructor; cbn; unfold left_of.
  - change (str_eqb the_code (lit "000001.XSHE")) with true. lia.
  - change (str_eqb the_code (lit "600002.XSHG")) with false. lia.
Qed.
Example C98_demo : zselling znow acked (fst sd5) (snd sd5) (left_of 0) [left_of 20; left_of 20; left_of 50] /\
  map (fun x => closeable (fst x) the_code) [sd0; sd1; sd2; sd4; sd5] = [0; 50; 20; 20; 0] /\ fst (sell 30 sd1) = Some (lit "1").
Proof.
  split; [|vm_compute; auto].
  assert (S1 : zselling znow acked (fst sd1) (snd sd1) (left_of 50) []).
  { apply s_balance; [apply sd_start|]. apply held1_tells; [reflexivity|lia]. }
  assert (S2 : zselling znow acked (fst sd2) (snd sd2) (left_of 20) [left_of 50]).
  { apply (zsell znow acked 30 (fst sd1) (snd sd1) 50 [] (fst (sell 30 sd1)) (fst sd2) (snd sd2)); [exact S1|lia|vm_compute; discriminate| |vm_compute; discriminate|vm_compute; discriminate].
    unfold sd2. destruct (sell 30 sd1) as [? [? ?]] eqn:E. cbn [fst snd]. rewrite <- surjective_pairing. exact E. }
  assert (S3 : zselling znow acked (fst sd3) (snd sd3) (left_of 20) [left_of 20; left_of 50]).
  { eapply s_broker; [exact S2|]. intros c. lia. }
  assert (S4 : zselling znow acked (fst sd4) (snd sd4) (left_of 20) [left_of 20; left_of 50]).
  { apply s_balance; [exact S3|]. eapply tells_files; [vm_compute; reflexivity|vm_compute; reflexivity|]. repeat constructor. cbn. vm_compute. discriminate. }
  apply (zsell znow acked 20 (fst sd4) (snd sd4) 20 [left_of 20; left_of 50] (fst (sell 20 sd4)) (fst sd5) (snd sd5)); [exact S4|lia|vm_compute; discriminate| |vm_compute; discriminate|vm_compute; discriminate].
  unfold sd5. destruct (sell 20 sd4) as [? [? ?]] eqn:E. cbn [fst snd]. rewrite <- surjective_pairing. exact E.
Qed.

(** False with files of an earlier time: after selling all 50 shares, the next sync reads the
    file written before, and the same 50 shares can be sold again. *)
Definition st2 := snd (sell 50 sd1).
Definition st3 := read st2.
Definition st4 := snd (sell 50 st3).
Theorem C98_old_file_refuted : ~ znever zreport acked.
Proof.
  intros H. assert (S1 : zselling zreport acked (fst sd1) (snd sd1) (left_of 50) []).
  { apply s_balance; [apply sd_start|]. exists (left_of 50). split; [left; reflexivity|]. apply held1_tells; [reflexivity|lia]. }
  assert (S2 : zselling zreport acked (fst st2) (snd st2) (left_of 0) [left_of 50]).
  { apply (zsell zreport acked 50 (fst sd1) (snd sd1) 50 [] (fst (sell 50 sd1)) (fst st2) (snd st2)); [exact S1|lia|vm_compute; discriminate| |vm_compute; discriminate|vm_compute; discriminate].
    unfold st2. destruct (sell 50 sd1) as [? [? ?]] eqn:E. cbn [fst snd]. rewrite <- surjective_pairing. exact E. }
  assert (S3 : zselling zreport acked (fst st3) (snd st3) (left_of 0) [left_of 50]).
  { apply s_balance; [exact S2|]. exists (left_of 50). split; [right; left; reflexivity|].
    apply (held1_tells (fg_gate (snd st2)) 50); [vm_compute; reflexivity|lia]. }
  assert (S4 : zselling zreport acked (fst st4) (snd st4) (left_of (-50)) [left_of 0; left_of 50]).
  { apply (zsell zreport acked 50 (fst st3) (snd st3) 0 [left_of 50] (fst (sell 50 st3)) (fst st4) (snd st4)); [exact S3|lia|vm_compute; discriminate| |vm_compute; discriminate|vm_compute; discriminate].
    unfold st4. destruct (sell 50 st3) as [? [? ?]] eqn:E. cbn [fst snd]. rewrite <- surjective_pairing. exact E. }
  specialize (H _ _ _ _ S4 the_code). vm_compute in H. apply H. reflexivity.
Qed.
Print Assumptions C98_old_file_refuted.

(** False if saving the order fails: its line is written, but order returns None and the 50
    shares stay closeable. *)
Definition full_disk (x : acct * fgst) : acct * fgst :=
  (fst x, with_gate (snd x) (set_env (GEnv 19000 (19000 * DAY + 34200 * US) WDone (Err OSError)) (fg_gate (snd x)))).
Definition su1 := full_disk sd1.
Definition su2 := snd (sell 50 su1).
Definition su3 := snd (sell 50 su2).
Theorem C98_unsaved_refuted : ~ znever znow any_ack /\ fst (sell 50 su1) = None.
Proof.
  split; [|vm_compute; reflexivity]. intros H.
  assert (S1 : zselling znow any_ack (fst su1) (snd su1) (left_of 50) [left_of 50]).
  { eapply s_broker; [|intros c; apply Z.le_refl]. apply s_balance; [apply sd_start|]. apply held1_tells; [reflexivity|lia]. }
  assert (S2 : zselling znow any_ack (fst su2) (snd su2) (left_of 0) [left_of 50; left_of 50]).
  { apply (zsell znow any_ack 50 (fst su1) (snd su1) 50 [left_of 50] (fst (sell 50 su1)) (fst su2) (snd su2)); [exact S1|lia|vm_compute; discriminate| |exact (fun _ => I)|vm_compute; discriminate].
    unfold su2. destruct (sell 50 su1) as [? [? ?]] eqn:E. cbn [fst snd]. rewrite <- surjective_pairing. exact E. }
  assert (S3 : zselling znow any_ack (fst su3) (snd su3) (left_of (-50)) [left_of 0; left_of 50; left_of 50]).
  { apply (zsell znow any_ack 50 (fst su2) (snd su2) 0 [left_of 50; left_of 50] (fst (sell 50 su2)) (fst su3) (snd su3)); [exact S2|lia|vm_compute; discriminate| |exact (fun _ => I)|vm_compute; discriminate].
    unfold su3. destruct (sell 50 su2) as [? [? ?]] eqn:E. cbn [fst snd]. rewrite <- surjective_pairing. exact E. }
  specialize (H _ _ _ _ S3 the_code). vm_compute in H. apply H. reflexivity.
Qed.
Print Assumptions C98_unsaved_refuted.
