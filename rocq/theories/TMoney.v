(** C30 over whole histories. *)
From Coq Require Import String.
From Verif Require Import PyBase PyStr LStr MOrder MAccount SAccount LAccount LAccount2 LAccount3 TAccount SMoney.
Open Scope list_scope.
Open Scope Z_scope.

Definition money (a : acct) := (a_total a, a_cash a, a_locked a).
Lemma sync_all_short l a : a_short (sync_all l a) = a_short a /\ money (sync_all l a) = money a.
Proof.
  revert a; induction l as [|i l IH]; intro a; cbn [sync_all]; [split; reflexivity|].
  destruct (sync_one i a) as [a1|] eqn:E; [|split; reflexivity]. destruct (IH a1) as [-> ->].
  unfold sync_one in E. destruct (load i) as [rem|]; cbn [rbind] in E; [|discriminate].
  destruct (local_order (i_id i) a) as [lo|]; [destruct (same rem lo)|]; apply Ok_inj in E; subst a1; try (split; reflexivity).
  destruct (notice_for lo rem); split; reflexivity.
Qed.
Lemma latest_add fig hs x z : latest fig hs z -> latest fig (hs ++ [x]) (or_old (fig (fst x)) z).
Proof.
  intro H. assert (D : (exists v, fig (fst x) = Some v /\ v <> 0) \/ quiet fig x).
  { unfold quiet. destruct (fig (fst x)) as [v|]; [|auto]. destruct (Z.eq_dec v 0) as [->|]; [auto|left; exists v; auto]. }
  destruct D as [(v & E & D)|D].
  - right. exists hs, x, []. rewrite E. unfold or_old. destruct (Z.eqb_spec v 0); [contradiction|]. repeat split; auto.
  - assert (E : or_old (fig (fst x)) z = z) by (destruct D as [-> | ->]; reflexivity).
    rewrite E. destruct H as [[-> F]|(h1 & y & h2 & -> & Hy & Hz & F)].
    + left. split; [reflexivity|]. apply Forall_app. split; [exact F|]. constructor; [exact D|constructor].
    + right. exists h1, y, (h2 ++ [x]). rewrite <- app_assoc. repeat split; auto. apply Forall_app. split; [exact F|]. constructor; [exact D|constructor].
Qed.
Lemma complete_dec p : pos_complete p \/ ~ pos_complete p.
Proof.
  unfold pos_complete. destruct (p_side p) as [s|]; [|right; intros [[H|H] _]; discriminate].
  assert (D : forall t, s = t \/ s <> t) by (intro t; destruct (str_eqb s t) eqn:E; [left; apply str_eqb_eq; exact E|right; intros ->; rewrite (proj2 (str_eqb_eq t t) eq_refl) in E; discriminate]).
  destruct (p_code p); [|right; tauto]. destruct (p_amount p); [|right; tauto]. destruct (p_avail p); [|right; tauto]. destruct (p_avg p); [|right; tauto].
  destruct (D (lit "long")) as [-> |N1]; [left; repeat split; auto; discriminate|].
  destruct (D (lit "short")) as [-> |N2]; [left; repeat split; auto; discriminate|].
  right. intros [[H|H] _]; injection H as H; contradiction.
Qed.
Lemma good_part_ex l : exists pre, good_part l pre.
Proof.
  induction l as [|p l (pre & F & H)]; [exists []; split; [constructor|left; reflexivity]|].
  destruct (complete_dec p) as [C|C].
  - exists (p :: pre). split; [constructor; assumption|]. destruct H as [-> |(bad & post & -> & N)]; [left; reflexivity|right; exists bad, post; split; [reflexivity|exact N]].
  - exists []. split; [constructor|]. right. exists p, l. split; [reflexivity|exact C].
Qed.
Lemma as_like sd l d : map_as sd l d -> map_like sd l d.
Proof.
  intros H code. specialize (H code). destruct (last_pos sd code l) as [p|]; [|exact H]. destruct H as (q & Hq & P). exists q.
  destruct P as (P1 & P2 & P3 & _ & P5 & P6 & P7). repeat split; assumption.
Qed.
Lemma created_like sd l d o p : map_like sd l d -> dget (o_code o) d = Some p -> map_like sd l (dset (o_code o) (pos_order_created o p) d).
Proof.
  intros H E code. specialize (H code). destruct (str_eqb code (o_code o)) eqn:Ec.
  - apply str_eqb_eq in Ec. subst code. rewrite dget_dset_same. destruct (last_pos sd (o_code o) l) as [x|]; [|congruence].
    destruct H as (q & Hq & P). rewrite E in Hq. injection Hq as <-. exists (pos_order_created o p). split; [reflexivity|].
    unfold pos_order_created. destruct (o_action o); exact P.
  - assert (Hc : code <> o_code o) by (intros ->; rewrite (proj2 (str_eqb_eq _ _) eq_refl) in Ec; discriminate).
    rewrite dget_dset_other by exact Hc. exact H.
Qed.

Section Life.
  Context {G : Type} (gt : gate G).
  Definition last_good (hs : list (cash * list pinfo)) (pre : list pinfo) : Prop :=
    (hs = [] /\ pre = []) \/ exists h x, hs = h ++ [x] /\ good_part (snd x) pre.
  Lemma lived_inv a hs : lived gt a hs ->
    (latest c_total hs (a_total a) /\ latest c_avail hs (a_cash a) /\ latest c_locked hs (a_locked a)) /\
    exists pre, last_good hs pre /\ map_like Long pre (a_long a) /\ map_like Short pre (a_short a).
  Proof.
    induction 1 as [|a hs id now code n st sd g _ IH|a hs id g _ IH|a hs g _ IH|a hs g x _ IH Hx|a hs g _ IH Hn].
    - split; [repeat split; left; split; try reflexivity; constructor|]. exists []. split; [left; split; reflexivity|]. split; intro code; reflexivity.
    - unfold acc_order. destruct (g_order gt _ g) as [[u|e] g']; cbn [fst snd]; [|exact IH]. destruct IH as (M & pre & Hp & HL & HS).
      unfold acc_order_created. set (o := new_order id now code n st sd). change (o_side o) with Long. cbv iota.
      change (a_long (acc_log (EvOrder o) (store id o a))) with (a_long a). destruct (dget (o_code o) (a_long a)) as [p|] eqn:E; [|split; [exact M|exists pre; auto]].
      split; [exact M|]. exists pre. split; [exact Hp|]. split; [|exact HS]. apply created_like; assumption.
    - unfold acc_cancel. destruct (dmem id (a_orders a)); exact IH.
    - unfold acc_sync_orders. destruct (g_sync_orders gt g) as [[l|e] g']; [|exact IH]. cbn [fst].
      destruct (sync_all_short l a) as [ES EM]. unfold money in EM. injection EM as -> -> ->. rewrite ES, sync_all_long. exact IH.
    - destruct Hx as (b & Hb & Hc & Hl). destruct (g_sync_balance gt g) as [r g'] eqn:E. cbn [fst] in Hb. subst r. destruct IH as ((M1 & M2 & M3) & _). split.
      + unfold acc_sync_balance. rewrite E, Hc, Hl. cbn [fst]. set (a1 := set_positions [] [] _).
        destruct (add_positions_frame (snd x) a1) as (_ & _ & _ & -> & -> & ->). subst a1. cbn [set_positions set_cash a_total a_cash a_locked].
        repeat split; apply latest_add; assumption.
      + destruct (good_part_ex (snd x)) as (pre & F & H). exists pre. split; [right; exists hs, x; split; [reflexivity|split; assumption]|].
        destruct H as [Ex|(bad & post & Ex & N)]; rewrite Ex in Hl.
        * destruct (sync_balance_exact gt a g b g' (fst x) pre E Hc Hl F) as (_ & _ & _ & A & B). split; apply as_like; assumption.
        * destruct (sync_balance_midway gt a g b g' (fst x) pre bad post E Hc Hl F N) as (A & B). split; apply as_like; assumption.
    - replace (fst (acc_sync_balance gt a g)) with a; [exact IH|]. symmetry. destruct (g_sync_balance gt g) as [r g'] eqn:E.
      apply (sync_balance_failed gt a g r g' E). intros b ->. cbn [fst] in Hn. destruct (b_cash b) as [c|] eqn:Ec; [|auto]. destruct (b_pos b) as [l|] eqn:El; [|auto].
      exfalso. apply (Hn (c, l)). exists b. auto.
  Qed.
End Life.

(** Whatever an account goes through, its money is the last reported figure that is not zero,
    and 0 if there was none. *)
Theorem C30_money : forall G (gt : gate G) a hs, lived gt a hs ->
  latest c_total hs (a_total a) /\ latest c_avail hs (a_cash a) /\ latest c_locked hs (a_locked a).
Proof. intros G gt a hs H. apply (lived_inv gt a hs H). Qed.
Print Assumptions C30_money.
(** Its positions are those of the last full report, up to the first incomplete one, apart
    from what is left to sell; it has none before that report. *)
Theorem C30_positions : forall G (gt : gate G) a hs, lived gt a hs ->
  (hs = [] -> a_long a = [] /\ a_short a = []) /\
  (forall h x, hs = h ++ [x] -> exists pre, good_part (snd x) pre /\ map_like Long pre (a_long a) /\ map_like Short pre (a_short a)).
Proof.
  intros G gt a hs H. split.
  - intros ->. destruct (proj2 (lived_inv gt a [] H)) as (pre & [[_ ->]|(h & x & E & _)] & HL & HS); [|destruct h; discriminate].
    assert (N : forall d, (forall code : str, dget code d = None) -> d = [] :> dict str position).
    { intros [|[k v] d] X; [reflexivity|]. specialize (X k). cbn [dget] in X. destruct (eqb_spec k k); [discriminate|congruence]. }
    split; apply N; [intro code; apply (HL code)|intro code; apply (HS code)].
  - intros h x ->. destruct (proj2 (lived_inv gt a _ H)) as (pre & [[E _]|(h' & x' & E & P)] & HL & HS); [destruct h; discriminate|].
    apply app_inj_tail in E as [_ <-]. exists pre. auto.
Qed.
Print Assumptions C30_positions.
Definition money_gate : dgate := DGate [] [] (BInfo (Some (Cash (Some 60) (Some 0) None)) (Some [demo_pinfo])).
Example C30_money_demo :
  exists a, lived demo a [(Cash (Some 60) (Some 0) None, [demo_pinfo])] /\ money a = (60, 0, 0) /\
    map (fun kv => ps_amount (snd kv)) (a_long a) ++ map (fun kv => ps_amount (snd kv)) (a_short a) = match p_amount demo_pinfo with Some n => [n] | None => [] end.
Proof.
  exists (fst (acc_sync_balance demo acct_new money_gate)). split; [|split; vm_compute; reflexivity].
  apply (lv_full demo acct_new [] money_gate (Cash (Some 60) (Some 0) None, [demo_pinfo])); [constructor|]. eexists. repeat split.
Qed.
