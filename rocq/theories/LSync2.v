(** C65 for the AnXin gate: reading files again that did not change. *)
From Verif Require Import PyBase PyStr LStr MOrder MAccount MGate SGate LGate LGate2 LGate3 LGate4 SLife.
Open Scope Z_scope.

Lemma skipn_skipn {A} x y (l : list A) : skipn x (skipn y l) = skipn (x + y) l.
Proof. revert l; induction y as [|y IH]; intro l; [rewrite Nat.add_0_r; reflexivity|]. rewrite Nat.add_succ_r. destruct l; [rewrite !skipn_nil; reflexivity|]. apply IH. Qed.
Lemma lines_next l ls : forall s, lines_of s = l :: ls -> lines_of (skipn (length l) s) = ls.
Proof.
  intro s. revert l ls. induction s as [|c s IH]; intros l ls H; [discriminate|]. cbn [lines_of] in H.
  destruct (c =? NL)%N.
  - injection H as <- <-. reflexivity.
  - destruct (lines_of s) as [|l' ls'] eqn:E; injection H as <- <-.
    + destruct s; [reflexivity|]. cbn [lines_of] in E. destruct (_ =? _)%N; [discriminate|]. destruct (lines_of s); discriminate.
    + cbn [length skipn]. apply IH. reflexivity.
Qed.
Lemma lines_drop pre rs : forall s, lines_of s = pre ++ rs -> lines_of (skipn (length (concat pre)) s) = rs.
Proof.
  induction pre as [|l pre IH]; intros s H; [exact H|]. cbn [app] in H. apply lines_next in H. cbn [concat].
  rewrite app_length. apply IH in H. rewrite skipn_skipn in H. rewrite Nat.add_comm. exact H.
Qed.

Section Again.
  Context (go : gopts).

  (** after a successful read, what is left to read is skipped lines and then the end *)
  Lemma loop_rest step ls : forall sk pos off o off' o',
    pos = (off + length (concat sk))%nat -> Forall (fun l => step l o = LSkip) sk ->
    read_loop go step ls pos off o = (None, off', o') ->
    exists pre sk' rs, sk ++ ls = pre ++ sk' ++ rs /\ off' = (off + length (concat pre))%nat /\
      Forall (fun l => step l o' = LSkip) sk' /\ match rs with [] => True | l :: _ => step l o' = LStop end.
  Proof.
    induction ls as [|l ls IH]; intros sk pos off o off' o' Hp Hs H; cbn [read_loop] in H.
    - injection H as <- <-. exists [], sk, []. cbn. rewrite Nat.add_0_r. auto.
    - destruct (step l o) as [|o1| |o1 x] eqn:E.
      + injection H as <- <-. exists [], sk, (l :: ls). cbn. rewrite Nat.add_0_r. auto.
      + destruct (IH [] _ _ _ _ _ (eq_sym (Nat.add_0_r _)) (Forall_nil _) H) as (pre & sk' & rs & E1 & E2 & E3 & E4).
        exists (sk ++ l :: pre), sk', rs. cbn [app] in E1. rewrite E1. split; [rewrite <- app_assoc; reflexivity|].
        split; [|auto]. rewrite E2, Hp, concat_app. cbn [concat]. rewrite !app_length. lia.
      + destruct (IH (sk ++ [l]) (pos + length l)%nat off o off' o') as (pre & sk' & rs & E1 & E2 & E3 & E4).
        * rewrite Hp, concat_app. cbn [concat]. rewrite !app_length. cbn. lia.
        * apply Forall_app. split; [exact Hs|repeat constructor; exact E].
        * exact H.
        * exists pre, sk', rs. rewrite <- app_assoc in E1. cbn [app] in E1. auto.
      + destruct (go_ignore go); [|discriminate].
        destruct (IH [] _ _ _ _ _ (eq_sym (Nat.add_0_r _)) (Forall_nil _) H) as (pre & sk' & rs & E1 & E2 & E3 & E4).
        exists (sk ++ l :: pre), sk', rs. cbn [app] in E1. rewrite E1. split; [rewrite <- app_assoc; reflexivity|].
        split; [|auto]. rewrite E2, Hp, concat_app. cbn [concat]. rewrite !app_length. lia.
  Qed.
  Lemma loop_skips step sk rs : forall pos off o, Forall (fun l => step l o = LSkip) sk ->
    match rs with [] => True | l :: _ => step l o = LStop end ->
    read_loop go step (sk ++ rs) pos off o = (None, off, o).
  Proof.
    induction sk as [|l sk IH]; intros pos off o H1 H2; cbn [app].
    - destruct rs as [|l rs]; cbn [read_loop]; [reflexivity|]. rewrite H2. reflexivity.
    - inversion_clear H1 as [|? ? K1 K2]. cbn [read_loop]. rewrite K1. apply IH; assumption.
  Qed.
  Lemma file_rest step text off o off' o' : read_file go step text off o = (None, off', o') ->
    exists sk rs, lines_of (skipn off' text) = sk ++ rs /\ Forall (fun l => step l o' = LSkip) sk /\
      match rs with [] => True | l :: _ => step l o' = LStop end.
  Proof.
    unfold read_file. intro H.
    destruct (loop_rest step _ [] off off o off' o' (eq_sym (Nat.add_0_r _)) (Forall_nil _) H) as (pre & sk & rs & E1 & E2 & E3 & E4).
    exists sk, rs. split; [|auto]. cbn [app] in E1. apply lines_drop in E1. rewrite skipn_skipn in E1. rewrite E2, Nat.add_comm. exact E1.
  Qed.
  Lemma read_again step text off o off' o' : read_file go step text off o = (None, off', o') ->
    read_file go step text off' o' = (None, off', o').
  Proof.
    intro H. destruct (file_rest step text off o off' o' H) as (sk & rs & E1 & E2 & E3). unfold read_file. rewrite E1.
    apply loop_skips; assumption.
  Qed.
  (** result lines are never skipped, and where reading stops does not depend on the orders *)
  Lemma result_stop_any l o o' : result_line l o = LStop -> result_line l o' = LStop.
  Proof.
    unfold result_line. destruct (strip l); [reflexivity|]. destruct (startswith _ _); [discriminate|].
    destruct (columns _) as [|a [|b [|c [|d [|e [|f [|g r]]]]]]]; cbn [length Nat.ltb Nat.leb]; try reflexivity; try discriminate.
    destruct (str_eqb b (lit "1") && str_eqb d (lit "1")); [|discriminate]. destruct (dget c o); discriminate.
  Qed.
  Lemma result_again text off o off' o' o2 : read_file go result_line text off o = (None, off', o') ->
    read_file go result_line text off' o2 = (None, off', o2).
  Proof.
    intro H. destruct (file_rest result_line text off o off' o' H) as (sk & rs & E1 & E2 & E3). unfold read_file. rewrite E1.
    destruct sk as [|l sk]; [|inversion_clear E2 as [|? ? K _]; destruct (result_never_skips _ _ K)].
    apply (loop_skips result_line [] rs); [constructor|]. destruct rs; [exact I|]. eapply result_stop_any, E3.
  Qed.

  Context (ptime f3 f4 : str -> option Z).
  Lemma save_again g g' : save_orders g = (Ok tt, g') -> exists g'', save_orders g' = (Ok tt, g'') /\ gs_orders g'' = gs_orders g.
  Proof.
    unfold save_orders. destruct (forallb _ (gs_orders g)) eqn:E; [|discriminate].
    destruct (ge_save (gs_env g)) as [[]|] eqn:Es; [|discriminate]. intro H. apply (f_equal snd) in H. cbn in H. subst g'.
    cbn [set_data gs_orders gs_env]. rewrite E, Es. eexists. split; [reflexivity|reflexivity].
  Qed.
  Lemma gate_sync_again g l g1 : gate_sync_orders ptime f3 f4 go g = (Ok l, g1) ->
    exists g2, gate_sync_orders ptime f3 f4 go g1 = (Ok l, g2).
  Proof.
    unfold gate_sync_orders at 1. destruct (dget _ (gs_ufile g)) as [ut|] eqn:Eu; [|discriminate].
    destruct (dget _ (gs_rfile g)) as [rt|] eqn:Er; [|discriminate].
    destruct (read_file go result_line rt (gs_roff g) (gs_orders g)) as [[[x|] roff] o1] eqn:R1; [discriminate|].
    cbn [set_rread gs_uoff].
    destruct (read_file go (update_line ptime f3 f4) ut (gs_uoff g) o1) as [[[x|] uoff] o2] eqn:R2; [discriminate|].
    unfold save_orders at 1. cbn [set_rread set_uread gs_orders gs_env]. destruct (forallb _ o2) eqn:Ef; [|discriminate].
    destruct (ge_save (gs_env g)) as [[]|] eqn:Es; [|discriminate]. intro H. injection H as <- <-.
    unfold gate_sync_orders. cbn [set_data set_rread set_uread gs_env gs_ufile gs_rfile gs_orders gs_roff gs_uoff]. rewrite Eu, Er.
    rewrite (result_again rt _ _ _ _ o2 R1). cbn [set_rread gs_uoff gs_orders].
    rewrite (read_again _ ut _ _ _ _ R2). unfold save_orders. cbn [set_data set_rread set_uread gs_orders gs_env].
    rewrite Ef, Es. eexists. reflexivity.
  Qed.

  Lemma own_apply id o i e : own_ids o -> dget id o = Some i -> own_ids (dset id (apply e i) o).
  Proof.
    intros [N H] E. split; [apply NoDup_dset, N|]. intros k j. rewrite dget_dset. destruct (eqb_spec k id) as [->|]; [|apply H].
    intro K. injection K as <-. rewrite (proj2 (apply_price e i)). apply H, E.
  Qed.
  Lemma own_sync g : own_ids (gs_orders g) -> own_ids (gs_orders (snd (gate_sync_orders ptime f3 f4 go g))).
  Proof. apply (sync_orders_of ptime f3 f4 go g own_ids own_apply). Qed.
  Lemma own_steps ops : forall g, own_ids (gs_orders g) -> own_ids (gs_orders (g_steps ptime f3 f4 go ops g)).
  Proof.
    induction ops as [|op ops IH]; intros g H; [exact H|]. apply IH. destruct op as [o|id| |e|r u]; cbn [g_step]; try exact H.
    - apply order_orders_of; [|exact H]. intros [N K]. split; [apply NoDup_dset, N|]. intros k j. rewrite dget_dset.
      destruct (eqb_spec k (o_id o)) as [->|]; [|apply K]. intro Q. injection Q as <-. reflexivity.
    - rewrite cancel_orders_of. exact H.
    - apply own_sync, H.
  Qed.
  Lemma own_NoDup o : own_ids o -> NoDup (map i_id (dvals o)).
  Proof.
    intros [N H]. replace (map i_id (dvals o)) with (dkeys o); [exact N|].
    assert (K : forall kv, In kv o -> i_id (snd kv) = fst kv).
    { intros [k i] Hin. apply H. apply In_dget; assumption. }
    clear N H. induction o as [|[k i] o IH]; [reflexivity|]. cbn [dkeys dvals map fst snd] in *. f_equal.
    - symmetry. apply (K (k, i)). left. reflexivity.
    - apply IH. intros kv Hin. apply K. right. exact Hin.
  Qed.
  Lemma sync_list g l g1 : gate_sync_orders ptime f3 f4 go g = (Ok l, g1) -> l = dvals (gs_orders g1).
  Proof.
    unfold gate_sync_orders. destruct (dget _ (gs_ufile g)) as [ut|]; [|discriminate]. destruct (dget _ (gs_rfile g)) as [rt|]; [|discriminate].
    destruct (read_file go result_line rt (gs_roff g) (gs_orders g)) as [[[x|] roff] o1]; [discriminate|].
    destruct (read_file go (update_line ptime f3 f4) ut _ o1) as [[[x|] uoff] o2]; [discriminate|].
    destruct (save_orders _) as [[u|] g3]; [|discriminate]. intro H. injection H as <- <-. reflexivity.
  Qed.
End Again.
