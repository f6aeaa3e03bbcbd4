(** Facts about tasks in one directory (C100, C101). *)
From Verif Require Import PyBase PyStr MTime MOrder MAccount MGate MBalance MCsv MFolio MDir SOfile SDir.
Open Scope Z_scope.

Definition effect (header : str) (go : gopts) (w : wout) (eff : option (Z * str)) (old new : dict Z str) : Prop :=
  new = match eff with None => old | Some (d, row) => dset d (snd (write_line go header (row ++ go_eol go) (text_of d old) w)) old end.
(** the gate with other order and cancel files *)
Definition with_oc (o c : dict Z str) (g : gst) : gst :=
  GSt (gs_orders g) (gs_uoff g) (gs_roff g) (gs_day g) o c (gs_rfile g) (gs_ufile g) (gs_data g) (gs_env g).
Lemma with_oc_id g : with_oc (gs_ofile g) (gs_cfile g) g = g. Proof. destruct g; reflexivity. Qed.

Section G.
  Context (ptime f3 f4 : str -> option Z) (go : gopts).
  Lemma save_oc o c g : save_orders (with_oc o c g) = (fst (save_orders g), with_oc o c (snd (save_orders g))).
  Proof. unfold save_orders. cbn [with_oc gs_orders gs_env]. destruct (forallb _ _); [|reflexivity]. destruct (ge_save (gs_env g)); reflexivity. Qed.
  Lemma save_files g : gs_ofile (snd (save_orders g)) = gs_ofile g /\ gs_cfile (snd (save_orders g)) = gs_cfile g.
  Proof. unfold save_orders. destruct (forallb _ _); [|auto]. destruct (ge_save (gs_env g)); auto. Qed.
  Lemma sync_oc o c g : gate_sync_orders ptime f3 f4 go (with_oc o c g) =
    (fst (gate_sync_orders ptime f3 f4 go g), with_oc o c (snd (gate_sync_orders ptime f3 f4 go g))).
  Proof.
    unfold gate_sync_orders. cbn [with_oc gs_env gs_ufile gs_rfile gs_roff gs_orders].
    destruct (dget _ (gs_ufile g)) as [ut|]; [|reflexivity]. destruct (dget _ (gs_rfile g)) as [rt|]; [|reflexivity].
    destruct (read_file _ _ rt (gs_roff g) (gs_orders g)) as [[[x1|] roff] o1]; [reflexivity|]. cbn [set_rread gs_uoff with_oc].
    destruct (read_file _ _ ut (gs_uoff g) o1) as [[[x2|] uoff] o2]; [reflexivity|].
    change (set_uread o2 uoff (set_rread o1 roff (with_oc o c g))) with (with_oc o c (set_uread o2 uoff (set_rread o1 roff g))).
    rewrite save_oc. destruct (save_orders (set_uread o2 uoff (set_rread o1 roff g))) as [[[]|x] g3]; reflexivity.
  Qed.
  Lemma sync_files g : gs_ofile (snd (gate_sync_orders ptime f3 f4 go g)) = gs_ofile g /\ gs_cfile (snd (gate_sync_orders ptime f3 f4 go g)) = gs_cfile g.
  Proof.
    unfold gate_sync_orders. destruct (dget _ (gs_ufile g)) as [ut|]; [|auto]. destruct (dget _ (gs_rfile g)) as [rt|]; [|auto].
    destruct (read_file _ _ rt (gs_roff g) (gs_orders g)) as [[[x1|] roff] o1]; [auto|].
    destruct (read_file _ _ ut (gs_uoff _) o1) as [[[x2|] uoff] o2]; [auto|].
    pose proof (save_files (set_uread o2 uoff (set_rread o1 roff g))) as H. destruct (save_orders _) as [[[]|x] g3]; exact H.
  Qed.
  Lemma order_oc o c od g : exists o' o0',
    gate_order go od (with_oc o c g) = (fst (gate_order go od g), with_oc o' c (snd (gate_order go od g))) /\
    gs_ofile (snd (gate_order go od g)) = o0' /\ gs_cfile (snd (gate_order go od g)) = gs_cfile g /\
    exists eff, effect order_header go (ge_write (gs_env g)) eff o o' /\ effect order_header go (ge_write (gs_env g)) eff (gs_ofile g) o0'.
  Proof.
    unfold gate_order. cbn [with_oc gs_env gs_ofile gs_orders].
    destruct (go_acct go) as [|a0 ar]; [exists o, (gs_ofile g); repeat split; exists None; split; reflexivity|].
    destruct (negb (go_stock go)); [exists o, (gs_ofile g); repeat split; exists None; split; reflexivity|].
    destruct (o_side od); [|exists o, (gs_ofile g); repeat split; exists None; split; reflexivity].
    destruct (encode (o_code od)) as [sym|x]; [|exists o, (gs_ofile g); repeat split; exists None; split; reflexivity].
    set (row := join_with COMMA (order_fields go (ge_now (gs_env g)) od sym)). set (d := ge_date (gs_env g)). set (w := ge_write (gs_env g)).
    destruct (write_line go order_header (row ++ go_eol go) (text_of d o) w) as [r1 t1] eqn:E1.
    destruct (write_line go order_header (row ++ go_eol go) (text_of d (gs_ofile g)) w) as [r2 t2] eqn:E2.
    assert (Er : r1 = r2) by (unfold write_line in E1, E2; destruct w; congruence). subst r2.
    exists (dset d t1 o), (dset d t2 (gs_ofile g)).
    assert (Heff : exists eff, effect order_header go w eff o (dset d t1 o) /\ effect order_header go w eff (gs_ofile g) (dset d t2 (gs_ofile g))).
    { exists (Some (d, row)). unfold effect. rewrite E1, E2. split; reflexivity. }
    destruct r1 as [[]|x]; [|repeat split; exact Heff].
    pose proof (save_oc (dset d t1 o) c (set_gorders (dset (o_id od) (json od) (gs_orders g)) (set_ofile (dset d t2 (gs_ofile g)) g))) as Hs.
    pose proof (save_files (set_gorders (dset (o_id od) (json od) (gs_orders g)) (set_ofile (dset d t2 (gs_ofile g)) g))) as [F1 F2].
    split; [exact Hs|]. split; [exact F1|]. split; [exact F2|exact Heff].
  Qed.
  Lemma cancel_oc o c id g : exists c' c0',
    gate_cancel go id (with_oc o c g) = (fst (gate_cancel go id g), with_oc o c' (snd (gate_cancel go id g))) /\
    gs_cfile (snd (gate_cancel go id g)) = c0' /\ gs_ofile (snd (gate_cancel go id g)) = gs_ofile g /\
    exists eff, effect cancel_header go (ge_write (gs_env g)) eff c c' /\ effect cancel_header go (ge_write (gs_env g)) eff (gs_cfile g) c0'.
  Proof.
    unfold gate_cancel. cbn [with_oc gs_env gs_cfile].
    set (row := join_with COMMA [fmt_stamp (ge_now (gs_env g)); id]). set (d := ge_date (gs_env g)). set (w := ge_write (gs_env g)).
    destruct (write_line go cancel_header (row ++ go_eol go) (text_of d c) w) as [r1 t1] eqn:E1.
    destruct (write_line go cancel_header (row ++ go_eol go) (text_of d (gs_cfile g)) w) as [r2 t2] eqn:E2.
    assert (Er : r1 = r2) by (unfold write_line in E1, E2; destruct w; congruence). subst r2.
    exists (dset d t1 c), (dset d t2 (gs_cfile g)). repeat split. exists (Some (d, row)). unfold effect. rewrite E1, E2. split; reflexivity.
  Qed.
End G.

Definition foc (o c : dict Z str) (f : fgst) : fgst := with_gate f (with_oc o c (fg_gate f)).
Section D.
  Context (ptime f3 f4 : str -> option Z) (opts : nat -> gopts).
  Context {F : Type} (pnum pyfloat : str -> option F) (trunc : F -> option Z) (round4 round3 : F -> Z) (minus : F -> F -> F).
  Notation gt k := (full_gate ptime f3 f4 (opts k) pnum pyfloat trunc round4 round3 minus).
  Notation do_call := (do_call ptime f3 f4 opts pnum pyfloat trunc round4 round3 minus).
  Notation d_step := (d_step ptime f3 f4 opts pnum pyfloat trunc round4 round3 minus).
  Notation d_run := (d_run ptime f3 f4 opts pnum pyfloat trunc round4 round3 minus).

  (** a call does the same whatever is in the order and cancel files, and adds the same *)
  Lemma call_oc k op a f o c : exists o' c', let '(r, a', f') := do_call k op a f in
    do_call k op a (foc o c f) = (r, a', foc o' c' f') /\
    exists eo ec, effect order_header (opts k) (ge_write (gs_env (fg_gate f))) eo o o' /\
      effect order_header (opts k) (ge_write (gs_env (fg_gate f))) eo (gs_ofile (fg_gate f)) (gs_ofile (fg_gate f')) /\
      effect cancel_header (opts k) (ge_write (gs_env (fg_gate f))) ec c c' /\
      effect cancel_header (opts k) (ge_write (gs_env (fg_gate f))) ec (gs_cfile (fg_gate f)) (gs_cfile (fg_gate f')).
  Proof.
    destruct op as [id now code n st sd|id| | |ok]; cbn [MDir.do_call].
    - destruct (order_oc (opts k) o c (new_order id now code n st sd) (fg_gate f)) as (o' & o0 & E & Eo & Ec & eff & X1 & X2).
      exists o', c. unfold acc_order. cbn [g_order full_gate foc with_gate fg_gate]. unfold lift. rewrite E. cbn [fst snd].
      destruct (gate_order (opts k) (new_order id now code n st sd) (fg_gate f)) as [[u|x] g']; cbn [fst snd] in *.
      + split; [reflexivity|]. exists eff, None. subst o0. repeat split; try assumption.
      + split; [reflexivity|]. exists eff, None. subst o0. repeat split; try assumption.
    - unfold acc_cancel. destruct (dmem id (a_orders a)).
      + destruct (cancel_oc (opts k) o c id (fg_gate f)) as (c' & c0 & E & Ec & Eo & eff & X1 & X2).
        exists o, c'. cbn [fst snd g_cancel full_gate foc with_gate fg_gate]. unfold lift. rewrite E. cbn [fst snd].
        split; [reflexivity|]. exists None, eff. subst c0. repeat split; try assumption.
      + exists o, c. split; [reflexivity|]. exists None, None. repeat split.
    - exists o, c. unfold acc_sync_orders. cbn [g_sync_orders full_gate foc with_gate fg_gate]. unfold lift. rewrite sync_oc. cbn [fst snd].
      pose proof (sync_files ptime f3 f4 (opts k) (fg_gate f)) as [S1 S2].
      destruct (gate_sync_orders ptime f3 f4 (opts k) (fg_gate f)) as [[l|x] g']; cbn [fst snd] in *.
      + split; [reflexivity|]. exists None, None. repeat split; assumption.
      + split; [reflexivity|]. exists None, None. repeat split; assumption.
    - exists o, c. unfold acc_sync_balance. cbn [g_sync_balance full_gate]. unfold full_balance.
      change (today (foc o c f)) with (today f). change (fg_assets (foc o c f)) with (fg_assets f). change (fg_positions (foc o c f)) with (fg_positions f).
      match goal with |- context [match ?r with Ok _ => _ | Err _ => _ end] => destruct r as [b|x] end.
      + destruct (b_cash b), (b_pos b); (split; [reflexivity|exists None, None; repeat split]).
      + split; [reflexivity|exists None, None; repeat split].
    - exists o, c. split; [reflexivity|]. exists None, None. repeat split.
  Qed.

  Definition broker_part (f : fgst) := (gs_rfile (fg_gate f), gs_ufile (fg_gate f), fg_assets f, fg_positions f).
  Lemma save_broker g : gs_rfile (snd (save_orders g)) = gs_rfile g /\ gs_ufile (snd (save_orders g)) = gs_ufile g.
  Proof. unfold save_orders. destruct (forallb _ _); [|auto]. destruct (ge_save (gs_env g)); auto. Qed.
  Lemma call_broker k op a f : broker_part (snd (do_call k op a f)) = broker_part f.
  Proof.
    assert (G : forall g', gs_rfile g' = gs_rfile (fg_gate f) -> gs_ufile g' = gs_ufile (fg_gate f) -> broker_part (with_gate f g') = broker_part f).
    { intros g' H1 H2. unfold broker_part. cbn [with_gate fg_gate fg_assets fg_positions]. rewrite H1, H2. reflexivity. }
    destruct op as [id now code n st sd|id| | |ok]; cbn [MDir.do_call].
    - unfold acc_order. cbn [g_order full_gate]. unfold lift.
      assert (H : gs_rfile (snd (gate_order (opts k) (new_order id now code n st sd) (fg_gate f))) = gs_rfile (fg_gate f) /\
                  gs_ufile (snd (gate_order (opts k) (new_order id now code n st sd) (fg_gate f))) = gs_ufile (fg_gate f)).
      { unfold gate_order. destruct (go_acct (opts k)); [auto|]. destruct (negb _); [auto|]. destruct (o_side _); [|auto].
        destruct (encode _); [|auto]. destruct (write_line _ _ _ _ _) as [[[]|x] t]; [|auto]. 
        match goal with |- context [save_orders ?g] => exact (save_broker g) end. }
      destruct H as [H1 H2]. destruct (gate_order _ _ _) as [[u|x] g']; apply G; assumption.
    - unfold acc_cancel. destruct (dmem id (a_orders a)); [|reflexivity]. cbn [fst snd g_cancel full_gate]. unfold lift.
      apply G; unfold gate_cancel; destruct (write_line _ _ _ _ _); reflexivity.
    - unfold acc_sync_orders. cbn [g_sync_orders full_gate]. unfold lift.
      assert (H : gs_rfile (snd (gate_sync_orders ptime f3 f4 (opts k) (fg_gate f))) = gs_rfile (fg_gate f) /\
                  gs_ufile (snd (gate_sync_orders ptime f3 f4 (opts k) (fg_gate f))) = gs_ufile (fg_gate f)).
      { unfold gate_sync_orders. destruct (dget _ (gs_ufile _)) as [ut|]; [|auto]. destruct (dget _ (gs_rfile _)) as [rt|]; [|auto].
        destruct (read_file _ _ rt _ _) as [[[x1|] roff] o1]; [auto|]. destruct (read_file _ _ ut _ o1) as [[[x2|] uoff] o2]; [auto|].
        match goal with |- context [save_orders ?g] => pose proof (save_broker g) as H; destruct (save_orders g) as [[[]|x] g3]; exact H end. }
      destruct H as [H1 H2]. destruct (gate_sync_orders _ _ _ _ _) as [[l|x] g']; apply G; assumption.
    - unfold acc_sync_balance. cbn [g_sync_balance full_gate]. unfold full_balance.
      match goal with |- context [match ?r with Ok _ => _ | Err _ => _ end] => destruct r as [b|x] end; [|reflexivity].
      destruct (b_cash b), (b_pos b); reflexivity.
    - apply G; unfold gate_setup; [destruct ok|destruct ok]; try reflexivity; destruct (dget _ _); reflexivity.
  Qed.

  Definition same_broker (d d' : dir) : Prop :=
    d_results d = d_results d' /\ d_updates d = d_updates d' /\ d_assets d = d_assets d' /\ d_positions d = d_positions d'.
  (** [s'] is [s] as far as task [k] can see *)
  Definition rel (k : nat) (s s' : sys) : Prop := s_task s k = s_task s' k /\ same_broker (s_dir s) (s_dir s').

  Lemma step_other k j e o s s' : j <> k -> rel k s s' -> rel k (snd (d_step (DTask j e o) s)) s'.
  Proof.
    intros Hj [H1 H2]. cbn [MDir.d_step]. pose proof (call_broker j o (t_acct (s_task s j)) (gate_of (s_dir s) (s_task s j) e)) as B.
    destruct (do_call j o _ _) as [[r a] f]. cbn [snd] in *. unfold broker_part in B. cbn [gate_of fg_gate gs_rfile gs_ufile fg_assets fg_positions] in B.
    injection B as B1 B2 B3 B4. destruct H2 as (A1 & A2 & A3 & A4). unfold rel. cbn [s_task s_dir]. apply Nat.eqb_neq in Hj. rewrite Nat.eqb_sym, Hj.
    split; [exact H1|]. unfold same_broker, dir_of. cbn [d_results d_updates d_assets d_positions]. repeat split; congruence.
  Qed.
  Lemma step_same k e o s s' : rel k s s' ->
    fst (d_step (DTask k e o) s) = fst (d_step (DTask k e o) s') /\ rel k (snd (d_step (DTask k e o) s)) (snd (d_step (DTask k e o) s')) /\
    exists eo ec,
      effect order_header (opts k) (ge_write e) eo (d_orders (s_dir s)) (d_orders (s_dir (snd (d_step (DTask k e o) s)))) /\
      effect order_header (opts k) (ge_write e) eo (d_orders (s_dir s')) (d_orders (s_dir (snd (d_step (DTask k e o) s')))) /\
      effect cancel_header (opts k) (ge_write e) ec (d_cancels (s_dir s)) (d_cancels (s_dir (snd (d_step (DTask k e o) s)))) /\
      effect cancel_header (opts k) (ge_write e) ec (d_cancels (s_dir s')) (d_cancels (s_dir (snd (d_step (DTask k e o) s')))).
  Proof.
    intros [H1 (A1 & A2 & A3 & A4)]. cbn [MDir.d_step]. rewrite <- H1. set (t := s_task s k).
    assert (Eg : gate_of (s_dir s') t e = foc (d_orders (s_dir s')) (d_cancels (s_dir s')) (gate_of (s_dir s) t e)).
    { unfold gate_of, foc, with_gate, with_oc. cbn. rewrite A1, A2, A3, A4. reflexivity. }
    rewrite Eg. pose proof (call_broker k o (t_acct t) (gate_of (s_dir s) t e)) as B.
    destruct (call_oc k o (t_acct t) (gate_of (s_dir s) t e) (d_orders (s_dir s')) (d_cancels (s_dir s'))) as (o' & c' & C).
    destruct (do_call k o (t_acct t) (gate_of (s_dir s) t e)) as [[r a] f]. destruct C as [C (eo & ec & E1 & E2 & E3 & E4)]. rewrite C.
    cbn [fst snd]. split; [reflexivity|]. split.
    - split; [cbn [s_task]; rewrite Nat.eqb_refl; reflexivity|]. repeat split.
    - exists eo, ec. cbn [gate_of fg_gate gs_env gs_ofile gs_cfile] in *. cbn [s_dir dir_of foc with_gate fg_gate with_oc d_orders d_cancels gs_ofile gs_cfile].
      repeat split; assumption.
  Qed.

  Lemma run_alone k xs : forall s s', rel k s s' ->
    told k (fst (d_run xs s)) = told k (fst (d_run (alone k xs) s')) /\ rel k (snd (d_run xs s)) (snd (d_run (alone k xs) s')).
  Proof.
    induction xs as [|x xs IH]; intros s s' R; [split; [reflexivity|exact R]|].
    assert (TA : forall (l1 l2 : list (nat * (option str * acct))), told k (l1 ++ l2) = told k l1 ++ told k l2).
    { intros l1 l2. unfold told. rewrite filter_app, map_app. reflexivity. }
    destruct x as [j e o|r u a p].
    - cbn [alone filter MDir.d_run]. destruct (Nat.eqb j k) eqn:Ej.
      + apply Nat.eqb_eq in Ej. subst j. destruct (step_same k e o s s' R) as (E & R' & _). cbn [MDir.d_run].
        destruct (d_step (DTask k e o) s) as [o1 s1] eqn:D1. destruct (d_step (DTask k e o) s') as [o1' s1'] eqn:D2. cbn [fst snd] in *. subst o1'.
        destruct (IH s1 s1' R') as [I1 I2]. fold (alone k xs). destruct (d_run xs s1) as [o2 s2]. destruct (d_run (alone k xs) s1') as [o2' s2'].
        cbn [fst snd] in *. rewrite !TA, I1. split; [reflexivity|exact I2].
      + pose proof Ej as Ej'. apply Nat.eqb_neq in Ej'. pose proof (step_other k j e o s s' Ej' R) as R'.
        assert (T1 : told k (fst (d_step (DTask j e o) s)) = []).
        { cbn [MDir.d_step]. destruct (do_call _ _ _ _) as [[r a] f]. unfold told. cbn. rewrite Ej. reflexivity. }
        destruct (d_step (DTask j e o) s) as [o1 s1]. cbn [fst snd] in *. destruct (IH s1 s' R') as [I1 I2].
        fold (alone k xs). destruct (d_run xs s1) as [o2 s2]. cbn [fst snd] in *. rewrite TA, T1. split; [exact I1|exact I2].
    - cbn [alone filter MDir.d_run MDir.d_step]. fold (alone k xs).
      assert (R' : rel k (Sys (Dir (d_orders (s_dir s)) (d_cancels (s_dir s)) r u a p) (s_task s)) (Sys (Dir (d_orders (s_dir s')) (d_cancels (s_dir s')) r u a p) (s_task s'))).
      { destruct R as [R1 _]. split; [exact R1|]. repeat split. }
      destruct (IH _ _ R') as [I1 I2]. destruct (d_run xs _) as [o2 s2]. destruct (d_run (alone k xs) _) as [o2' s2']. cbn [fst snd] in *. split; assumption.
  Qed.

  (** the files *)
  Context (eol : str) (Heol : forall k, go_eol (opts k) = eol).
  Definition merged (header : str) (file : dir -> dict Z str) (s : sys) (A : nat -> sys) : Prop :=
    forall d, merge header eol (fun k => text_of d (file (s_dir (A k)))) (text_of d (file (s_dir s))).

  Lemma text_of_dset d t m d' : text_of d' (dset d t m) = if d' =? d then t else text_of d' m.
  Proof.
    unfold text_of. destruct (d' =? d) eqn:E.
    - apply Z.eqb_eq in E. subst. rewrite dget_dset_same. reflexivity.
    - apply Z.eqb_neq in E. rewrite dget_dset_other by (intros X; apply E; congruence). reflexivity.
  Qed.
  Lemma holds_app header ls t l : header <> [] -> holds header eol ls t -> l <> [] ->
    holds header eol (ls ++ [l]) (t ++ (match t with [] => header ++ eol | _ => [] end) ++ l).
  Proof.
    intros Hh H Hl. unfold holds in *. destruct ls as [|x ls]; subst t.
    - cbn. rewrite app_nil_r, <- app_assoc. reflexivity.
    - destruct header as [|h0 hr]; [congruence|]. cbn [app]. f_equal. cbn [concat]. rewrite concat_app. cbn [concat]. rewrite app_nil_r, <- !app_assoc. reflexivity.
  Qed.
  Lemma told_snoc k j (l : str) ls : told k (ls ++ [(j, l)]) = told k ls ++ (if Nat.eqb j k then [l] else []).
  Proof. unfold told. rewrite filter_app, map_app. cbn [filter fst]. destruct (Nat.eqb j k); reflexivity. Qed.

  Lemma merge_effect header j w eff (f : dict Z str) f' (g : nat -> dict Z str) gj' : header <> [] -> eol <> [] -> (forall n x, w <> WTorn n x) ->
    (forall d, merge header eol (fun k => text_of d (g k)) (text_of d f)) ->
    effect header (opts j) w eff f f' -> effect header (opts j) w eff (g j) gj' ->
    forall d, merge header eol (fun k => text_of d (if Nat.eqb k j then gj' else g k)) (text_of d f').
  Proof.
    intros Hh He Hw M E1 E2 d. unfold effect in E1, E2. destruct (M d) as (ls & FF & H1 & H2).
    destruct eff as [[d0 row]|].
    2:{ subst f' gj'. exists ls. split; [exact FF|]. split; [exact H1|]. intros k. destruct (Nat.eqb k j) eqn:Ek; [apply Nat.eqb_eq in Ek; subst k|]; apply H2. }
    subst f' gj'. rewrite text_of_dset. destruct (d =? d0) eqn:Ed.
    - apply Z.eqb_eq in Ed. subst d0. destruct w as [|x|n x]; [| |exfalso; exact (Hw n x eq_refl)].
      + exists (ls ++ [(j, row ++ eol)]). split; [|split].
        * apply Forall_app. split; [exact FF|]. constructor; [|constructor]. exists row. reflexivity.
        * rewrite map_app. cbn [map snd write_line]. rewrite Heol. apply holds_app; try assumption. intros X. apply app_eq_nil in X. tauto.
        * intros k. rewrite told_snoc, Nat.eqb_sym. destruct (Nat.eqb k j) eqn:Ek.
          -- apply Nat.eqb_eq in Ek. subst k. rewrite text_of_dset, Z.eqb_refl. cbn [snd write_line]. rewrite Heol.
             apply holds_app; try assumption; [apply H2|]. intros X. apply app_eq_nil in X. tauto.
          -- rewrite app_nil_r. apply H2.
      + exists ls. split; [exact FF|]. split; [exact H1|]. intros k. destruct (Nat.eqb k j) eqn:Ek; [|apply H2].
        apply Nat.eqb_eq in Ek. subst k. rewrite text_of_dset, Z.eqb_refl. apply H2.
    - exists ls. split; [exact FF|]. split; [exact H1|]. intros k. destruct (Nat.eqb k j) eqn:Ek; [|apply H2].
      apply Nat.eqb_eq in Ek. subst k. rewrite text_of_dset, Ed. apply H2.
  Qed.

  Lemma run_files : eol <> [] -> forall xs s A, Forall whole_writes xs -> (forall k, rel k s (A k)) ->
    merged order_header d_orders s A -> merged cancel_header d_cancels s A ->
    merged order_header d_orders (snd (d_run xs s)) (fun k => snd (d_run (alone k xs) (A k))) /\
    merged cancel_header d_cancels (snd (d_run xs s)) (fun k => snd (d_run (alone k xs) (A k))).
  Proof.
    intros He. induction xs as [|x xs IH]; intros s A W R MO MC; [split; assumption|].
    pose proof (Forall_inv W) as W0. apply Forall_inv_tail in W.
    destruct x as [j e o|r u a p].
    - set (A' := fun k => if Nat.eqb k j then snd (d_step (DTask j e o) (A k)) else A k).
      assert (EA : forall k, snd (d_run (alone k (DTask j e o :: xs)) (A k)) = snd (d_run (alone k xs) (A' k))).
      { intros k. cbn [alone filter]. fold (alone k xs). unfold A'. rewrite Nat.eqb_sym. destruct (Nat.eqb k j); [|reflexivity].
        cbn [MDir.d_run]. destruct (d_step (DTask j e o) (A k)) as [o1 s1]. cbn [snd]. destruct (d_run (alone k xs) s1). reflexivity. }
      assert (ES : snd (d_run (DTask j e o :: xs) s) = snd (d_run xs (snd (d_step (DTask j e o) s)))).
      { cbn [MDir.d_run]. destruct (d_step (DTask j e o) s) as [o1 s1]. cbn [snd]. destruct (d_run xs s1). reflexivity. }
      destruct (step_same j e o s (A j) (R j)) as (_ & Rj & eo & ec & E1 & E2 & E3 & E4).
      assert (R' : forall k, rel k (snd (d_step (DTask j e o) s)) (A' k)).
      { intros k. unfold A'. destruct (Nat.eqb k j) eqn:Ek; [apply Nat.eqb_eq in Ek; subst k; exact Rj|].
        apply Nat.eqb_neq in Ek. apply step_other; [congruence|apply R]. }
      assert (Hw : forall n x, ge_write e <> WTorn n x) by (intros n x X; apply W0; exists n, x; exact X).
      assert (MO' : merged order_header d_orders (snd (d_step (DTask j e o) s)) A').
      { intros d. pose proof (merge_effect order_header j (ge_write e) eo _ _ (fun k => d_orders (s_dir (A k))) _ ltac:(discriminate) He Hw MO E1 E2 d) as (ls & FF & H1 & H2).
        exists ls. split; [exact FF|]. split; [exact H1|]. intros k. specialize (H2 k). unfold A'.
        destruct (Nat.eqb k j) eqn:Ek; [|exact H2]. apply Nat.eqb_eq in Ek. subst k. exact H2. }
      assert (MC' : merged cancel_header d_cancels (snd (d_step (DTask j e o) s)) A').
      { intros d. pose proof (merge_effect cancel_header j (ge_write e) ec _ _ (fun k => d_cancels (s_dir (A k))) _ ltac:(discriminate) He Hw MC E3 E4 d) as (ls & FF & H1 & H2).
        exists ls. split; [exact FF|]. split; [exact H1|]. intros k. specialize (H2 k). unfold A'.
        destruct (Nat.eqb k j) eqn:Ek; [|exact H2]. apply Nat.eqb_eq in Ek. subst k. exact H2. }
      destruct (IH _ A' W R' MO' MC') as [I1 I2]. rewrite <- ES in I1, I2. split; intros d.
      + destruct (I1 d) as (ls & FF & H1 & H2). exists ls. split; [exact FF|]. split; [exact H1|]. intros k. rewrite EA. apply H2.
      + destruct (I2 d) as (ls & FF & H1 & H2). exists ls. split; [exact FF|]. split; [exact H1|]. intros k. rewrite EA. apply H2.
    - set (B := fun s0 => Sys (Dir (d_orders (s_dir s0)) (d_cancels (s_dir s0)) r u a p) (s_task s0)).
      assert (R' : forall k, rel k (B s) (B (A k))) by (intros k; destruct (R k) as [R1 _]; split; [exact R1|repeat split]).
      destruct (IH (B s) (fun k => B (A k)) W R' MO MC) as [I1 I2].
      assert (EA : forall k, snd (d_run (alone k (DBroker r u a p :: xs)) (A k)) = snd (d_run (alone k xs) (B (A k)))).
      { intros k. cbn [alone filter MDir.d_run MDir.d_step]. fold (alone k xs). fold (B (A k)). destruct (d_run (alone k xs) (B (A k))). reflexivity. }
      assert (ES : snd (d_run (DBroker r u a p :: xs) s) = snd (d_run xs (B s))).
      { cbn [MDir.d_run MDir.d_step]. fold (B s). destruct (d_run xs (B s)). reflexivity. }
      rewrite <- ES in I1, I2. split; intros d.
      + destruct (I1 d) as (ls & FF & H1 & H2). exists ls. split; [exact FF|]. split; [exact H1|]. intros k. rewrite EA. apply H2.
      + destruct (I2 d) as (ls & FF & H1 & H2). exists ls. split; [exact FF|]. split; [exact H1|]. intros k. rewrite EA. apply H2.
  Qed.
End D.
