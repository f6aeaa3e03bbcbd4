(** Lemmas about the AnXin gate: reading the result and update files. *)
From Verif Require Import PyBase PyStr LStr MTime MDate MOrder MAccount MGate SGate LGate.
Open Scope Z_scope.

(** ** lines *)
Lemma lines_whole l r : whole l -> lines_of (l ++ r) = l :: lines_of r.
Proof.
  intros (b & -> & Hb). rewrite <- app_assoc. cbn [app]. induction b as [|c b IH]; cbn [app lines_of].
  - rewrite N.eqb_refl. reflexivity.
  - destruct (N.eqb_spec c NL) as [->|]; [exfalso; apply Hb; left; reflexivity|].
    rewrite IH; [reflexivity|]. intro X. apply Hb. right. exact X.
Qed.
Lemma lines_partial t : ~ In NL t -> lines_of t = match t with [] => [] | _ => [t] end.
Proof.
  induction t as [|c t IH]; intro H; [reflexivity|]. cbn [lines_of].
  destruct (N.eqb_spec c NL) as [->|]; [exfalso; apply H; left; reflexivity|].
  rewrite IH by (intro X; apply H; right; exact X). destruct t; reflexivity.
Qed.
Lemma lines_concat ls t : Forall whole ls -> lines_of (concat ls ++ t) = ls ++ lines_of t.
Proof.
  induction 1 as [|l ls Hl H IH]; [reflexivity|]. cbn [concat app]. rewrite <- app_assoc, lines_whole, IH by assumption. reflexivity.
Qed.
Lemma whole_first l l' x y : whole l -> whole l' -> l ++ x = l' ++ y -> l = l' /\ x = y.
Proof.
  intros H H' E. pose proof (lines_whole l x H) as A. rewrite E, lines_whole in A by exact H'.
  injection A as -> _. split; [reflexivity|]. apply app_inv_head in E. exact E.
Qed.
(** lines already complete stay the first ones *)
Lemma prefix_lines L rest ls t :
  Forall whole L -> Forall whole ls -> ~ In NL t -> concat L ++ rest = concat ls ++ t ->
  exists M, ls = L ++ M /\ rest = concat M ++ t.
Proof.
  revert ls; induction L as [|l L IH]; intros ls HL Hls Ht E; cbn in *.
  - exists ls. auto.
  - inversion HL; subst. destruct ls as [|l' ls]; cbn in *.
    + exfalso. apply Ht. rewrite <- E. destruct H1 as (b & -> & _). rewrite !in_app_iff. left. left. right. left. reflexivity.
    + inversion Hls; subst. rewrite <- !app_assoc in E. destruct (whole_first _ _ _ _ H1 H3 E) as [-> E'].
      destruct (IH ls H2 H4 Ht E') as (M & -> & ->). exists M. auto.
Qed.
Lemma skipn_concat (A B : list str) t : skipn (length (concat A)) (concat (A ++ B) ++ t) = concat B ++ t.
Proof. rewrite concat_app, <- app_assoc, skipn_app, skipn_all, Nat.sub_diag. reflexivity. Qed.

(** ** strip and columns *)
Lemma strip_commas l : commas (strip l) = commas l.
Proof.
  unfold strip, commas.
  assert (D : forall s, count_occ N.eq_dec (drop_while is_space s) COMMA = count_occ N.eq_dec s COMMA).
  { induction s as [|c s IH]; [reflexivity|]. cbn [drop_while]. destruct (is_space c) eqn:E; [|reflexivity].
    rewrite IH. cbn. destruct (N.eq_dec c COMMA) as [->|]; [discriminate|reflexivity]. }
  assert (R : forall s, count_occ N.eq_dec (rev s) COMMA = count_occ N.eq_dec s COMMA).
  { induction s as [|c s IH]; [reflexivity|]. cbn [rev]. rewrite count_occ_app, IH. cbn. destruct (N.eq_dec c COMMA); lia. }
  rewrite R, D, R, D. reflexivity.
Qed.
Lemma split_length s : length (split_on COMMA s) = S (commas s).
Proof.
  unfold commas. induction s as [|c s IH]; [reflexivity|]. cbn [split_on count_occ].
  destruct (N.eqb_spec c COMMA) as [->|Hc].
  - destruct (N.eq_dec COMMA COMMA); [cbn; rewrite IH; reflexivity|congruence].
  - destruct (N.eq_dec c COMMA) as [|_]; [congruence|]. destruct (split_on COMMA s); [discriminate|exact IH].
Qed.
Lemma columns_length l : length (columns (strip l)) = S (commas l).
Proof. unfold columns. rewrite map_length, split_length, strip_commas. reflexivity. Qed.
Lemma columns_nth l k : (k <= commas l)%nat -> nth k (columns (strip l)) [] = col k l.
Proof.
  intro H. unfold columns, col. rewrite (nth_indep _ [] (strip [])) by (rewrite map_length, split_length, strip_commas; lia).
  apply map_nth.
Qed.
Lemma header_iff l : startswith (lit "updTime") (strip l) = true <-> header_line l.
Proof. apply startswith_iff. Qed.
Lemma header_dec l : {header_line l} + {~ header_line l}.
Proof.
  destruct (startswith (lit "updTime") (strip l)) eqn:E; [left|right]; rewrite <- header_iff; congruence.
Qed.
Lemma readable_nonempty n l : readable (S n) l -> strip l <> [].
Proof.
  intros [_ [[r ->]|H]]; [discriminate|]. rewrite <- strip_commas in H. intro X. rewrite X in H. cbn in H. lia.
Qed.

(** ** effects of lines: assignments to fields of one order *)
Record eff := Eff { e_st : option str; e_en : option str; e_cf : option str; e_er : option str;
                    e_fi : option Z; e_ca : option Z; e_de : option Z; e_av : option Z }.
Definition upd1 {A B} (e : option A) (f : A -> B -> B) (x : B) : B := match e with Some a => f a x | None => x end.
Definition apply (e : eff) (i : oinfo) : oinfo :=
  upd1 (e_st e) set_st (upd1 (e_en e) set_en (upd1 (e_cf e) set_cf (upd1 (e_er e) set_er
  (upd1 (e_fi e) set_fi (upd1 (e_ca e) set_ca (upd1 (e_de e) set_de (upd1 (e_av e) set_av i))))))).
Definition later {A} (a b : option A) : option A := match b with Some x => Some x | None => a end.
Definition comp (a b : eff) : eff :=
  Eff (later (e_st a) (e_st b)) (later (e_en a) (e_en b)) (later (e_cf a) (e_cf b)) (later (e_er a) (e_er b))
      (later (e_fi a) (e_fi b)) (later (e_ca a) (e_ca b)) (later (e_de a) (e_de b)) (later (e_av a) (e_av b)).
Definition no_eff : eff := Eff None None None None None None None None.
Lemma apply_fields e i :
  apply e i = OInfo (i_code i) (i_price i) (i_amount i) (i_action i) (i_id i)
    (match e_st e with Some x => x | None => i_status i end) (i_style i) (i_create i)
    (later (i_entrust i) (e_en e)) (i_side i) (later (i_confirm i) (e_cf e)) (later (i_filled i) (e_fi e))
    (later (i_canceled i) (e_ca e)) (later (i_deal i) (e_de e)) (later (i_avg i) (e_av e)) (i_comm i) (later (i_err i) (e_er e)).
Proof.
  destruct e as [[?|] [?|] [?|] [?|] [?|] [?|] [?|] [?|]], i; reflexivity.
Qed.
Lemma apply_no i : apply no_eff i = i.
Proof. destruct i; reflexivity. Qed.
Lemma apply_comp a b i : apply b (apply a i) = apply (comp a b) i.
Proof.
  rewrite !apply_fields. cbn. f_equal;
  match goal with |- context [match ?x b with _ => _ end] => destruct (x b) | |- later _ (?x b) = _ => destruct (x b) | _ => idtac end;
  reflexivity.
Qed.
Lemma apply_idem e i : apply e (apply e i) = apply e i.
Proof. rewrite apply_comp. f_equal. destruct e as [[?|] [?|] [?|] [?|] [?|] [?|] [?|] [?|]]; reflexivity. Qed.
Lemma apply_price e i : i_price (apply e i) = i_price i /\ i_id (apply e i) = i_id i.
Proof. rewrite apply_fields. auto. Qed.

(** ** the reading loop, for lines with targets *)
Section Reader.
  Context (go : gopts) (Hign : go_ignore go = true) (n : nat)
          (step : str -> dict str oinfo -> lres) (target : str -> option (str * eff)).
  Definition put (l : str) (o : dict str oinfo) : dict str oinfo :=
    match target l with
    | Some (id, e) => match dget id o with Some i => dset id (apply e i) o | None => o end
    | None => o
    end.
  Context (Hstep : forall l o, readable n l ->
             step l o = LNext (put l o) \/ (exists x, step l o = LFail (put l o) x) \/
             (step l o = LSkip /\ exists id e, target l = Some (id, e) /\ dget id o = None))
          (Hstop : forall t o, t <> [] -> pending n t -> step t o = LStop).

  (** the effect of lines on the order [id] *)
  Definition on (id : str) (i : oinfo) (l : str) : oinfo :=
    match target l with Some (k, e) => if eqb k id then apply e i else i | None => i end.
  Definition all_on (id : str) (ls : list str) (i : oinfo) : oinfo := fold_left (on id) ls i.

  Lemma all_on_app id a b i : all_on id (a ++ b) i = all_on id b (all_on id a i).
  Proof. apply fold_left_app. Qed.
  Lemma all_on_eff id ls : exists e, forall i, all_on id ls i = apply e i.
  Proof.
    induction ls as [|l ls IH] using rev_ind; [exists no_eff; intro i; symmetry; apply apply_no|].
    destruct IH as [e He]. unfold all_on in *. setoid_rewrite fold_left_app. cbn [fold_left]. unfold on at 1.
    destruct (target l) as [[k e']|]; [destruct (eqb k id)|].
    - exists (comp e e'). intro i. rewrite He, apply_comp. reflexivity.
    - exists e. exact He.
    - exists e. exact He.
  Qed.
  (** reading again what was read before changes nothing in the end *)
  Lemma all_on_absorb id a b i : all_on id (a ++ b) (all_on id a i) = all_on id (a ++ b) i.
  Proof.
    rewrite !all_on_app. destruct (all_on_eff id a) as [e He]. rewrite !He, apply_idem. reflexivity.
  Qed.
  Lemma all_on_none id ls i : (forall l e, In l ls -> target l <> Some (id, e)) -> all_on id ls i = i.
  Proof.
    revert i. induction ls as [|l ls IH]; intros i H; [reflexivity|]. cbn. fold (all_on id ls (on id i l)).
    rewrite IH by (intros; apply H; right; assumption). unfold on. destruct (target l) as [[k e]|] eqn:E; [|reflexivity].
    destruct (eqb_spec k id) as [->|]; [|reflexivity]. exfalso. apply (H l e); [left; reflexivity|exact E].
  Qed.

  Lemma put_get l o id : dget id (put l o) = option_map (fun i => on id i l) (dget id o).
  Proof.
    unfold put, on. destruct (target l) as [[k e]|]; [|destruct (dget id o); reflexivity].
    destruct (dget k o) as [i|] eqn:E.
    - rewrite dget_dset. destruct (eqb_spec k id) as [->|Hne].
      + rewrite eqb_refl, E. reflexivity.
      + replace (eqb id k) with false by (symmetry; apply eqb_false; congruence). destruct (dget id o); reflexivity.
    - destruct (eqb_spec k id) as [->|]; [rewrite E; reflexivity|]. destruct (dget id o); reflexivity.
  Qed.
  Lemma put_keys l o : dkeys (put l o) = dkeys o.
  Proof.
    unfold put. destruct (target l) as [[k e]|]; [|reflexivity]. destruct (dget k o) as [i|] eqn:E; [|reflexivity].
    rewrite dkeys_dset. unfold dmem. rewrite E. reflexivity.
  Qed.
  (** lines that are passed over without moving the stored offset *)
  Definition stranger (o : dict str oinfo) (l : str) : Prop := exists id e, target l = Some (id, e) /\ dget id o = None.
  Lemma stranger_keys o o' l : dkeys o = dkeys o' -> stranger o l -> stranger o' l.
  Proof.
    intros K (id & e & H1 & H2). exists id, e. split; [exact H1|]. apply dget_None. apply dget_None in H2. rewrite <- K. exact H2.
  Qed.
  Lemma stranger_put o l : stranger o l -> put l o = o.
  Proof. intros (id & e & H1 & H2). unfold put. rewrite H1, H2. reflexivity. Qed.

  Lemma read_loop_spec t : pending n t -> forall ls pos off o,
    Forall (readable n) ls ->
    exists off' A B,
      read_loop go step (ls ++ match t with [] => [] | _ => [t] end) pos off o = (None, off', fold_left (fun o l => put l o) ls o) /\
      ls = A ++ B /\ (A = [] /\ off' = off \/ A <> [] /\ off' = (pos + length (concat A))%nat) /\ Forall (stranger o) B.
  Proof.
    intro Ht. induction ls as [|l ls IH]; intros pos off o F.
    - exists off, [], []. split; [|repeat split; auto]. cbn [app fold_left]. destruct t as [|c t]; [reflexivity|].
      cbn [read_loop]. rewrite Hstop by (congruence || assumption). reflexivity.
    - inversion F as [|? ? Hl Hls]; subst. cbn [app read_loop fold_left].
      assert (Next : exists off' A B,
        read_loop go step (ls ++ match t with [] => [] | _ => [t] end) (pos + length l) (pos + length l) (put l o)
          = (None, off', fold_left (fun o l => put l o) ls (put l o)) /\
        l :: ls = A ++ B /\ (A = [] /\ off' = off \/ A <> [] /\ off' = (pos + length (concat A))%nat) /\ Forall (stranger o) B).
      { destruct (IH (pos + length l)%nat (pos + length l)%nat (put l o) Hls) as (off' & A & B & E & -> & HA & HB).
        exists off', (l :: A), B. rewrite E. split; [reflexivity|]. split; [reflexivity|]. split.
        - right. split; [discriminate|]. cbn [concat]. rewrite app_length. destruct HA as [[-> ->]|[_ HA]]; [cbn; lia|lia].
        - eapply Forall_impl; [|exact HB]. intros x. apply stranger_keys, put_keys. }
      destruct (Hstep l o Hl) as [E|[[x E]|[E Hs]]]; rewrite E.
      + exact Next.
      + rewrite Hign. exact Next.
      + rewrite (stranger_put o l Hs).
        destruct (IH (pos + length l)%nat off o Hls) as (off' & A & B & E' & -> & HA & HB).
        rewrite E'. destruct A as [|a A].
        * exists off', [], (l :: B). split; [reflexivity|]. split; [reflexivity|]. split; [|constructor; [exact Hs|exact HB]].
          destruct HA as [[_ ->]|[HA _]]; [left; auto|congruence].
        * exists off', (l :: a :: A), B. split; [reflexivity|]. split; [reflexivity|]. split; [|exact HB].
          right. split; [discriminate|]. destruct HA as [[HA _]|[_ HA]]; [discriminate|]. cbn [concat] in *. rewrite !app_length in *. lia.
  Qed.

  Lemma puts_get ls o id : dget id (fold_left (fun o l => put l o) ls o) = option_map (all_on id ls) (dget id o).
  Proof.
    revert o; induction ls as [|l ls IH]; intro o; cbn [fold_left]; [destruct (dget id o); reflexivity|].
    rewrite IH, put_get. destruct (dget id o); reflexivity.
  Qed.
  Lemma puts_keys ls o : dkeys (fold_left (fun o l => put l o) ls o) = dkeys o.
  Proof.
    revert o; induction ls as [|l ls IH]; intro o; cbn [fold_left]; [reflexivity|]. rewrite IH, put_keys. reflexivity.
  Qed.

  (** reading from a stored offset: [A] lies before it, [B] was read but did not move it *)
  Lemma read_file_spec A B C t o :
    Forall (readable n) (A ++ B ++ C) -> pending n t ->
    exists off' A' B',
      read_file go step (concat (A ++ B ++ C) ++ t) (length (concat A)) o
        = (None, off', fold_left (fun o l => put l o) (B ++ C) o) /\
      A ++ B ++ C = A' ++ B' /\ off' = length (concat A') /\ Forall (stranger o) B'.
  Proof.
    intros F Ht. unfold read_file. rewrite skipn_concat.
    apply Forall_app in F. destruct F as [FA F].
    rewrite lines_concat by (eapply Forall_impl; [|exact F]; intros x [H _]; exact H).
    rewrite (lines_partial t) by apply Ht.
    destruct (read_loop_spec t Ht (B ++ C) (length (concat A)) (length (concat A)) o F) as (off' & A' & B' & E & S & HA & HB).
    exists off', (A ++ A'), B'. split; [exact E|]. split; [rewrite S, app_assoc; reflexivity|]. split; [|exact HB].
    rewrite concat_app, app_length. destruct HA as [[-> ->]|[_ ->]]; cbn; lia.
  Qed.
End Reader.

(** ** the two readers *)
Section Readers.
  Context (ptime f3 f4 : str -> option Z).

  Definition eff_update (u : uline) : eff :=
    match parse_status (ul_status u) with
    | Err _ => no_eff
    | Ok st =>
        match ptime (ul_date u ++ ul_time u) with
        | None => Eff (Some (status_str st)) None None None None None None None
        | Some t =>
            let e1 := Eff (Some (status_str st)) (Some (fmt_dt t)) (Some (ul_no u)) in
            match py_int (ul_filled u) with
            | None => e1 None None None None None
            | Some q =>
                match f4 (ul_amt u) with
                | None => e1 None (Some q) None None None
                | Some a =>
                    match py_int (ul_cancel u) with
                    | None => e1 None (Some q) None (Some a) None
                    | Some c =>
                        match f3 (ul_avg u) with
                        | None => e1 None (Some q) (Some c) (Some a) None
                        | Some p => e1 (Some (ul_text u)) (Some q) (Some c) (Some a) (Some p)
                        end
                    end
                end
            end
        end
    end.
  Lemma update_order_eff u i : fst (update_order ptime f3 f4 u i) = apply (eff_update u) i.
  Proof.
    unfold update_order, eff_update. destruct (parse_status (ul_status u)); [|symmetry; apply apply_no].
    destruct (ptime _); [|destruct i; reflexivity]. destruct (py_int (ul_filled u)); [|destruct i; reflexivity].
    destruct (f4 _); [|destruct i; reflexivity]. destruct (py_int (ul_cancel u)); [|destruct i; reflexivity].
    destruct (f3 _); destruct i; reflexivity.
  Qed.

  Definition utarget (l : str) : option (str * eff) :=
    if startswith (lit "updTime") (strip l) then None
    else match uline_of (columns (strip l)) with Some u => Some (ul_id u, eff_update u) | None => None end.
  Definition rtarget (l : str) : option (str * eff) :=
    if startswith (lit "updTime") (strip l) then None
    else match columns (strip l) with
         | [_; ty; id; st; _; msg] =>
             if str_eqb ty (lit "1") && str_eqb st (lit "1")
             then Some (id, Eff (Some (status_str Srejected)) None None (Some msg) None None None None) else None
         | _ => None
         end.

  Lemma update_step l o : readable 19 l ->
    update_line ptime f3 f4 l o = LNext (put utarget l o) \/
    (exists x, update_line ptime f3 f4 l o = LFail (put utarget l o) x) \/
    (update_line ptime f3 f4 l o = LSkip /\ exists id e, utarget l = Some (id, e) /\ dget id o = None).
  Proof.
    intro H. pose proof (readable_nonempty _ _ H) as Hne. unfold update_line, put, utarget.
    destruct (strip l) as [|c0 x0] eqn:Ex; [congruence|]. rewrite <- Ex in *.
    destruct (startswith (lit "updTime") (strip l)) eqn:Eh; [left; reflexivity|].
    destruct H as [_ [Hh|Hc]]; [apply header_iff in Hh; congruence|].
    replace (Nat.ltb (length (columns (strip l))) 20) with false
      by (symmetry; apply Nat.ltb_ge; rewrite columns_length; lia).
    destruct (uline_of (columns (strip l))) as [u|]; [|right; left; eauto].
    destruct (dget (ul_id u) o) as [i|] eqn:Ed; [|right; right; split; [reflexivity|]; eexists _, _; split; [reflexivity|exact Ed]].
    pose proof (update_order_eff u i) as X. destruct (update_order ptime f3 f4 u i) as [i' [x|]]; cbn in X; subst i'.
    - right; left. eauto.
    - left. reflexivity.
  Qed.
  Lemma pending_stop_aux n t : t <> [] -> pending n t -> strip t = [] \/
    (startswith (lit "updTime") (strip t) = false /\ (length (columns (strip t)) <= n)%nat).
  Proof.
    intros _ (_ & Hh & Hc). right. split; [|rewrite columns_length; lia].
    destruct (startswith (lit "updTime") (strip t)) eqn:E; [|reflexivity]. apply header_iff in E. contradiction.
  Qed.
  Lemma update_stop t o : t <> [] -> pending 19 t -> update_line ptime f3 f4 t o = LStop.
  Proof.
    intros Ht Hp. unfold update_line. destruct (pending_stop_aux _ _ Ht Hp) as [E|[E1 E2]].
    - rewrite E. reflexivity.
    - destruct (strip t) eqn:Ex; [reflexivity|]. rewrite <- Ex in *. rewrite E1.
      replace (Nat.ltb (length (columns (strip t))) 20) with true by (symmetry; apply Nat.ltb_lt; lia). reflexivity.
  Qed.

  Lemma result_step l o : readable 5 l ->
    result_line l o = LNext (put rtarget l o) \/
    (exists x, result_line l o = LFail (put rtarget l o) x) \/
    (result_line l o = LSkip /\ exists id e, rtarget l = Some (id, e) /\ dget id o = None).
  Proof.
    intro H. pose proof (readable_nonempty _ _ H) as Hne. unfold result_line, put, rtarget.
    destruct (strip l) as [|c0 x0] eqn:Ex; [congruence|]. rewrite <- Ex in *.
    destruct (startswith (lit "updTime") (strip l)) eqn:Eh; [left; reflexivity|].
    destruct H as [_ [Hh|Hc]]; [apply header_iff in Hh; congruence|].
    pose proof (columns_length l) as Hl.
    destruct (columns (strip l)) as [|a [|b [|c [|d [|e [|f [|g r]]]]]]]; cbn in Hl; try lia.
    - destruct (str_eqb b (lit "1") && str_eqb d (lit "1")); [|left; reflexivity].
      destruct (dget c o); left; reflexivity.
    - right; left. cbn [length Nat.ltb Nat.leb]. eexists; reflexivity.
  Qed.
  Lemma result_stop t o : t <> [] -> pending 5 t -> result_line t o = LStop.
  Proof.
    intros Ht Hp. unfold result_line. destruct (pending_stop_aux _ _ Ht Hp) as [E|[E1 E2]].
    - rewrite E. reflexivity.
    - destruct (strip t) eqn:Ex; [reflexivity|]. rewrite <- Ex in *. rewrite E1.
      destruct (columns (strip t)) as [|a [|b [|c [|d [|e [|f r]]]]]]; try reflexivity. cbn in E2. lia.
  Qed.
  Lemma result_never_skips l o : result_line l o <> LSkip.
  Proof.
    unfold result_line. destruct (strip l); [discriminate|]. destruct (startswith _ _); [discriminate|].
    destruct (columns _) as [|a [|b [|c [|d [|e [|f [|g r']]]]]]]; try discriminate.
    destruct (str_eqb b (lit "1") && str_eqb d (lit "1")); [|discriminate]. destruct (dget c o); discriminate.
  Qed.

  Lemma utarget_iff l id : (exists e, utarget l = Some (id, e)) <-> update_for id l.
  Proof.
    unfold utarget, update_for. rewrite <- header_iff. destruct (startswith (lit "updTime") (strip l)).
    { split; [intros [e H]; discriminate|intros [H _]; congruence]. }
    pose proof (columns_length l) as Hl. pose proof (columns_nth l 17) as Hn.
    split.
    - intros [e H]. destruct (columns (strip l)) as [|c0 [|c1 [|c2 [|c3 [|c4 [|c5 [|c6 [|c7 [|c8 [|c9 [|c10 [|c11 [|c12 [|c13 [|c14 [|c15 [|c16 [|c17 [|c18 [|c19 [|c20 r]]]]]]]]]]]]]]]]]]]]]; cbn in H; try discriminate.
      injection H as H _. cbn in Hl, Hn. split; [congruence|]. split; [lia|]. rewrite <- Hn by lia. exact H.
    - intros (_ & Hc & Hi). rewrite Hc in Hl. rewrite Hi in Hn.
      destruct (columns (strip l)) as [|c0 [|c1 [|c2 [|c3 [|c4 [|c5 [|c6 [|c7 [|c8 [|c9 [|c10 [|c11 [|c12 [|c13 [|c14 [|c15 [|c16 [|c17 [|c18 [|c19 [|c20 r]]]]]]]]]]]]]]]]]]]]]; cbn in Hl; try lia.
      cbn in Hn. rewrite <- Hn by lia. cbn. eauto.
  Qed.
  Lemma rtarget_iff l id : (exists e, rtarget l = Some (id, e)) <-> reject_for id l.
  Proof.
    unfold rtarget, reject_for. rewrite <- header_iff. destruct (startswith (lit "updTime") (strip l)).
    { split; [intros [e H]; discriminate|intros [H _]; congruence]. }
    pose proof (columns_length l) as Hl. pose proof (columns_nth l 1) as H1. pose proof (columns_nth l 2) as H2. pose proof (columns_nth l 3) as H3.
    split.
    - intros [x H]. destruct (columns (strip l)) as [|a [|b [|c [|d [|e [|f [|g r]]]]]]]; try discriminate.
      cbn in Hl, H1, H2, H3. rewrite <- H1, <- H2, <- H3 by lia.
      destruct (str_eqb b (lit "1") && str_eqb d (lit "1")) eqn:E; [|discriminate]. apply andb_prop in E. destruct E as [E1 E2].
      apply str_eqb_eq in E1, E2. injection H as H _. split; [congruence|]. split; [lia|]. auto.
    - intros (_ & Hc & K1 & K3 & K2). rewrite Hc in *. destruct (columns (strip l)) as [|a [|b [|c [|d [|e [|f [|g r]]]]]]]; cbn in Hl; try lia.
      cbn in H1, H2, H3. rewrite H1, H3, K1, K3 by lia. rewrite !str_eqb_refl. cbn [andb]. rewrite H2, K2 by lia. eauto.
  Qed.
End Readers.
