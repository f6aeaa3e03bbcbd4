(** Lemmas about the account model. *)
From Verif Require Import PyBase PyStr LStr MTime MDate LDate SDate LDate2 MOrder MAccount MApi SAccount.
Open Scope Z_scope.

(** ** orders: load and json *)

Lemma get_status_str s : get_status (status_str s) = Ok s.
Proof. destruct s; reflexivity. Qed.
Lemma get_status_inv x s : get_status x = Ok s -> x = status_str s.
Proof.
  unfold get_status, find_name. destruct (find _ _) eqn:E; [|discriminate].
  intro H; apply Ok_inj in H; subst s0. apply find_some in E. destruct E as [_ E].
  apply str_eqb_eq in E. auto.
Qed.
Lemma get_side_str s : get_side (side_str s) = Ok s.
Proof. destruct s; reflexivity. Qed.
Lemma get_side_inv x s : get_side x = Ok s -> x = side_str s.
Proof.
  unfold get_side, find_name. destruct (find _ _) eqn:E; [|discriminate].
  intro H; apply Ok_inj in H; subst s0. apply find_some in E. destruct E as [_ E].
  apply str_eqb_eq in E. auto.
Qed.
Lemma get_action_str a : get_action (action_str a) = Ok a.
Proof. destruct a; reflexivity. Qed.
Lemma get_style_str st : get_style (style_str st) (style_price st) = Ok st.
Proof. destruct st; reflexivity. Qed.
Lemma get_style_price x p st : get_style x p = Ok st -> style_price st = p.
Proof.
  unfold get_style. destruct (str_eqb x (lit "market")); [|destruct (str_eqb x (lit "limit"))];
    intro H; try discriminate; apply Ok_inj in H; subst; reflexivity.
Qed.

Lemma fmt_dt_nonempty dt : fmt_dt dt <> [].
Proof.
  unfold fmt_dt. destruct (civil_of_days (dt_date dt)) as [[y m] d].
  destruct (digits 4 y); discriminate.
Qed.

Lemma load_json o :
  style_price (o_style o) = o_price o ->
  date_ok (dt_date (o_create o)) ->
  (forall t, o_entrust o = Some t -> date_ok (dt_date t)) ->
  load (json o) = Ok o.
Proof.
  intros Hp Hc He. unfold load. cbn [json i_action i_status i_style i_price i_create i_entrust i_side i_code i_amount
    i_id i_confirm i_filled i_canceled i_deal i_avg i_comm i_err].
  rewrite get_action_str; cbn [rbind]. rewrite get_status_str; cbn [rbind].
  rewrite <- Hp, get_style_str; cbn [rbind]. rewrite parse_fmt_dt by exact Hc; cbn [rbind].
  assert (E : (match option_map fmt_dt (o_entrust o) with
               | Some s => if str_eqb s [] then Ok None else do t <- parse_dt s; Ok (Some t)
               | None => Ok None end) = Ok (o_entrust o)).
  { destruct (o_entrust o) as [t|] eqn:Et; cbn [option_map]; [|reflexivity].
    replace (str_eqb (fmt_dt t) []) with false
      by (symmetry; apply str_eqb_neq, fmt_dt_nonempty).
    rewrite parse_fmt_dt by (apply He; reflexivity). reflexivity. }
  rewrite E; cbn [rbind dfl]. rewrite get_side_str; cbn [rbind]. rewrite Hp. destruct o; reflexivity.
Qed.

Lemma load_inv i o : load i = Ok o ->
  agrees i o /\ o_id o = i_id i /\ style_price (o_style o) = o_price o /\ o_code o = i_code i /\
  o_amount o = i_amount i /\ o_err o = dfl (i_err i) [].
Proof.
  unfold load, rbind. intro H.
  destruct (get_action (i_action i)); [|discriminate].
  destruct (get_status (i_status i)) as [st|] eqn:Est; [|discriminate].
  destruct (get_style (i_style i) (i_price i)) as [sty|] eqn:Esty; [|discriminate].
  destruct (parse_dt (i_create i)); [|discriminate].
  match type of H with (match ?x with _ => _ end) = _ => destruct x; [|discriminate] end.
  destruct (get_side _); [|discriminate].
  apply Ok_inj in H. subst o. cbn. apply get_status_inv in Est. apply get_style_price in Esty.
  unfold agrees; cbn. auto 20.
Qed.

Lemma get_action_inv x a : get_action x = Ok a -> x = action_str a.
Proof.
  unfold get_action, find_name. destruct (find _ _) eqn:E; [|discriminate].
  intro H; apply Ok_inj in H; subst a0. apply find_some in E. destruct E as [_ E].
  apply str_eqb_eq in E. auto.
Qed.
Lemma get_style_iff x p st : get_style x p = Ok st <->
  (x = lit "market" /\ st = Market p) \/ (x = lit "limit" /\ st = Limit p).
Proof.
  unfold get_style. split.
  - destruct (str_eqb_spec x (lit "market")); [|destruct (str_eqb_spec x (lit "limit"))];
      intro H; try discriminate; apply Ok_inj in H; subst; auto.
  - intros [[-> ->]|[-> ->]]; reflexivity.
Qed.
Lemma entrust_iff e t :
  (match e with
   | Some s => if str_eqb s [] then Ok None else do v <- parse_dt s; Ok (Some v)
   | None => Ok None
   end) = Ok t <-> entrust_as e t.
Proof.
  unfold entrust_as. destruct e as [[|c s]|].
  - change (str_eqb [] []) with true. cbv iota. destruct t; split; intro H; try discriminate H; try destruct H; try reflexivity; exact I.
  - change (str_eqb (c :: s) []) with false. cbv iota. destruct (parse_dt (c :: s)) as [v|] eqn:E; cbn [rbind].
    + apply parse_dt_iff in E. destruct t as [u|]; split; intro H.
      * apply Ok_inj in H. injection H as <-. exact E.
      * apply parse_dt_iff in E, H. congruence.
      * discriminate H.
      * destruct H.
    + destruct t as [u|]; split; intro H; try discriminate H.
      * apply parse_dt_iff in H. congruence.
      * destruct H.
  - destruct t; split; intro H; try discriminate H; try destruct H; try reflexivity; exact I.
Qed.
Lemma load_iff i o : load i = Ok o <-> denotes i o.
Proof.
  split.
  - intro H. pose proof (load_inv i o H) as (A & B & _ & C & D & E). revert H. unfold load, rbind.
    destruct (get_action (i_action i)) as [act|] eqn:Ea; [|discriminate].
    destruct (get_status (i_status i)) as [st|]; [|discriminate].
    destruct (get_style (i_style i) (i_price i)) as [sty|] eqn:Esty; [|discriminate].
    destruct (parse_dt (i_create i)) as [cr|] eqn:Ec; [|discriminate].
    match goal with |- (match ?x with _ => _ end) = _ -> _ => destruct x as [en|] eqn:Ee; [|discriminate] end.
    destruct (get_side _) as [sd|] eqn:Es; [|discriminate].
    intro H. apply Ok_inj in H. apply get_action_inv in Ea. apply get_style_iff in Esty. apply parse_dt_iff in Ec.
    apply entrust_iff in Ee. apply get_side_inv in Es. subst o. cbn in *. unfold denotes; cbn. auto 20.
  - intros (A & B & C & D & E & F & S & T & U & V & W).
    destruct A as (A1 & A2 & A3 & A4 & A5 & A6 & A7).
    unfold load. rewrite <- F, get_action_str, <- A1, get_status_str; cbn [rbind].
    apply get_style_iff in S. rewrite S; cbn [rbind]. apply parse_dt_iff in T. rewrite T; cbn [rbind].
    apply entrust_iff in U. rewrite U; cbn [rbind]. rewrite <- V, get_side_str; cbn [rbind].
    rewrite <- A2, <- A3, <- A4, <- A5, <- A6, <- A7, <- B, <- C, <- D, <- E, <- W. destruct o; reflexivity.
Qed.
Lemma loadable_iff i : loadable i <-> exists o, load i = Ok o.
Proof. unfold loadable. split; intros [o H]; exists o; apply load_iff, H. Qed.

Lemma same_iff a b : same a b = true <-> ~ changed a b.
Proof.
  unfold same, changed. rewrite !Bool.andb_true_iff, !Z.eqb_eq, !eqb_true. split.
  - intros ((((((A & B) & C) & D) & E) & F) & I) K. apply K. congruence.
  - intro K.
    destruct (eqb_spec (o_status a) (o_status b)); [|exfalso; apply K; congruence].
    destruct (eqb_spec (o_confirm a) (o_confirm b)); [|exfalso; apply K; congruence].
    destruct (Z.eq_dec (o_filled a) (o_filled b)); [|exfalso; apply K; congruence].
    destruct (Z.eq_dec (o_canceled a) (o_canceled b)); [|exfalso; apply K; congruence].
    destruct (Z.eq_dec (o_deal a) (o_deal b)); [|exfalso; apply K; congruence].
    destruct (eqb_spec (o_avg a) (o_avg b)); [|exfalso; apply K; congruence].
    destruct (Z.eq_dec (o_comm a) (o_comm b)); [|exfalso; apply K; congruence].
    auto 20.
Qed.

Lemma same_fields a b : same a b = true ->
  o_status a = o_status b /\ o_confirm a = o_confirm b /\ o_filled a = o_filled b /\
  o_canceled a = o_canceled b /\ o_deal a = o_deal b /\ o_avg a = o_avg b /\ o_comm a = o_comm b.
Proof.
  unfold same. rewrite !Bool.andb_true_iff, !Z.eqb_eq, !eqb_true. tauto.
Qed.

(** ** argument checks *)

Section Checks.
  Context (udigit : N -> bool).

  Lemma isdigit_cp_iff c : isdigit_cp udigit c = true <-> digit_char udigit c.
  Proof.
    unfold isdigit_cp, digit_char. destruct (c <? 128)%N; [|reflexivity].
    unfold is_digit. rewrite Bool.andb_true_iff, !N.leb_le. reflexivity.
  Qed.
  Lemma isdigit_iff s : isdigit udigit s = true <-> s <> [] /\ Forall (digit_char udigit) s.
  Proof.
    unfold isdigit. destruct s as [|c s]; [split; [discriminate|intros [H _]; congruence]|].
    rewrite forallb_forall, Forall_forall. split.
    - intro H; split; [discriminate|]. intros x Hx; apply isdigit_cp_iff, H, Hx.
    - intros [_ H] x Hx; apply isdigit_cp_iff, H, Hx.
  Qed.

  Lemma check_code_iff c code :
    check_code udigit c = Ok code <-> c = CStr code /\ exists sep, code_form udigit sep code.
  Proof.
    unfold check_code. destruct c as [s| |]; [|split; [discriminate|intros [H _]; discriminate]..].
    destruct ((str_eqb (last_n 4 s) (lit "XSHE") || str_eqb (last_n 4 s) (lit "XSHG")) && isdigit udigit (but_last_n 5 s)) eqn:E.
    - apply Bool.andb_true_iff in E. destruct E as [E1 E2]. apply Bool.orb_true_iff in E1. rewrite !str_eqb_eq in E1.
      apply isdigit_iff in E2. destruct E2 as [E2 E3].
      assert (H : exists sep, code_form udigit sep s).
      { unfold but_last_n in *. unfold last_n in E1.
        assert (Hl : (length s > 5)%nat).
        { destruct (le_lt_dec (length s) 5); [|lia]. exfalso; apply E2.
          replace (length s - 5)%nat with 0%nat by lia. reflexivity. }
        pose proof (firstn_skipn (length s - 5) s) as F.
        destruct (skipn (length s - 5) s) as [|sep e] eqn:Es.
        { apply (f_equal (@length N)) in Es. rewrite skipn_length in Es; cbn in Es; lia. }
        assert (Ee : skipn (length s - 4) s = e).
        { replace (length s - 4)%nat with (1 + (length s - 5))%nat by lia.
          clear - Es. revert Es. generalize (length s - 5)%nat. intro n; revert s; induction n; intros s H.
          - cbn in H. subst s. reflexivity.
          - destruct s; [discriminate|]. cbn in *. apply (IHn _ H). }
        rewrite Ee in E1. exists sep, (firstn (length s - 5) s), e. auto. }
      split; [intro X; apply Ok_inj in X; subst; auto|intros [X _]; congruence].
    - split; [discriminate|]. intros [X [sep (d & e & Hs & Hd & Hf & He)]]. injection X as ->. exfalso.
      assert (Hle : length e = 4%nat) by (destruct He; subst e; reflexivity).
      assert (A : last_n 4 code = e).
      { unfold last_n. subst code. rewrite app_length. cbn [length]. rewrite Hle.
        replace (length d + 5 - 4)%nat with (length (d ++ [sep]) )%nat by (rewrite app_length; cbn; lia).
        change (sep :: e) with ([sep] ++ e). rewrite app_assoc, skipn_app, skipn_all, Nat.sub_diag. reflexivity. }
      assert (B : but_last_n 5 code = d).
      { unfold but_last_n. subst code. rewrite app_length. cbn [length]. rewrite Hle.
        replace (length d + 5 - 5)%nat with (length d + 0)%nat by lia. rewrite firstn_app_2. cbn. apply app_nil_r. }
      rewrite A, B in E. rewrite (proj2 (isdigit_iff d) (conj Hd Hf)), Bool.andb_true_r in E.
      destruct He; subst e; discriminate.
  Qed.
  Lemma check_code_err c e : check_code udigit c = Err e -> e = InvalidParam \/ (e = TypeError /\ c = CAny).
  Proof.
    unfold check_code. destruct c as [s| |]; [destruct (_ && _)|..]; intro H; try discriminate; injection H as <-; auto.
  Qed.

  Lemma check_amount_iff n z : check_amount n = Ok z <-> amount_form n z.
  Proof.
    unfold check_amount, amount_val, amount_form. destruct n as [x|[]|].
    - destruct (Z.eqb_spec x 0); split; intro H; try discriminate.
      + destruct H as [[H1 H2]|[H1 _]]; [congruence|discriminate].
      + apply Ok_inj in H; subst; auto.
      + destruct H as [[H1 H2]|[H1 _]]; [congruence|discriminate].
    - cbn. split; intro H; [apply Ok_inj in H; subst; auto|destruct H as [[H1 H2]|[_ H1]]; [discriminate|congruence]].
    - cbn. split; intro H; [discriminate|destruct H as [[H1 H2]|[H1 _]]; discriminate].
    - split; intro H; [discriminate|destruct H as [[H1 H2]|[H1 _]]; discriminate].
  Qed.
  Lemma check_amount_err n e : check_amount n = Err e -> e = InvalidParam.
  Proof. unfold check_amount. destruct (amount_val n); [destruct (_ =? _)|]; intro H; congruence. Qed.
  Lemma check_style_iff st s : check_style st = Ok s <-> style_form st s.
  Proof.
    unfold check_style, style_form. destruct st; split; intro H; try discriminate.
    - apply Ok_inj in H; subst; auto.
    - destruct H as [H|[_ H]]; [discriminate|subst; reflexivity].
    - apply Ok_inj in H; subst; auto.
    - destruct H as [H|[H _]]; [congruence|discriminate].
    - destruct H as [H|[H _]]; discriminate.
  Qed.
  Lemma check_style_err st e : check_style st = Err e -> e = InvalidParam.
  Proof. destruct st; cbn; congruence. Qed.
  Lemma check_side_iff sd s : check_side sd = Ok s <-> side_form sd s.
  Proof.
    destruct sd as [|x| |]; try (destruct s; cbn; split; intro H; (discriminate || (repeat destruct H as [H|H]; congruence))).
    - destruct s; cbn; split; intro H; auto; congruence.
    - destruct x as [|c x]; [destruct s; cbn; split; intro H; auto; try congruence; repeat destruct H as [H|H]; discriminate|].
      unfold check_side. destruct (get_side (c :: x)) as [d|] eqn:E.
      + apply get_side_inv in E. rewrite E. destruct d, s; cbn; split; intro H; auto; try congruence;
          repeat destruct H as [H|H]; congruence.
      + split; [discriminate|]. intro H. exfalso.
        destruct s; cbn [side_form] in H; [destruct H as [H|[H|H]]|]; try discriminate; injection H as H1 H2; subst; discriminate.
  Qed.
  Lemma check_side_err sd e : check_side sd = Err e -> e = InvalidParam \/ (e = TypeError /\ sd = SdUnhash).
  Proof.
    destruct sd as [|[|c x]| |]; unfold check_side; try (cbn; intro H; injection H as <-; auto; fail); try (cbn; discriminate).
    destruct (get_side (c :: x)); intro H; [discriminate|injection H as <-; auto].
  Qed.
End Checks.
