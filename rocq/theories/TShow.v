(** C146: what the texts of orders and positions tell. *)
From Verif Require Import PyBase PyStr LStr SDate MTime MDate LDate MOrder MAccount MGate SGate LGate MShow.
From Coq Require Import String.
Open Scope list_scope.
Open Scope Z_scope.

(** ** Specification *)
(** a way to print figures: different figures look different, without commas, and none looks like None *)
Definition prints (num : Z -> str) : Prop :=
  (forall a b, num a = num b -> a = b) /\ (forall a, ~ In COMMA (num a)) /\ (forall a, num a <> lit "None").
(** two styles of the same kind whose prices look the same *)
Definition alike (s s' : style) : Prop :=
  match s, s' with
  | Market p, Market p' => pval_str p = pval_str p'
  | Limit p, Limit p' => pval_str p = pval_str p'
  | _, _ => False
  end.
Definition price_of (s : style) : pval := match s with Market p | Limit p => p end.
(** texts without commas *)
Definition simple (o : order) : Prop := ~ In COMMA (o_id o) /\ ~ In COMMA (o_code o) /\ ~ In COMMA (pval_str (price_of (o_style o))).
(** the orders agree on what is printed *)
Definition agree_shown (o o' : order) : Prop :=
  o_id o = o_id o' /\ o_code o = o_code o' /\ o_amount o = o_amount o' /\ alike (o_style o) (o_style o') /\ o_status o = o_status o' /\
  o_action o = o_action o' /\ o_side o = o_side o' /\ o_filled o = o_filled o' /\ o_avg o = o_avg o' /\ o_deal o = o_deal o' /\
  o_canceled o = o_canceled o' /\ o_create o = o_create o'.

(** ** Lemmas *)
Lemma comma_app s t : ~ In COMMA s -> ~ In COMMA t -> ~ In COMMA (s ++ t).
Proof. intros H1 H2 H. apply in_app_or in H as [H|H]; auto. Qed.
Lemma comma_lit s : has_char COMMA s = false -> ~ In COMMA s.
Proof. apply has_char_false. Qed.
Lemma split_eq l l' : l <> [] -> l' <> [] -> Forall (fun w => ~ In COMMA w) l -> Forall (fun w => ~ In COMMA w) l' ->
  join_with COMMA l = join_with COMMA l' -> l = l'.
Proof.
  intros H1 H2 F1 F2 E. rewrite <- (split_join COMMA l H1), <- (split_join COMMA l' H2), E; [reflexivity| |];
    (eapply Forall_impl; [|eassumption]; intros w Hw; apply has_char_false, Hw).
Qed.
Lemma str_of_Z_simple z : ~ In COMMA (str_of_Z z).
Proof.
  destruct z as [|p|p]; [intros [H|[]]; discriminate|apply (str_of_abs (Zpos p))|]. intros [H|H]; [discriminate|]. exact (proj1 (proj2 (str_of_abs (Zpos p))) H).
Qed.
Lemma str_of_Z_inj a b : str_of_Z a = str_of_Z b -> a = b.
Proof.
  assert (P : forall a b, 0 <= a -> 0 <= b -> str_of_Z a = str_of_Z b -> a = b).
  { intros x y Hx Hy E. pose proof (proj1 (str_of_abs x)) as X. pose proof (proj1 (str_of_abs y)) as Y. rewrite Z.abs_eq in X, Y by assumption. congruence. }
  assert (D : forall a p, 0 <= a -> str_of_Z a <> 45%N :: str_of_N (Npos p)).
  { intros x p Hx E. pose proof (abs_numeral x) as X. rewrite Z.abs_eq in X by exact Hx. rewrite E in X. inversion X as [|? ? [H|H] _]; subst; [lia|discriminate]. }
  destruct a as [|p|p], b as [|q|q]; intro E; try (apply P; [lia|lia|exact E]); try (exfalso; (apply (D _ _) in E; [exact E|lia])); try (exfalso; symmetry in E; (apply (D _ _) in E; [exact E|lia])).
  cbn [str_of_Z] in E. apply (f_equal (@tl N)) in E. cbn [tl] in E.
  assert (X : Zpos p = Zpos q) by (apply P; [lia|lia|exact E]). congruence.
Qed.
Lemma fmt_dt_length t : List.length (fmt_dt t) = 26%nat.
Proof. unfold fmt_dt. destruct (civil_of_days (dt_date t)) as [[y m] d]. repeat (rewrite app_length || cbn [List.length] || rewrite digits_length). reflexivity. Qed.
Lemma fmt_dt_without c t : is_digit c = false -> ~ In c [45; 32; 58; 46]%N -> ~ In c (fmt_dt t).
Proof.
  intros Hc Hs. unfold fmt_dt. destruct (civil_of_days (dt_date t)) as [[y m] d]. intro H.
  assert (D : forall k z, ~ In c (digits k z)) by (intros k z X; apply digits_In in X; congruence).
  repeat (apply in_app_or in H as [H|H]; [exact (D _ _ H)|]; destruct H as [H|H]; [subst c; apply Hs; cbn; tauto|]). exact (D _ _ H).
Qed.
Lemma fmt_dt_simple t : ~ In COMMA (fmt_dt t).
Proof. apply fmt_dt_without; [reflexivity|]. cbn. intuition discriminate. Qed.
Lemma fmt_dt_inj t t' : date_ok (dt_date t) -> date_ok (dt_date t') -> fmt_dt t = fmt_dt t' -> t = t'.
Proof. intros H H' E. pose proof (parse_fmt_dt t H) as X. pose proof (parse_fmt_dt t' H') as X'. rewrite E in X. congruence. Qed.
Lemma time_us t : dt_time t mod US = t mod US.
Proof.
  unfold dt_time. pose proof (Z.div_mod t DAY ltac:(unfold DAY, US; lia)) as E. set (r := t mod DAY) in *. set (q := t / DAY) in *. clearbody r q.
  assert (X : t = r + 86400 * q * US) by (rewrite E; unfold DAY, US; lia). rewrite X, Z.mod_add by discriminate. reflexivity.
Qed.
Lemma fmt_dt_cut t : exists A, fmt_dt t = A ++ 46%N :: digits 6 (dt_time t mod US) /\ List.length A = 19%nat.
Proof.
  unfold fmt_dt. destruct (civil_of_days (dt_date t)) as [[y m] d]. set (x := dt_time t).
  exists (digits 4 y ++ 45%N :: digits 2 m ++ 45%N :: digits 2 d ++ 32%N :: digits 2 (x / US / 3600) ++ 58%N :: digits 2 (x / US / 60 mod 60) ++ 58%N :: digits 2 (x / US mod 60)).
  split; [repeat (rewrite <- app_assoc; cbn [app]; try apply f_equal); reflexivity|repeat (rewrite app_length || cbn [List.length] || rewrite digits_length); reflexivity].
Qed.
Lemma str_dt_whole t : t mod US = 0 -> fmt_dt t = firstn 19 (fmt_dt t) ++ lit ".000000".
Proof.
  intro H. destruct (fmt_dt_cut t) as (A & E & L). rewrite E, time_us, H, firstn_app, L. rewrite (firstn_all2 A) by lia.
  cbn [Nat.sub firstn]. rewrite app_nil_r. reflexivity.
Qed.
Lemma str_dt_inj t t' : date_ok (dt_date t) -> date_ok (dt_date t') -> str_dt t = str_dt t' -> t = t'.
Proof.
  intros H H' E. unfold str_dt in E.
  assert (L : forall t, List.length (firstn 19 (fmt_dt t)) = 19%nat) by (intro; rewrite firstn_length, fmt_dt_length; reflexivity).
  destruct (Z.eqb_spec (t mod US) 0) as [M|M], (Z.eqb_spec (t' mod US) 0) as [M'|M'].
  - apply fmt_dt_inj; try assumption. rewrite (str_dt_whole t M), (str_dt_whole t' M'), E. reflexivity.
  - apply (f_equal (@List.length N)) in E. rewrite L, fmt_dt_length in E. discriminate.
  - apply (f_equal (@List.length N)) in E. rewrite L, fmt_dt_length in E. discriminate.
  - apply fmt_dt_inj; assumption.
Qed.
Lemma str_dt_simple t : ~ In COMMA (str_dt t).
Proof. unfold str_dt. destruct (t mod US =? 0); [|apply fmt_dt_simple]. intro H. apply (fmt_dt_simple t). rewrite <- (firstn_skipn 19). apply in_or_app. left. exact H. Qed.
Lemma status_str_simple x : ~ In COMMA (status_str x).
Proof. apply comma_lit. destruct x; reflexivity. Qed.
Lemma side_str_simple x : ~ In COMMA (side_str x).
Proof. apply comma_lit. destruct x; reflexivity. Qed.
Lemma action_str_simple x : ~ In COMMA (action_str x).
Proof. apply comma_lit. destruct x; reflexivity. Qed.
Lemma show_opt_simple num x : prints num -> ~ In COMMA (show_opt num x).
Proof. intros P. destruct x; [apply P|apply comma_lit; reflexivity]. Qed.
Lemma show_opt_inj num x y : prints num -> show_opt num x = show_opt num y -> x = y.
Proof.
  intros (I & _ & N) E. destruct x as [x|], y as [y|]; cbn in E; [f_equal; apply I, E| |symmetry in E|reflexivity]; exfalso; exact (N _ E).
Qed.
Lemma show_style_alike s s' : show_style s = show_style s' -> alike s s'.
Proof. destruct s, s'; cbn [show_style alike]; intro E; try discriminate; apply app_inv_head in E; apply app_inv_tail in E; exact E. Qed.
Lemma style_simple s : ~ In COMMA (pval_str (price_of s)) -> ~ In COMMA (show_style s).
Proof. intro H. destruct s; cbn [show_style price_of] in *; (apply comma_app; [|apply comma_app; [exact H|]]); apply comma_lit; reflexivity. Qed.

(** ** Orders *)
Definition fields num o : list str :=
      [ lit "UserOrder(order_id=" ++ o_id o; lit " code=" ++ o_code o; lit " amount=" ++ str_of_Z (o_amount o);
        lit " style=" ++ show_style (o_style o) ++ lit ")"; lit " status=" ++ status_str (o_status o);
        lit " action=" ++ action_str (o_action o); lit " side=" ++ side_str (o_side o);
        lit " filled_amount=" ++ str_of_Z (o_filled o); lit " avg_price=" ++ show_opt num (o_avg o); lit " deal_balance=" ++ num (o_deal o);
        lit " canceled_amount=" ++ str_of_Z (o_canceled o); lit " create_time=" ++ str_dt (o_create o) ].
Lemma fields_simple num o : prints num -> simple o -> Forall (fun w => ~ In COMMA w) (fields num o).
Proof.
  intros P (S1 & S2 & S3). pose proof (proj1 (proj2 P)) as C.
  unfold fields. repeat (apply Forall_cons; [apply comma_app; [apply comma_lit; reflexivity|]|]); [exact S1|exact S2|apply str_of_Z_simple| | | | | | | | | |apply Forall_nil].
  - apply comma_app; [apply style_simple, S3|apply comma_lit; reflexivity].
  - apply status_str_simple.
  - apply action_str_simple.
  - apply side_str_simple.
  - apply str_of_Z_simple.
  - apply show_opt_simple, P.
  - apply C.
  - apply str_of_Z_simple.
  - apply str_dt_simple.
Qed.
Theorem C146_order num o o' : prints num -> simple o -> simple o' -> date_ok (dt_date (o_create o)) -> date_ok (dt_date (o_create o')) ->
  show_order num o = show_order num o' -> agree_shown o o'.
Proof.
  intros P S S' D D' E. change (join_with COMMA (fields num o) = join_with COMMA (fields num o')) in E.
  apply split_eq in E; [|discriminate|discriminate|apply fields_simple; assumption|apply fields_simple; assumption].
  assert (X : forall i, nth i (fields num o) [] = nth i (fields num o') []) by (intro; rewrite E; reflexivity). clear E.
  pose proof (X 0%nat) as X0. pose proof (X 1%nat) as X1. pose proof (X 2%nat) as X2. pose proof (X 3%nat) as X3. pose proof (X 4%nat) as X4. pose proof (X 5%nat) as X5.
  pose proof (X 6%nat) as X6. pose proof (X 7%nat) as X7. pose proof (X 8%nat) as X8. pose proof (X 9%nat) as X9. pose proof (X 10%nat) as X10. pose proof (X 11%nat) as X11. clear X.
  unfold fields in *. cbn [nth] in *. apply app_inv_head in X0, X1, X2, X3, X4, X5, X6, X7, X8, X9, X10, X11.
  unfold agree_shown. repeat split.
  - exact X0.
  - exact X1.
  - apply str_of_Z_inj, X2.
  - apply show_style_alike. apply app_inv_tail in X3. exact X3.
  - destruct (o_status o), (o_status o'); reflexivity || discriminate.
  - destruct (o_action o), (o_action o'); reflexivity || discriminate.
  - destruct (o_side o), (o_side o'); reflexivity || discriminate.
  - apply str_of_Z_inj, X7.
  - apply (show_opt_inj num); assumption.
  - apply P, X9.
  - apply str_of_Z_inj, X10.
  - apply str_dt_inj; assumption.
Qed.
(** nothing else is shown: neither the reason of a rejection nor the commission nor the broker's numbers *)
Theorem C146_hidden num o o' : agree_shown o o' -> show_order num o = show_order num o'.
Proof.
  intros (H1 & H2 & H3 & H4 & H5 & H6 & H7 & H8 & H9 & H10 & H11 & H12). unfold show_order. rewrite H1, H2, H3, H5, H6, H7, H8, H9, H10, H11, H12.
  destruct (o_style o), (o_style o'); cbn [alike] in H4; try contradiction; cbn [show_style]; rewrite H4; reflexivity.
Qed.

(** The text opens with a bracket after UserOrder and its last character is never a bracket: the
    one that closes it stands in the middle, after the style. *)
Theorem C146_bracket_refuted num o : exists a b c, show_order num o = lit "UserOrder(" ++ a ++ lit "))," ++ b ++ [c] /\ c <> 41%N.
Proof.
  destruct (str_dt (o_create o)) as [|x l] eqn:E using rev_ind.
  - exfalso. apply (f_equal (@List.length N)) in E. unfold str_dt in E. destruct (o_create o mod US =? 0); [rewrite firstn_length in E|]; rewrite fmt_dt_length in E; discriminate.
  - clear IHl. exists (lit "order_id=" ++ o_id o ++ COMMA :: lit " code=" ++ o_code o ++ COMMA :: lit " amount=" ++ str_of_Z (o_amount o) ++ COMMA :: lit " style=" ++
      (match o_style o with Market p => lit "MarketOrderStyle(price=" ++ pval_str p | Limit p => lit "LimitOrderStyle(price=" ++ pval_str p end)).
    exists (join_with COMMA [ lit " status=" ++ status_str (o_status o);
        lit " action=" ++ action_str (o_action o); lit " side=" ++ side_str (o_side o);
        lit " filled_amount=" ++ str_of_Z (o_filled o); lit " avg_price=" ++ show_opt num (o_avg o); lit " deal_balance=" ++ num (o_deal o);
        lit " canceled_amount=" ++ str_of_Z (o_canceled o); lit " create_time=" ++ l]), x. split.
    + unfold show_order. rewrite E. destruct (o_style o); cbn [show_style join_with];
        repeat (rewrite <- app_assoc; cbn [app lit Ascii.N_of_ascii]; try apply f_equal); reflexivity.
    + intro H. subst x. assert (X : In 41%N (str_dt (o_create o))) by (rewrite E; apply in_or_app; right; left; reflexivity).
      assert (Y : ~ In 41%N (fmt_dt (o_create o))) by (apply fmt_dt_without; [reflexivity|cbn; intuition discriminate]). apply Y.
      unfold str_dt in X. destruct (o_create o mod US =? 0); [|exact X]. rewrite <- (firstn_skipn 19). apply in_or_app. left. exact X.
Qed.

(** ** Positions *)
Definition pfields num p : list str :=
      [ lit "UserPosition(security=" ++ ps_code p; lit " total_amount=" ++ num (ps_amount p); lit " closeable_amount=" ++ num (ps_avail p);
        lit " avg_cost=" ++ num (ps_avg p); lit " side=" ++ side_str (ps_side p); lit " last_price=" ++ show_opt num (ps_last p);
        lit " position_value=" ++ show_opt num (ps_value p) ++ lit ")" ].
Lemma pfields_simple num p : prints num -> ~ In COMMA (ps_code p) -> Forall (fun w => ~ In COMMA w) (pfields num p).
Proof.
  intros P S. pose proof (proj1 (proj2 P)) as C.
  unfold pfields. repeat (apply Forall_cons; [apply comma_app; [apply comma_lit; reflexivity|]|]); [exact S|apply C|apply C|apply C|apply side_str_simple|apply show_opt_simple, P| |apply Forall_nil].
  apply comma_app; [apply show_opt_simple, P|apply comma_lit; reflexivity].
Qed.
(** the text of a position tells all of it *)
Theorem C146_position num p p' : prints num -> ~ In COMMA (ps_code p) -> ~ In COMMA (ps_code p') -> show_pos num p = show_pos num p' -> p = p'.
Proof.
  intros P S S' E. change (join_with COMMA (pfields num p) = join_with COMMA (pfields num p')) in E.
  apply split_eq in E; [|discriminate|discriminate|apply pfields_simple; assumption|apply pfields_simple; assumption].
  assert (X : forall i, nth i (pfields num p) [] = nth i (pfields num p') []) by (intro; rewrite E; reflexivity). clear E.
  pose proof (X 0%nat) as X0. pose proof (X 1%nat) as X1. pose proof (X 2%nat) as X2. pose proof (X 3%nat) as X3. pose proof (X 4%nat) as X4. pose proof (X 5%nat) as X5. pose proof (X 6%nat) as X6. clear X.
  unfold pfields in *. cbn [nth] in *. apply app_inv_head in X0, X1, X2, X3, X4, X5, X6. apply app_inv_tail in X6.
  apply P in X1, X2, X3. apply show_opt_inj in X5; [|exact P]. apply show_opt_inj in X6; [|exact P].
  assert (Y : ps_side p = ps_side p') by (destruct (ps_side p), (ps_side p'); reflexivity || discriminate).
  destruct p, p'; cbn in *. congruence.
Qed.
(** The text of the positions of one side (README.md:58-59) depends on the codes only. *)
Theorem C146_positions_blind addr d d' : dkeys d = dkeys d' -> show_positions addr d = show_positions addr d'.
Proof.
  intro H. unfold show_positions. do 2 f_equal. generalize 0%nat. revert d' H. induction d as [|[k p] d IH]; intros [|[k' p'] d'] H i; try discriminate; [reflexivity|].
  cbn [dkeys map fst] in H. injection H as -> H. cbn [show_items]. rewrite (IH d' H). reflexivity.
Qed.
(** The line of the log that is to show the positions does not show what they are. *)
Theorem C146_positions_refuted :
  ~ (forall addr d d', show_positions addr d = show_positions addr d' -> forall c p p', dget c d = Some p -> dget c d' = Some p' -> ps_amount p = ps_amount p').
Proof.
  intro H. set (c := lit "600000.XSHG"). set (p := fun n => Pos c n n 10 Long (Some 11) (Some (11 * n))).
  specialize (H (fun _ => lit "0x7f") [(c, p 100)] [(c, p 900)] eq_refl c (p 100) (p 900) eq_refl eq_refl). discriminate.
Qed.
Print Assumptions C146_order.
Print Assumptions C146_hidden.
Print Assumptions C146_bracket_refuted.
Print Assumptions C146_position.
Print Assumptions C146_positions_blind.
Print Assumptions C146_positions_refuted.

(** ** Examples *)
Lemma str_of_Z_prints : prints str_of_Z.
Proof.
  split; [exact str_of_Z_inj|]. split; [exact str_of_Z_simple|]. intros z E.
  destruct z as [|p|p]; [discriminate| |discriminate]. pose proof (abs_numeral (Zpos p)) as X. cbn [Z.abs] in X. rewrite E in X. inversion X as [|? ? [H|H] _]; subst; [apply (proj2 H); reflexivity|discriminate].
Qed.
Definition sh_order : order :=
  Order (lit "000001.XSHE") (PNum (lit "10.5")) 300 Open (lit "7") Srejected (Limit (PNum (lit "10.5"))) (19676 * DAY + 34200 * US) None Long None 100 200 1050 (Some 10) 5 (lit "no cash").
Example C146_demo :
  simple sh_order /\ date_ok (dt_date (o_create sh_order)) /\
  show_order str_of_Z sh_order =
    lit "UserOrder(order_id=7, code=000001.XSHE, amount=300, style=LimitOrderStyle(price=10.5)), status=rejected, action=open, side=long, filled_amount=100, avg_price=10, deal_balance=1050, canceled_amount=200, create_time=2023-11-15 09:30:00" /\
  show_pos str_of_Z (Pos (lit "600000.XSHG") 900 600 10 Long (Some 11) None) =
    lit "UserPosition(security=600000.XSHG, total_amount=900, closeable_amount=600, avg_cost=10, side=long, last_price=11, position_value=None)" /\
  show_positions (fun _ => lit "0x7f") [(lit "600000.XSHG", Pos (lit "600000.XSHG") 900 600 10 Long (Some 11) None)] =
    lit "{'600000.XSHG': <jqtrade.account.api.UserPosition object at 0x7f>}" /\
  str_dt (34200 * US + 5) = lit "1970-01-01 09:30:00.000005".
Proof.
  split; [repeat split; apply comma_lit; reflexivity|]. split; [vm_compute; split; discriminate|]. vm_compute. repeat split.
Qed.
