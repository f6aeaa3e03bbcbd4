(** Lemmas about the AnXin gate: code translation and the files written. *)
From Verif Require Import PyBase PyStr LStr MTime MDate LDate MOrder MAccount MApi SAccount LAccount3 LApi MGate SGate.
Open Scope Z_scope.

(** ** replace *)
Lemma startswith_iff p s : startswith p s = true <-> exists r, s = p ++ r.
Proof.
  revert s; induction p as [|a p IH]; intro s; cbn.
  - split; eauto.
  - destruct s as [|b s]; [split; [discriminate|intros [r H]; discriminate]|].
    rewrite andb_true_iff, N.eqb_eq, IH. split.
    + intros [-> [r ->]]. exists r. reflexivity.
    + intros [r H]. injection H as -> ->. eauto.
Qed.
Lemma endswith_iff p s : endswith p s = true <-> exists r, s = r ++ p.
Proof.
  unfold endswith. rewrite startswith_iff. split; intros [r H].
  - exists (rev r). rewrite <- (rev_involutive s), H, rev_app_distr, !rev_involutive. reflexivity.
  - exists (rev r). rewrite H, rev_app_distr. reflexivity.
Qed.
Lemma app_suffix_eq {A} (a b c d : list A) : length b = length d -> a ++ b = c ++ d -> a = c /\ b = d.
Proof.
  intros Hl H. apply (f_equal (@rev A)) in H. rewrite !rev_app_distr in H.
  assert (X : rev b = rev d /\ rev a = rev c).
  { clear - H Hl. rewrite <- (rev_length b), <- (rev_length d) in Hl. revert Hl H.
    generalize (rev a) (rev b) (rev c) (rev d). intros x y z w. revert w.
    induction y as [|h y IH]; intros [|k w] L E; cbn in *; try discriminate; auto.
    injection E as -> E. destruct (IH w) as [-> ->]; auto. }
  destruct X as [X Y]. rewrite <- (rev_involutive a), <- (rev_involutive b), X, Y, !rev_involutive. auto.
Qed.
(** a word whose first letter does not occur before it *)
Lemma replace_skip old new n s : replace_aux n old new s = replace_aux 0 old new (skipn n s).
Proof.
  revert n; induction s as [|a s IH]; intros [|n]; cbn [replace_aux skipn]; auto.
Qed.
Lemma replace_pre c old new d s :
  ~ In c d -> replace_aux 0 (c :: old) new (d ++ s) = d ++ replace_aux 0 (c :: old) new s.
Proof.
  induction d as [|a d IH]; intro H; [reflexivity|]. cbn [app replace_aux startswith].
  destruct (N.eqb_spec c a) as [->|]; [exfalso; apply H; left; reflexivity|]. cbn [andb].
  f_equal. apply IH. intro X. apply H. right. exact X.
Qed.

Lemma encode_SZ d sep : ~ In 88%N d -> encode (d ++ sep :: lit "XSHE") = Ok (d ++ sep :: lit "SZ").
Proof.
  intro H. unfold encode.
  replace (endswith (lit "XSHE") (d ++ sep :: lit "XSHE")) with true
    by (symmetry; apply endswith_iff; exists (d ++ [sep]); rewrite <- app_assoc; reflexivity).
  f_equal. unfold replace. change (lit "XSHE") with (88 :: lit "SHE")%N. rewrite replace_pre by exact H. f_equal.
  cbn. destruct sep as [|p]; [reflexivity|]. do 7 (destruct p as [p|p|]; try reflexivity).
Qed.
Lemma encode_SH d sep : ~ In 88%N d -> encode (d ++ sep :: lit "XSHG") = Ok (d ++ sep :: lit "SH").
Proof.
  intro H. unfold encode.
  replace (endswith (lit "XSHE") (d ++ sep :: lit "XSHG")) with false.
  2:{ symmetry. apply not_true_is_false. intro X. apply endswith_iff in X. destruct X as [r X].
      change (d ++ sep :: lit "XSHG") with (d ++ [sep] ++ lit "XSHG") in X. rewrite app_assoc in X.
      apply app_suffix_eq in X; [|reflexivity]. destruct X as [_ X]. discriminate. }
  replace (endswith (lit "XSHG") (d ++ sep :: lit "XSHG")) with true
    by (symmetry; apply endswith_iff; exists (d ++ [sep]); rewrite <- app_assoc; reflexivity).
  f_equal. unfold replace. change (lit "XSHG") with (88 :: lit "SHG")%N. rewrite replace_pre by exact H. f_equal.
  cbn. destruct sep as [|p]; [reflexivity|]. do 7 (destruct p as [p|p|]; try reflexivity).
Qed.
Lemma decode_SZ d sep : ~ In 83%N d -> decode (d ++ sep :: lit "SZ") = Ok (d ++ sep :: lit "XSHE").
Proof.
  intro H. unfold decode.
  replace (endswith (lit "SZ") (d ++ sep :: lit "SZ")) with true
    by (symmetry; apply endswith_iff; exists (d ++ [sep]); rewrite <- app_assoc; reflexivity).
  f_equal. unfold replace. change (lit "SZ") with (83 :: lit "Z")%N. rewrite replace_pre by exact H. f_equal.
  cbn. destruct sep as [|p]; [reflexivity|]. do 7 (destruct p as [p|p|]; try reflexivity).
Qed.
Lemma decode_SH d sep : ~ In 83%N d -> decode (d ++ sep :: lit "SH") = Ok (d ++ sep :: lit "XSHG").
Proof.
  intro H. unfold decode.
  replace (endswith (lit "SZ") (d ++ sep :: lit "SH")) with false.
  2:{ symmetry. apply not_true_is_false. intro X. apply endswith_iff in X. destruct X as [r X].
      change (d ++ sep :: lit "SH") with (d ++ [sep] ++ lit "SH") in X. rewrite app_assoc in X.
      apply app_suffix_eq in X; [|reflexivity]. destruct X as [_ X]. discriminate. }
  replace (endswith (lit "SH") (d ++ sep :: lit "SH")) with true
    by (symmetry; apply endswith_iff; exists (d ++ [sep]); rewrite <- app_assoc; reflexivity).
  f_equal. unfold replace. change (lit "SH") with (83 :: lit "H")%N. rewrite replace_pre by exact H. f_equal.
  cbn. destruct sep as [|p]; [reflexivity|]. do 7 (destruct p as [p|p|]; try reflexivity).
Qed.

Lemma digit_chars_no udigit c d : (c < 128)%N -> is_digit c = false -> Forall (digit_char udigit) d -> ~ In c d.
Proof.
  intros Hc Hd F X. rewrite Forall_forall in F. specialize (F _ X). unfold digit_char in F.
  replace (c <? 128)%N with true in F by (symmetry; apply N.ltb_lt; exact Hc).
  unfold is_digit in Hd. rewrite (proj2 (N.leb_le _ _) (proj1 F)), (proj2 (N.leb_le _ _) (proj2 F)) in Hd. discriminate.
Qed.
(** the code of an accepted order and its symbol *)
Lemma encode_form udigit sep code : code_form udigit sep code ->
  exists d sym, encode code = Ok sym /\ symbol_of code sym /\ decode sym = Ok code /\
    d <> [] /\ Forall (digit_char udigit) d /\
    (sym = d ++ sep :: lit "SZ" \/ sym = d ++ sep :: lit "SH").
Proof.
  intros (d & e & -> & Hd & F & He).
  pose proof (digit_chars_no udigit 88 d ltac:(lia) eq_refl F) as HX.
  pose proof (digit_chars_no udigit 83 d ltac:(lia) eq_refl F) as HS.
  destruct He as [-> | ->].
  - exists d, (d ++ sep :: lit "SZ"). rewrite encode_SZ, decode_SZ by assumption. repeat split; auto.
    exists d, sep. left. auto.
  - exists d, (d ++ sep :: lit "SH"). rewrite encode_SH, decode_SH by assumption. repeat split; auto.
    exists d, sep. right. auto.
Qed.

(** ** columns *)
Lemma has_char_false c s : has_char c s = false <-> ~ In c s.
Proof. rewrite <- has_char_In. destruct (has_char c s); split; congruence. Qed.
Lemma join_In c x l : x <> c -> In x (join_with c l) -> exists w, In w l /\ In x w.
Proof.
  intro Hx. induction l as [|w [|w' l] IH]; cbn [join_with].
  - intros [].
  - intro H. exists w. split; [left; reflexivity|exact H].
  - intro H. apply in_app_or in H. destruct H as [H|[H|H]].
    + exists w. split; [left; reflexivity|exact H].
    + congruence.
    + destruct (IH H) as (v & Hv & Hx'). exists v. split; [right; exact Hv|exact Hx'].
Qed.
Lemma digits_In k z c : In c (digits k z) -> is_digit c = true.
Proof. pose proof (digits_digits k z) as X. rewrite forallb_forall in X. apply X. Qed.
Lemma stamp_plain now : plain (fmt_stamp now).
Proof.
  unfold fmt_stamp, plain, COMMA, NL. split; intro H;
  repeat (apply in_app_or in H; destruct H as [H|H]; [apply digits_In in H; discriminate|]);
  (destruct H as [H|H]; [discriminate|apply digits_In in H; discriminate]).
Qed.
Lemma digit_numeral s : (forall c, In c s -> is_digit c = true) -> numeral s.
Proof.
  intro H. apply Forall_forall. intros c Hc. specialize (H c Hc). unfold is_digit in H. apply andb_prop in H. destruct H as [H1 H2].
  apply N.leb_le in H1. apply N.leb_le in H2. left. lia.
Qed.
Lemma stamp_numeral now : numeral (fmt_stamp now).
Proof.
  unfold fmt_stamp. assert (D : forall k z, numeral (digits k z)) by (intros; apply digit_numeral; intros c; apply digits_In).
  unfold numeral in *. rewrite !Forall_app. repeat split; try apply D. constructor; [right; reflexivity|apply D].
Qed.
Lemma abs_numeral z : numeral (str_of_Z (Z.abs z)).
Proof.
  destruct z as [|p|p]; cbn [Z.abs str_of_Z]; [constructor; [left; split; discriminate|constructor]| |];
    apply digit_numeral; apply Forall_forall; apply str_of_N_digits.
Qed.
Lemma str_of_abs z : py_int (str_of_Z (Z.abs z)) = Some (Z.abs z) /\ plain (str_of_Z (Z.abs z)).
Proof.
  destruct z as [|p|p]; cbn [Z.abs str_of_Z].
  - split; [reflexivity|]. unfold plain, COMMA, NL. cbn. split; intros [H|[]]; discriminate.
  - split; [apply (py_int_str_of_N (Npos p))|]. split; apply has_char_false, str_of_N_no_char; reflexivity.
  - split; [apply (py_int_str_of_N (Npos p))|]. split; apply has_char_false, str_of_N_no_char; reflexivity.
Qed.
Lemma split_plain l : l <> [] -> Forall plain l -> split_on COMMA (join_with COMMA l) = l /\ ~ In NL (join_with COMMA l).
Proof.
  intros Hl F. split.
  - apply split_join; [exact Hl|]. eapply Forall_impl; [|exact F]. intros a [H _]. apply has_char_false, H.
  - intro H. apply join_In in H; [|discriminate]. destruct H as (w & Hw & H). rewrite Forall_forall in F. apply (F _ Hw), H.
Qed.
Lemma plain_lit_dec s : forallb (fun c => negb (c =? COMMA)%N && negb (c =? NL)%N) s = true -> plain s.
Proof.
  rewrite forallb_forall. intro H. split; intro X; specialize (H _ X); discriminate.
Qed.

Section Write.
  Context (ptime f3 f4 : str -> option Z) (go : gopts).

  (** what an order that passed the checks does to the files *)
  Lemma gate_order_form udigit sep o g :
    go_acct go <> [] -> go_stock go = true -> o_side o = Long -> code_form udigit sep (o_code o) ->
    exists sym, encode (o_code o) = Ok sym /\ symbol_of (o_code o) sym /\
      let e := gs_env g in
      let d := ge_date e in
      let line := join_with COMMA (order_fields go (ge_now e) o sym) ++ go_eol go in
      gate_order go o g =
        (let '(r, txt) := write_line go order_header line (text_of d (gs_ofile g)) (ge_write e) in
         let g1 := set_ofile (dset d txt (gs_ofile g)) g in
         match r with
         | Err x => (Err x, g1)
         | Ok _ => save_orders (set_gorders (dset (o_id o) (json o) (gs_orders g)) g1)
         end).
  Proof.
    intros Ha Hs Hl Hf. destruct (encode_form _ _ _ Hf) as (d & sym & He & Hsy & _).
    exists sym. split; [exact He|]. split; [exact Hsy|]. cbn zeta. unfold gate_order.
    destruct (go_acct go); [congruence|]. rewrite Hs, Hl, He. reflexivity.
  Qed.

  Lemma save_orders_spec g : exists r, fst (save_orders g) = r /\
    snd (save_orders g) = (match r with Ok _ => set_data (dset (gs_day g) (gs_orders g) (gs_data g)) g | Err _ => g end).
  Proof.
    unfold save_orders. destruct (forallb _ _); [|eexists; split; reflexivity].
    destruct (ge_save (gs_env g)); eexists; split; reflexivity.
  Qed.
  Lemma save_orders_files g :
    let g' := snd (save_orders g) in
    gs_orders g' = gs_orders g /\ gs_uoff g' = gs_uoff g /\ gs_roff g' = gs_roff g /\ gs_day g' = gs_day g /\
    gs_ofile g' = gs_ofile g /\ gs_cfile g' = gs_cfile g /\ gs_rfile g' = gs_rfile g /\ gs_ufile g' = gs_ufile g /\
    gs_env g' = gs_env g.
  Proof.
    destruct (save_orders_spec g) as (r & _ & ->). destruct r; cbn; repeat split.
  Qed.
End Write.
