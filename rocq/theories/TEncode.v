(** C159: what the gate writes is in the encoding it was told to use. *)
From Coq Require Import String.
From Verif Require Import PyBase PyStr MTime MDate MOrder MAccount MApi MGate MCodec MEncode SCodec SEncode LStr LGate TCodec TUtf8.
Open Scope list_scope.
Open Scope Z_scope.

Lemma enc_iff e t : forall b, enc_text e t = Some b <-> spelled e t b.
Proof.
  induction t as [|c t IH]; intro b; cbn [enc_text].
  - split; [intros [= <-]; exists []; split; [constructor|reflexivity]|intros (bs & F & ->); inversion F; reflexivity].
  - split.
    + destruct (e c) as [x|] eqn:E; [|discriminate]. destruct (enc_text e t) as [y|]; [|discriminate]. intros [= <-].
      destruct (proj1 (IH y) eq_refl) as (bs & F & ->). exists (x :: bs). split; [constructor; assumption|reflexivity].
    + intros (bs & F & ->). inversion F as [|? x ? bs' E F']; subst. rewrite E.
      rewrite (proj2 (IH (concat bs'))) by (exists bs'; split; [exact F'|reflexivity]). reflexivity.
Qed.
Lemma can_iff e t : can e t <-> enc_text e t <> None.
Proof.
  split; [intros (b & S); apply enc_iff in S; congruence|]. intro H. destruct (enc_text e t) as [b|] eqn:E; [|congruence]. exists b. apply enc_iff, E.
Qed.
Lemma spelled_nil e : spelled e [] [].
Proof. exists []. split; [constructor|reflexivity]. Qed.
Lemma spelled_app e t t' b b' : spelled e t b -> spelled e t' b' -> spelled e (t ++ t') (b ++ b').
Proof.
  intros (x & F & ->) (y & F' & ->). exists (x ++ y). split; [apply Forall2_app; assumption|rewrite concat_app; reflexivity].
Qed.
Lemma can_tail e t t' : can e (t ++ t') -> can e t'.
Proof.
  intros (b & bs & F & _). apply Forall2_app_inv_l in F as (x & y & _ & F & _). exists (concat y), y. split; [exact F|reflexivity].
Qed.
Lemma can_chars e t : can e t <-> Forall (fun c => e c <> None) t.
Proof.
  split.
  - intros (b & bs & F & _). induction F; constructor; [congruence|assumption].
  - induction 1 as [|c t Hc _ (b & IH)]; [exists []; apply spelled_nil|]. destruct (e c) as [x|] eqn:E; [|congruence].
    exists (x ++ b). apply (spelled_app e [c] t x b); [|exact IH]. exists [x]. split; [repeat constructor; exact E|cbn; rewrite app_nil_r; reflexivity].
Qed.
Lemma empty_iff e t b : proper e -> spelled e t b -> (t = [] <-> b = []).
Proof.
  intros P (bs & F & ->). inversion F as [|c x t' bs' E F']; subst; [tauto|]. split; [discriminate|]. cbn [concat]. intro H.
  apply app_eq_nil in H as [-> _]. destruct (P c E).
Qed.
Lemma write_same e go h l old oldb : proper e -> spelled e old oldb ->
  let t := snd (write_line go h l old WDone) in
  (can e t -> exists b, write_bytes e go h l oldb WDone = (Ok tt, b) /\ spelled e t b) /\
  (~ can e t -> write_bytes e go h l oldb WDone = (Err ValueError, oldb)).
Proof.
  intros P Sp. cbn zeta. unfold write_line, write_bytes. cbn [snd]. pose proof (empty_iff e _ _ P Sp) as Hn.
  assert (Ep : match oldb with [] => h ++ go_eol go | _ => [] end = match old with [] => h ++ go_eol go | _ => [] end).
  { destruct old, oldb; try reflexivity; [discriminate (proj1 Hn eq_refl)|discriminate (proj2 Hn eq_refl)]. }
  rewrite Ep. set (new := match old with [] => h ++ go_eol go | _ => [] end ++ l). split; intro H.
  - apply can_tail in H. apply can_iff in H. destruct (enc_text e new) as [b|] eqn:E; [|congruence]. exists (oldb ++ b).
    split; [reflexivity|]. apply spelled_app; [exact Sp|apply enc_iff, E].
  - destruct (enc_text e new) as [b|] eqn:E; [|reflexivity]. destruct H. exists (oldb ++ b). apply spelled_app; [exact Sp|apply enc_iff, E].
Qed.
Lemma files_text e f f' d : same_files e f f' -> spelled e (text_of d f) (text_of d f').
Proof.
  intro H. specialize (H d). unfold text_of. destruct (dget d f), (dget d f'); try contradiction; [exact H|apply spelled_nil].
Qed.
Lemma files_set e f f' d t b : same_files e f f' -> spelled e t b -> same_files e (dset d t f) (dset d b f').
Proof.
  intros H Sp d'. destruct (Z.eq_dec d' d) as [->|N]; [rewrite !dget_dset_same; exact Sp|rewrite !dget_dset_other by exact N; apply H].
Qed.
Lemma text_same d t (f : dict Z str) : text_of d (dset d t f) = t.
Proof. unfold text_of. rewrite dget_dset_same. reflexivity. Qed.

(** An order is placed in the bytes as it is in the text if the encoding has all its
    characters; else it fails, and nothing has been written or kept. *)
Theorem C159_order : forall e go o g b, proper e -> coded e g b -> ge_write (gs_env g) = WDone ->
  let '(r, g') := gate_order go o g in
  let d := ge_date (gs_env g) in
  (can e (text_of d (gs_ofile g')) -> exists b', order_bytes e go o b = (r, b') /\ coded e g' b') /\
  (~ can e (text_of d (gs_ofile g')) ->
     exists b', order_bytes e go o b = (Err ValueError, b') /\ coded e (set_ofile (dset d (text_of d (gs_ofile g)) (gs_ofile g)) g) b').
Proof.
  intros e go o g b P C Hw. pose proof (files_text e _ _ (ge_date (gs_env g)) (cx_ofile _ _ _ C)) as St.
  assert (Hold : can e (text_of (ge_date (gs_env g)) (gs_ofile g))) by (eexists; exact St).
  unfold gate_order, order_bytes. destruct (go_acct go) as [|a0 a1]; [cbn zeta; split; [intros _; exists b; split; [reflexivity|exact C]|intro N; destruct (N Hold)]|].
  destruct (negb (go_stock go)); [cbn zeta; split; [intros _; exists b; split; [reflexivity|exact C]|intro N; destruct (N Hold)]|].
  destruct (o_side o); [|cbn zeta; split; [intros _; exists b; split; [reflexivity|exact C]|intro N; destruct (N Hold)]].
  destruct (encode (o_code o)) as [sym|x]; [|cbn zeta; split; [intros _; exists b; split; [reflexivity|exact C]|intro N; destruct (N Hold)]].
  rewrite (cx_env _ _ _ C). cbn zeta. rewrite Hw.
  set (line := join_with COMMA (order_fields go (ge_now (gs_env g)) o sym) ++ go_eol go).
  set (d := ge_date (gs_env g)) in *.
  destruct (write_same e go order_header line _ _ P St) as [W1 W2]. cbn zeta in W1, W2.
  destruct (write_line go order_header line (text_of d (gs_ofile g)) WDone) as [r txt] eqn:Ew.
  assert (r = Ok tt) as -> by (unfold write_line in Ew; congruence). cbn [snd] in W1, W2.
  destruct (save_orders (set_gorders (dset (o_id o) (json o) (gs_orders g)) (set_ofile (dset d txt (gs_ofile g)) g))) as [r g'] eqn:Es.
  assert (Ho : gs_ofile g' = dset d txt (gs_ofile g)).
  { unfold save_orders in Es. cbn [gs_orders set_gorders set_ofile gs_env gs_day gs_data] in Es.
    destruct (forallb _ _); [destruct (ge_save _)|]; injection Es as <- <-; reflexivity. }
  rewrite Ho, text_same. split; intro H.
  - destruct (W1 H) as (b' & -> & Sp). destruct C as [C1 C2 C3 C4 C5 C6 C7 C8 C9 C10].
    unfold save_orders in *. cbn [gs_orders set_gorders set_ofile gs_env gs_day gs_data] in *. rewrite C1, C4, C7, C8.
    destruct (forallb _ _); [destruct (ge_save (gs_env g))|]; injection Es as <- <-; eexists; (split; [reflexivity|]);
      (split; cbn; try assumption; try congruence; apply files_set; assumption).
  - rewrite (W2 H). eexists. split; [reflexivity|]. destruct C as [C1 C2 C3 C4 C5 C6 C7 C8 C9 C10].
    split; cbn; try assumption; try congruence. apply files_set; assumption.
Qed.
Print Assumptions C159_order.

(** The same for the orders' cancellations. *)
Theorem C159_cancel : forall e go id g b, proper e -> coded e g b -> ge_write (gs_env g) = WDone ->
  let '(r, g') := gate_cancel go id g in
  let d := ge_date (gs_env g) in
  (can e (text_of d (gs_cfile g')) -> exists b', cancel_bytes e go id b = (r, b') /\ coded e g' b') /\
  (~ can e (text_of d (gs_cfile g')) ->
     exists b', cancel_bytes e go id b = (Err ValueError, b') /\ coded e (set_cfile (dset d (text_of d (gs_cfile g)) (gs_cfile g)) g) b').
Proof.
  intros e go id g b P C Hw. pose proof (files_text e _ _ (ge_date (gs_env g)) (cx_cfile _ _ _ C)) as St.
  unfold gate_cancel, cancel_bytes. rewrite (cx_env _ _ _ C). cbn zeta. rewrite Hw.
  set (line := join_with COMMA [fmt_stamp (ge_now (gs_env g)); id] ++ go_eol go).
  set (d := ge_date (gs_env g)) in *.
  destruct (write_same e go cancel_header line _ _ P St) as [W1 W2]. cbn zeta in W1, W2.
  destruct (write_line go cancel_header line (text_of d (gs_cfile g)) WDone) as [r txt] eqn:Ew.
  assert (r = Ok tt) as -> by (unfold write_line in Ew; congruence). cbn [snd gs_cfile set_cfile] in *.
  rewrite text_same. destruct C as [C1 C2 C3 C4 C5 C6 C7 C8 C9 C10]. split; intro H.
  - destruct (W1 H) as (b' & -> & Sp). eexists. split; [reflexivity|]. split; cbn; try assumption; try congruence. apply files_set; assumption.
  - rewrite (W2 H). eexists. split; [reflexivity|]. split; cbn; try assumption; try congruence. apply files_set; assumption.
Qed.
Print Assumptions C159_cancel.

(** With an account number the encoding has no characters for no order is ever placed. *)
Theorem C159_account : forall e go o b, ~ can e (go_acct go) -> ge_write (gs_env b) = WDone ->
  exists x b', order_bytes e go o b = (Err x, b') /\ gs_orders b' = gs_orders b /\ gs_data b' = gs_data b /\
    forall d, text_of d (gs_ofile b') = text_of d (gs_ofile b).
Proof.
  intros e go o b N Hw. unfold order_bytes. destruct (go_acct go) as [|a0 a1] eqn:Ea; [repeat econstructor|].
  destruct (negb (go_stock go)); [repeat econstructor|]. destruct (o_side o); [|repeat econstructor].
  destruct (encode (o_code o)) as [sym|x]; [|repeat econstructor]. cbn zeta. rewrite Hw. unfold write_bytes.
  match goal with |- context [enc_text e ?t] => set (text := t) end.
  destruct (enc_text e text) as [y|] eqn:E.
  - exfalso. apply N. assert (Hc : can e text) by (exists y; apply enc_iff, E). apply can_chars in Hc. apply can_chars.
    apply Forall_forall. intros c Hin. apply (proj1 (Forall_forall _ _) Hc). unfold text. apply in_or_app. right. apply in_or_app. left.
    unfold order_fields. cbn [app join_with]. rewrite Ea.
    do 3 (apply in_or_app; right; right). destruct (encode (o_code o)); apply in_or_app; left; exact Hin.
  - eexists _, _. split; [reflexivity|]. repeat split. intro d. cbn [gs_ofile set_ofile]. unfold text_of. rewrite dget_dset.
    match goal with |- context [if ?c then _ else _] => destruct c eqn:Q end; [|reflexivity]. apply eqb_true in Q. subst d. reflexivity.
Qed.
Print Assumptions C159_account.

(** ** A file *)

Lemma can_app e t t' : can e (t ++ t') <-> can e t /\ can e t'.
Proof. rewrite !can_chars. apply Forall_app. Qed.
Lemma read_gen e go h ls : proper e -> can e (h ++ go_eol go) -> h <> [] ->
  forall took0 f, spelled e (file_text h (go_eol go) took0) f ->
  exists took, taken e ls took /\ spelled e (file_text h (go_eol go) (took0 ++ took)) (write_all go h (map (fun l => (e, l)) ls) f).
Proof.
  intros P Ch Hh. induction ls as [|l ls IH]; intros took0 f Sp.
  - exists []. split; [constructor|]. rewrite app_nil_r. exact Sp.
  - cbn [map]. unfold write_all. cbn [fold_left fst snd].
    destruct (write_same e go h l _ _ P Sp) as [W1 W2]. cbn zeta in W1, W2.
    assert (Et : snd (write_line go h l (file_text h (go_eol go) took0) WDone) = file_text h (go_eol go) (took0 ++ [l])).
    { unfold write_line, file_text. cbn [snd]. destruct took0 as [|t0 ts]; cbn [app concat].
      - rewrite app_nil_r, <- app_assoc. reflexivity.
      - destruct (h ++ go_eol go ++ t0 ++ concat ts) as [|c r] eqn:Ec; [apply app_eq_nil in Ec as [-> _]; congruence|].
        rewrite <- Ec. rewrite concat_app. cbn [concat app]. rewrite app_nil_r, <- !app_assoc. reflexivity. }
    rewrite Et in W1, W2.
    assert (Hc : can e (file_text h (go_eol go) took0)) by (eexists; exact Sp).
    assert (D : can e (file_text h (go_eol go) (took0 ++ [l])) <-> can e l).
    { rewrite <- Et. unfold write_line. cbn [snd]. rewrite !can_app. split; [tauto|]. intro C. repeat split; [exact Hc| |exact C].
      destruct (file_text h (go_eol go) took0); [exact Ch|exists []; apply spelled_nil]. }
    assert (Dec : can e l \/ ~ can e l).
    { destruct (enc_text e l) as [y|] eqn:Ey; [left; exists y; apply enc_iff, Ey|right; rewrite can_iff; congruence]. }
    destruct Dec as [C|C].
    + destruct (W1 (proj2 D C)) as (b & -> & Sb). cbn [snd].
      destruct (IH (took0 ++ [l]) b Sb) as (took & K & T).
      exists (l :: took). split.
      * apply tk_in; assumption.
      * rewrite <- app_assoc in T. exact T.
    + rewrite (W2 ltac:(tauto)). cbn [snd]. destruct (IH took0 f Sp) as (took & K & T).
      exists took. split; [apply tk_out; assumption|exact T].
Qed.
(** Part of the claim below ([reads_lines]): written by processes with one encoding, the file
    is read in it as the header and the lines the encoding has the characters for, in the
    order of the calls. *)
Theorem C159_read_partial : forall e dec go h ls, proper e -> reads_back dec e -> h <> [] -> can e (h ++ go_eol go) ->
  exists took, taken e ls took /\ dec (write_all go h (map (fun l => (e, l)) ls) []) = Some (file_text h (go_eol go) took).
Proof.
  intros e dec go h ls P R Hh Ch. destruct (read_gen e go h ls P Ch Hh [] [] (spelled_nil e)) as (took & T & Sp).
  exists took. split; [exact T|apply R, Sp].
Qed.
Print Assumptions C159_read_partial.

(** ** ASCII *)
Lemma ascii_can e t : over_ascii e -> ascii t -> spelled e t t.
Proof.
  intros O A. induction A as [|c t Hc _ IH]; [apply spelled_nil|]. apply (spelled_app e [c] t [c] t); [|exact IH].
  exists [[c]]. split; [repeat constructor; apply O, Hc|reflexivity].
Qed.
Lemma spelled_fun e t b b' : spelled e t b -> spelled e t b' -> b = b'.
Proof. intros H1 H2. apply enc_iff in H1. apply enc_iff in H2. congruence. Qed.
Lemma write_ascii e go h l f : over_ascii e -> ascii h -> ascii (go_eol go) -> ascii l ->
  write_bytes e go h l f WDone = (Ok tt, f ++ match f with [] => h ++ go_eol go | _ => [] end ++ l).
Proof.
  intros O Ah Ae Al. unfold write_bytes. rewrite (proj2 (enc_iff e _ (match f with [] => h ++ go_eol go | _ => [] end ++ l))); [reflexivity|].
  apply ascii_can; [exact O|]. apply Forall_app. split; [|exact Al]. destruct f; [apply Forall_app; split; assumption|constructor].
Qed.
(** Lines of ASCII characters are their own bytes, whatever encodings (over ASCII) the
    processes use. *)
Theorem C159_mixed : forall go h calls, h <> [] -> ascii h -> ascii (go_eol go) -> calls <> [] ->
  Forall (fun c => over_ascii (fst c) /\ ascii (snd c)) calls ->
  write_all go h calls [] = h ++ go_eol go ++ concat (map snd calls).
Proof.
  intros go h calls Hh Ah Ae Hne Hc. destruct calls as [|[e0 t0] calls]; [congruence|]. inversion Hc as [|? ? [O A] Hc']; subst. cbn [fst snd] in *.
  unfold write_all. cbn [fold_left map concat fst snd]. rewrite write_ascii by assumption. cbn [snd app]. clear Hne O A Hc.
  rewrite <- app_assoc. generalize t0 as t. induction calls as [|[e1 t1] calls IH]; intro t; [cbn; rewrite app_nil_r; reflexivity|].
  inversion Hc' as [|? ? [O A] Hc2]; subst. cbn [fst snd] in *. cbn [fold_left map concat fst snd]. rewrite write_ascii by assumption. cbn [snd].
  destruct (h ++ go_eol go ++ t) as [|x r] eqn:E; [apply app_eq_nil in E as [-> _]; congruence|]. rewrite <- E. cbn [app].
  rewrite <- !app_assoc. rewrite (IH Hc2 (t ++ t1)). rewrite <- !app_assoc. reflexivity.
Qed.
Print Assumptions C159_mixed.

Lemma digit_ascii c : is_digit c = true -> (c < 128)%N.
Proof. unfold is_digit. rewrite andb_true_iff, !N.leb_le. lia. Qed.
Lemma digits_ascii k z : ascii (digits k z).
Proof. apply Forall_forall. intros c H. apply digit_ascii, (digits_In k z c H). Qed.
Lemma stamp_ascii t : ascii (fmt_stamp t).
Proof.
  unfold fmt_stamp. repeat (apply Forall_app; split; [apply digits_ascii|]). constructor; [reflexivity|apply digits_ascii].
Qed.
Lemma int_ascii z : ascii (str_of_Z z).
Proof.
  assert (G : forall n, ascii (str_of_N n)) by (intro n; eapply Forall_impl; [apply digit_ascii|apply str_of_N_digits]).
  destruct z; cbn [str_of_Z]; [repeat constructor|apply G|constructor; [reflexivity|apply G]].
Qed.
Lemma replace_ascii old new s : ascii new -> ascii s -> ascii (replace old new s).
Proof.
  intros An As. unfold replace. generalize 0%nat as k. induction As as [|c s Hc _ IH]; intro k; cbn [replace_aux]; [constructor|].
  destruct k; [|apply IH]. destruct (startswith old (c :: s)); [apply Forall_app; split; [exact An|apply IH]|constructor; [exact Hc|apply IH]].
Qed.
Lemma encode_ascii c s : encode c = Ok s -> ascii c -> ascii s.
Proof.
  unfold encode. destruct (endswith _ c); [intros [= <-]; apply replace_ascii; repeat constructor|].
  destruct (endswith _ c); [intros [= <-]; apply replace_ascii; repeat constructor|discriminate].
Qed.
Lemma join_ascii c l : (c < 128)%N -> Forall ascii l -> ascii (join_with c l).
Proof.
  intros Hc. induction 1 as [|w ws Hw Hs IH]; [constructor|]. cbn [join_with]. destruct ws; [exact Hw|]. apply Forall_app. split; [exact Hw|].
  constructor; [exact Hc|exact IH].
Qed.
Lemma header_ascii : ascii order_header /\ ascii cancel_header.
Proof. split; repeat constructor. Qed.

(** If the account number, the options' names and the order's own texts are ASCII, the order is
    placed in every encoding over ASCII, and the file holds the text itself. *)
Theorem C159_ascii : forall e go o g, over_ascii e -> ge_write (gs_env g) = WDone ->
  ascii (go_acct go) -> ascii (go_counter go) -> ascii (go_algo go) -> ascii (go_eol go) ->
  ascii (o_id o) -> ascii (o_code o) -> ascii (pval_str (style_price (o_style o))) ->
  order_bytes e go o g = gate_order go o g.
Proof.
  intros e go o g O Hw A1 A2 A3 A4 A5 A6 A7. unfold order_bytes, gate_order. destruct (go_acct go) as [|a0 a1] eqn:Ea; [reflexivity|].
  destruct (negb (go_stock go)); [reflexivity|]. destruct (o_side o); [|reflexivity]. destruct (encode (o_code o)) as [sym|x] eqn:Ec; [|reflexivity].
  cbn zeta. rewrite Hw. rewrite write_ascii; [reflexivity|exact O|apply header_ascii|exact A4|].
  apply Forall_app. split; [|exact A4]. apply join_ascii; [reflexivity|]. unfold order_fields. apply Forall_app. split.
  - rewrite Ea. constructor; [apply stamp_ascii|]. constructor; [exact A5|]. constructor; [exact A2|]. constructor; [exact A1|].
    constructor; [apply (encode_ascii _ _ Ec A6)|]. constructor; [destruct (o_action o); repeat constructor|]. constructor; [apply int_ascii|].
    constructor; [exact A3|constructor].
  - destruct (o_style o) as [p|p]; cbn [style_price] in A7; [destruct (o_action o); repeat constructor|]. repeat (constructor; [first [exact A7|repeat constructor]|]). constructor.
Qed.
Print Assumptions C159_ascii.
Theorem C159_ascii_cancel : forall e go id g, over_ascii e -> ge_write (gs_env g) = WDone -> ascii id -> ascii (go_eol go) ->
  cancel_bytes e go id g = gate_cancel go id g.
Proof.
  intros e go id g O Hw A1 A2. unfold cancel_bytes, gate_cancel. cbn zeta. rewrite Hw.
  rewrite write_ascii; [reflexivity|exact O|apply header_ascii|exact A2|].
  apply Forall_app. split; [|exact A2]. apply join_ascii; [reflexivity|]. constructor; [apply stamp_ascii|]. constructor; [exact A1|constructor].
Qed.
Print Assumptions C159_ascii_cancel.

(** ** UTF-8, Latin-1 and ASCII *)
Theorem C159_encodings :
  (proper utf8_enc /\ over_ascii utf8_enc /\ reads_back utf8_decode utf8_enc /\
   forall t, can utf8_enc t <-> Forall (fun c => (c <= 55295 \/ 57344 <= c <= 1114111)%N) t) /\
  (proper latin1_enc /\ over_ascii latin1_enc /\ reads_back latin1_decode latin1_enc /\
   forall t, can latin1_enc t <-> Forall (fun c => (c <= 255)%N) t) /\
  (proper ascii_enc /\ over_ascii ascii_enc /\ reads_back ascii_decode ascii_enc /\
   forall t, can ascii_enc t <-> Forall (fun c => (c <= 127)%N) t).
Proof.
  assert (One : forall n, let e c := if (c <? n)%N then Some [c] else None in (128 <= n)%N ->
    proper e /\ over_ascii e /\ reads_back (fun s => if forallb (fun b => (b <? n)%N) s then Some s else None) e /\ forall t, can e t <-> Forall (fun c => (c <= n - 1)%N) t).
  { intros n e Hn. split; [|split; [|split]].
    - intro c. unfold e. destruct (c <? n)%N; discriminate.
    - intros c Hc. unfold e. destruct (N.ltb_spec c n); [reflexivity|lia].
    - intros t b (bs & F & ->). assert (G : concat bs = t /\ forallb (fun b => (b <? n)%N) t = true).
      { induction F as [|c x t bs E _ [IH1 IH2]]; [split; reflexivity|]. unfold e in E. destruct (c <? n)%N eqn:Q; [|discriminate]. injection E as <-.
        cbn [concat app forallb]. rewrite IH1, IH2, Q. split; reflexivity. }
      destruct G as [-> ->]. reflexivity.
    - intro t. rewrite can_chars. split; intro H; (eapply Forall_impl; [|exact H]); intros c; cbn beta; unfold e; destruct (N.ltb_spec c n); intros; try congruence; try lia; discriminate. }
  split; [|split; [apply (One 256%N); lia|apply (One 128%N); lia]].
  split; [|split; [|split]].
  - intro c. unfold utf8_enc. destruct (scalar c); [|discriminate]. intro E. injection E as E. destruct (utf8_some c E).
  - intros c Hc. unfold utf8_enc, scalar, utf8_char. destruct (N.ltb_spec c 55296); [|lia]. destruct (N.ltb_spec c 128); [reflexivity|lia].
  - intros t b (bs & F & ->). assert (G : concat bs = bytes utf8_char t /\ Forall (fun c => scalar c = true) t).
    { induction F as [|c x t bs E _ [IH1 IH2]]; [split; constructor|]. unfold utf8_enc in E. destruct (scalar c) eqn:Q; [|discriminate]. injection E as <-.
      split; [cbn; rewrite IH1; reflexivity|constructor; assumption]. }
    destruct G as [-> Ha]. apply (proj2 C84_utf8), Ha.
  - intro t. rewrite can_chars. split; intro H; (eapply Forall_impl; [|exact H]); intros c; cbn beta; unfold utf8_enc, scalar;
      destruct (N.ltb_spec c 55296), (N.leb_spec 57344 c), (N.ltb_spec c 1114112); cbn; intros; try congruence; try lia; discriminate.
Qed.
Print Assumptions C159_encodings.

(** ** The claim: a reader with the gate's encoding reads the lines that were written. *)
Definition reads_lines : Prop :=
  forall go h dec (calls : list (encoder * str)) e l,
    proper e -> reads_back dec e -> ascii h -> h <> [] -> go_eol go = eol_posix ->
    Forall (fun c => proper (fst c) /\ over_ascii (fst c) /\ can (fst c) (snd c)) (calls ++ [(e, l)]) ->
    dec (write_all go h (calls ++ [(e, l)]) []) <> None.
(** The first process of the day used Latin-1, the next one UTF-8; the account number has an
    accent. *)
Theorem C159_changed_refuted : ~ reads_lines.
Proof.
  intro H. destruct C159_encodings as ((U1 & U2 & U3 & _) & (L1 & L2 & _ & _) & _).
  specialize (H (GOpts [233%N] true [] [] false eol_posix) cancel_header utf8_decode [(latin1_enc, [233; 10]%N)] utf8_enc [97; 10]%N U1 U3 (proj2 header_ascii) ltac:(discriminate) eq_refl).
  apply H; [|vm_compute; reflexivity].
  repeat constructor; cbn [fst snd]; try assumption; rewrite can_chars; repeat constructor; discriminate.
Qed.
Print Assumptions C159_changed_refuted.

(** A day: the account number has an accent; the process writes UTF-8. *)
Definition demo_enc_go : gopts := GOpts [56; 233]%N true (lit "UM0") (lit "DMA") false eol_posix.
Definition demo_enc_g : gst := GSt [] 0 0 19675 [] [] [] [] [] (GEnv 19675 1699925400000000 WDone (Ok tt)).
Definition demo_enc_o : order :=
  Order (lit "000001.XSHE") (PNum (lit "11.1")) 100 Open (lit "x1") Snew (Limit (PNum (lit "11.1"))) 1699925400000000 None Long None 0 0 0 None 0 [].
Lemma demo_coded e : coded e demo_enc_g demo_enc_g.
Proof. split; reflexivity || (intro; exact I). Qed.
(** in UTF-8 the order is placed, and the file is read in UTF-8 as the text; ASCII lacks the
    accent: the order fails and the file stays empty *)
Example C159_demo :
  let f g := text_of 19675 (gs_ofile g) in
  let t := f (snd (gate_order demo_enc_go demo_enc_o demo_enc_g)) in
  let u := order_bytes utf8_enc demo_enc_go demo_enc_o demo_enc_g in
  let a := order_bytes ascii_enc demo_enc_go demo_enc_o demo_enc_g in
  fst u = Ok tt /\ utf8_decode (f (snd u)) = Some t /\ List.length (f (snd u)) = Datatypes.S (List.length t) /\
  fst a = Err ValueError /\ f (snd a) = [] /\ can utf8_enc t /\ ~ can ascii_enc t /\ ~ can ascii_enc (go_acct demo_enc_go).
Proof.
  cbn zeta. repeat split; try (vm_compute; reflexivity).
  - apply can_iff. vm_compute. discriminate.
  - rewrite can_iff. intro H. apply H. vm_compute. reflexivity.
  - rewrite can_iff. intro H. apply H. vm_compute. reflexivity.
Qed.
(** a file of three calls in Latin-1, the second with a character Latin-1 lacks; and one of
    ASCII lines in three encodings *)
Example C159_demo_file :
  let ls := [[233; 10]; [20080; 10]; [97; 10]]%N in
  let go := demo_enc_go in
  taken latin1_enc ls [[233; 10]; [97; 10]]%N /\
  latin1_decode (write_all go cancel_header (map (fun l => (latin1_enc, l)) ls) []) = Some (cancel_header ++ [10; 233; 10; 97; 10]%N) /\
  write_all go cancel_header [(latin1_enc, [97; 10]%N); (utf8_enc, [98; 10]%N); (ascii_enc, [99; 10]%N)] [] = cancel_header ++ [10; 97; 10; 98; 10; 99; 10]%N.
Proof.
  cbn zeta. split; [|split; vm_compute; reflexivity].
  apply tk_in; [apply can_iff; vm_compute; discriminate|]. apply tk_out; [rewrite can_iff; intro H; apply H; vm_compute; reflexivity|].
  apply tk_in; [apply can_iff; vm_compute; discriminate|]. constructor.
Qed.
