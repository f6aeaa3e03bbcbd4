(** C160: what is saved of the orders is what is loaded. *)
From Coq Require Import String.
From Verif Require Import PyBase PyStr MTime MDate MOrder MAccount MGate MJson MCodec MEncode SEncode SJson LStr LJson LJson2 TEncode.
Open Scope list_scope.
Open Scope Z_scope.

Lemma short_text s : forallb (fun c => (c <? 55296)%N) s = true -> text s.
Proof.
  intro H. rewrite forallb_forall in H. split.
  - apply Forall_forall. intros c Hc. specialize (H c Hc). apply N.ltb_lt in H. lia.
  - intros a c c' b E [X _]. specialize (H c). rewrite E in H. specialize (H ltac:(apply in_or_app; right; left; reflexivity)). apply N.ltb_lt in H. lia.
Qed.
Lemma int_back z : py_int (str_of_Z z) = Some z.
Proof.
  destruct z as [|p|p]; cbn [str_of_Z]; [reflexivity|rewrite py_int_str_of_N; reflexivity|].
  pose proof (str_of_N_digits (N.pos p)) as D. pose proof (py_int_str_of_N (N.pos p)) as E. pose proof (str_of_N_nonempty (N.pos p)) as Hn.
  rewrite py_int_digits in E by assumption. set (s := str_of_N (N.pos p)) in *.
  assert (S : int_strip (45%N :: s) = 45%N :: s).
  { unfold int_strip. change (drop_while is_int_space (45%N :: s)) with (45%N :: s). cbn [rev]. destruct (rev s) as [|c r] eqn:Er.
    - apply (f_equal (@rev N)) in Er. rewrite rev_involutive in Er. destruct (Hn Er).
    - assert (Hc : is_digit c = true). { apply (proj1 (Forall_forall _ _) D). apply in_rev. rewrite Er. left. reflexivity. }
      cbn [app drop_while]. rewrite (digit_not_int_space c Hc). change (c :: r ++ [45%N]) with ((c :: r) ++ [45%N]). rewrite <- Er. rewrite rev_app_distr, rev_involutive. reflexivity. }
  unfold py_int. rewrite S. change (45 =? 43)%N with false. change (45 =? 45)%N with true. cbn iota. rewrite int_body_digits by assumption.
  injection E as ->. reflexivity.
Qed.

Section Save.
  Context (sh4 sh3 : Z -> str) (rd4 rd3 : str -> option Z).
  (** floats are printed as JSON numbers, and read as they were printed *)
  Context (N4 : forall z, number (sh4 z)) (N3 : forall z, number (sh3 z)) (R4 : forall z, rd4 (sh4 z) = Some z) (R3 : forall z, rd3 (sh3 z) = Some z).

  Lemma to_ok i : fine i -> exists d, to_json sh4 sh3 i = Some d /\ ok_obj ok_v d /\ of_json rd4 rd3 d = Some i.
  Proof.
    intros [F1 F2 F3 F4 F5 F6 F7 F8 F9 F10 F11]. unfold to_json.
    assert (P : exists p, price_v (i_price i) = Some p /\ ok_v p /\
      (i_price i = match p with JNum s => PNum s | JStr s => PTxt s | JNull => PBad [] end) /\ p <> JNull).
    { destruct (i_price i) as [s|s|s]; [exists (JNum s)|exists (JStr s)|contradiction]; (split; [reflexivity|split; [exact F11|split; [reflexivity|discriminate]]]). }
    destruct P as (p & -> & Hp & Ep & Np). cbn [option_map]. eexists. split; [reflexivity|]. split.
    - assert (Onum : forall f x, (forall z, number (f z)) -> ok_v (nnum f x)) by (intros f [z|] Hf; [apply Hf|exact I]).
      assert (Ostr : forall x, opt text x -> ok_v (nstr x)) by (intros [z|] Hx; [exact Hx|exact I]).
      split.
      + cbn [map fst]. repeat constructor; cbn [In]; intro X; repeat (destruct X as [X|X]; [discriminate X|]); exact X.
      + repeat (constructor; [split; cbn [fst snd]; [apply short_text; reflexivity|first [exact Hp|assumption|apply int_number|apply Ostr; assumption|apply Onum; first [exact int_number|exact N4|exact N3]]]|]). constructor.
    - destruct i as [code price amount action id st sty cr en sd cf fi ca de av co er]. cbn [i_code i_price i_amount i_action i_id i_status i_style i_create i_entrust i_side i_confirm i_filled i_canceled i_deal i_avg i_comm i_err] in *.
      assert (G : forall k x d, dget k d = Some (nstr x) -> gstr k d = x) by (intros k [x|] d E; unfold gstr; rewrite E; reflexivity).
      assert (Gn : forall f g k x d, (forall z, f (g z) = Some z) -> dget k d = Some (nnum g x) -> gnum f k d = x) by (intros f g k [x|] d Hf E; unfold gnum; rewrite E; cbn [nnum]; [apply Hf|reflexivity]).
      unfold of_json. match goal with |- context [gstr _ ?x] => set (d := x) end.
      rewrite (G (lit "code") (Some code) d eq_refl), (Gn py_int str_of_Z (lit "amount") (Some amount) d int_back eq_refl), (G (lit "action") (Some action) d eq_refl),
        (G (lit "order_id") (Some id) d eq_refl), (G (lit "status") (Some st) d eq_refl), (G (lit "style") (Some sty) d eq_refl), (G (lit "create_time") (Some cr) d eq_refl),
        (G (lit "entrust_time") en d eq_refl), (G (lit "side") sd d eq_refl), (G (lit "confirm_id") cf d eq_refl), (G (lit "err_msg") er d eq_refl),
        (Gn py_int str_of_Z (lit "filled_amount") fi d int_back eq_refl), (Gn py_int str_of_Z (lit "canceled_amount") ca d int_back eq_refl),
        (Gn rd4 sh4 (lit "deal_balance") de d R4 eq_refl), (Gn rd3 sh3 (lit "avg_cost") av d R3 eq_refl), (Gn rd4 sh4 (lit "commission") co d R4 eq_refl).
      change (dget (lit "price") d) with (Some p). destruct p; [congruence| |]; rewrite Ep; reflexivity.
  Qed.
  Lemma all_ok (o : dict str oinfo) : Forall (fun kv => text (fst kv) /\ fine (snd kv)) o ->
    exists j, all_some (to_json sh4 sh3) o = Some j /\ map fst j = map fst o /\ Forall (ok_kv (ok_obj ok_v)) j /\ all_some (of_json rd4 rd3) j = Some o.
  Proof.
    induction 1 as [|[k i] o [Hk Hi] _ (j & E1 & E2 & E3 & E4)]; [exists []; repeat split; constructor|]. cbn [fst snd] in *.
    destruct (to_ok i Hi) as (d & D1 & D2 & D3). exists ((k, d) :: j). cbn [all_some]. rewrite D1, E1, D3, E4. cbn [map fst]. rewrite E2.
    repeat split. constructor; [split; assumption|exact E3].
  Qed.

  (** Part of the claim [any_text] below: the save file is of ASCII characters, so it is the same in every encoding
      over ASCII, and loading it gives the orders, in their order. *)
  Theorem C160_saved_partial : forall o : dict str oinfo, NoDup (map fst o) -> Forall (fun kv => text (fst kv) /\ fine (snd kv)) o ->
    exists t, save_text sh4 sh3 o = Some t /\ SEncode.ascii t /\ load_text rd4 rd3 t = Some o /\
      forall e e' dec, over_ascii e -> over_ascii e' -> reads_back dec e' -> exists b, spelled e t b /\ dec b = Some t.
  Proof.
    intros o Hn F. destruct (all_ok o F) as (j & E1 & E2 & E3 & E4). unfold save_text, load_text. rewrite E1. cbn [option_map]. exists (dumps j). split; [reflexivity|].
    assert (K : ok_file j) by (split; [rewrite E2; exact Hn|exact E3]). split; [apply file_asc, K|]. split; [rewrite (loads_ok j K); exact E4|].
    intros e e' dec O O' R. exists (dumps j). split; [apply ascii_can; [exact O|apply file_asc, K]|apply R, ascii_can; [exact O'|apply file_asc, K]].
  Qed.

  (** json.dump fails just for prices it does not know. *)
  Theorem C160_fails : forall o : dict str oinfo, save_text sh4 sh3 o = None <-> exists k i s, In (k, i) o /\ i_price i = PBad s.
  Proof.
    intro o. unfold save_text. induction o as [|[k i] o IH]; [split; [discriminate|intros (? & ? & ? & [] & _)]|]. cbn [all_some]. unfold to_json at 1.
    destruct (i_price i) as [s|s|s] eqn:P; cbn [price_v option_map].
    1,2: destruct (all_some (to_json sh4 sh3) o) as [j|]; cbn [option_map] in *; split;
      [discriminate|intros (k' & i' & s' & [X|X] & Q); [injection X as <- <-; congruence|exfalso; assert (Z0 : Some (dumps j) = None) by (apply IH; eauto); discriminate Z0]|intros _; destruct (proj1 IH eq_refl) as (k' & i' & s' & X & Q); exists k', i', s'; split; [right; exact X|exact Q]|reflexivity].
    split; [intros _; exists k, i, s; split; [left; reflexivity|exact P]|reflexivity].
  Qed.
End Save.
Print Assumptions C160_saved_partial.
Print Assumptions C160_fails.

(** Texts as decoders give them, without surrogates, are fine. *)
Theorem C160_unicode : forall s, Forall (fun c => (c <= 55295 \/ 57344 <= c <= 1114111)%N) s -> text s.
Proof.
  intros s H. split; [eapply Forall_impl; [|exact H]; cbn beta; lia|]. intros a c c' b -> [X _]. apply Forall_app in H as [_ H]. inversion H as [|? ? Y _]; subst. lia.
Qed.
Print Assumptions C160_unicode.

(** A save file cut short anywhere is not loaded: no orders rather than some of them. *)
Theorem C160_cut : forall sh4 sh3 rd4 rd3, (forall z, number (sh4 z)) -> (forall z, number (sh3 z)) -> (forall z, rd4 (sh4 z) = Some z) -> (forall z, rd3 (sh3 z) = Some z) ->
  forall o : dict str oinfo, NoDup (map fst o) -> Forall (fun kv => text (fst kv) /\ fine (snd kv)) o ->
  forall t p x, save_text sh4 sh3 o = Some t -> t = p ++ x -> x <> [] -> load_text rd4 rd3 p = None.
Proof.
  intros sh4 sh3 rd4 rd3 N4 N3 R4 R3 o Hn F t p x Hs Ht Hx. destruct (all_ok sh4 sh3 rd4 rd3 N4 N3 R4 R3 o F) as (j & E1 & E2 & E3 & _).
  unfold save_text in Hs. rewrite E1 in Hs. cbn [option_map] in Hs. injection Hs as <-.
  unfold load_text. rewrite (cut_short j p x); [reflexivity|split; [rewrite E2; exact Hn|exact E3]|exact Ht|exact Hx].
Qed.
Print Assumptions C160_cut.

(** ** Examples *)
Definition jd_show (z : Z) : str := str_of_Z z ++ lit ".0".
Definition jd_read (s : str) : option Z := py_int (firstn (List.length s - 2) s).
Lemma jd_ok : (forall z, number (jd_show z)) /\ (forall z, jd_read (jd_show z) = Some z).
Proof.
  split; intro z.
  - destruct (int_number z) as (sg & i & f & e & E & Hsg & Hi & Hf & He). unfold jd_show.
    assert (D : ~ In 46%N (str_of_Z z) /\ ~ In 101%N (str_of_Z z) /\ ~ In 69%N (str_of_Z z)).
    { assert (G : forall c, In c (str_of_Z z) -> c = 45%N \/ is_digit c = true).
      { intros c H. destruct z as [|q|q]; cbn [str_of_Z] in H; [right; destruct H as [<-|[]]; reflexivity| |destruct H as [<-|H]; [left; reflexivity|]]; right; apply (proj1 (Forall_forall _ _) (str_of_N_digits _) c H). }
      repeat split; intro H; destruct (G _ H); discriminate. }
    rewrite E in *. exists sg, i, (lit ".0"), []. rewrite app_nil_r.
    assert (f = []) as ->. { destruct Hf as [->|(ds & -> & _)]; [reflexivity|]. destruct D as [D _]. destruct D. apply in_or_app. right. apply in_or_app. right. left. reflexivity. }
    assert (e = []) as ->.
    { destruct He as [->|(y & g & ds & -> & Hy & _)]; [reflexivity|]. destruct D as (_ & D1 & D2).
      assert (Y : In y (sg ++ i ++ [] ++ y :: g ++ ds)) by (apply in_or_app; right; apply in_or_app; right; left; reflexivity). destruct Hy; subst y; contradiction. }
    rewrite !app_nil_r. split; [rewrite <- app_assoc; reflexivity|]. repeat split; try assumption. right. exists (lit "0"). split; [reflexivity|]. split; [discriminate|]. repeat constructor; discriminate.
  - unfold jd_read, jd_show. rewrite app_length. change (List.length (lit ".0")) with 2%nat. replace (List.length (str_of_Z z) + 2 - 2)%nat with (List.length (str_of_Z z) + 0)%nat by lia.
    rewrite firstn_app_2. cbn [firstn]. rewrite app_nil_r. apply int_back.
Qed.
(** two orders; the message of the second has a quote, a line end, a Chinese character and an
    emoji *)
Definition jd_err : str := [34; 10; 20080; 128512]%N.
Definition jd_o : dict str oinfo :=
  [(lit "7", OInfo (lit "000001.XSHE") (PNum (lit "11.1")) (-100) (lit "close") (lit "7") (lit "new") (lit "limit") (lit "2023-11-14 09:30:00.000000")
      None (Some (lit "long")) None (Some 0) (Some 0) (Some 0) None (Some 0) (Some []));
   (lit "8", OInfo (lit "000002.XSHE") (PTxt (lit "9")) 200 (lit "open") (lit "8") (lit "rejected") (lit "limit") (lit "2023-11-14 09:30:01.000000")
      (Some (lit "2023-11-14 09:30:02.000000")) (Some (lit "long")) (Some (lit "c1")) (Some 0) (Some 0) (Some 0) (Some 9100) (Some 0) (Some jd_err))].
Lemma jd_fine : NoDup (map fst jd_o) /\ Forall (fun kv => text (fst kv) /\ fine (snd kv)) jd_o.
Proof.
  split; [repeat constructor; cbn; intuition discriminate|]. constructor; [|constructor; [|constructor]]; (split; [apply short_text; reflexivity|]).
  - constructor; cbn [i_code i_action i_id i_status i_style i_create i_entrust i_side i_confirm i_err i_price opt snd]; try exact I; try (apply short_text; reflexivity).
    exists [], (lit "11"), (lit ".1"), []. split; [reflexivity|]. split; [left; reflexivity|]. split; [right; exists 49%N, (lit "1"); repeat split; try discriminate; repeat constructor; discriminate|].
    split; [right; exists (lit "1"); (split; [reflexivity|]); (split; [discriminate|]); repeat constructor; discriminate|left; reflexivity].
  - constructor; cbn [i_code i_action i_id i_status i_style i_create i_entrust i_side i_confirm i_err i_price opt snd]; try exact I; try (apply short_text; reflexivity).
    apply C160_unicode. unfold jd_err. repeat constructor; lia.
Qed.
Example C160_demo :
  option_map (load_text jd_read jd_read) (save_text jd_show jd_show jd_o) = Some (Some jd_o) /\
  jstring jd_err = lit """\""\n\u4e70\ud83d\ude00""" /\
  (forall t, save_text jd_show jd_show jd_o = Some t -> load_text jd_read jd_read (firstn (List.length t - 1) t) = None).
Proof.
  split; [vm_compute; reflexivity|]. split; [reflexivity|]. intros t Ht.
  apply (C160_cut jd_show jd_show jd_read jd_read (proj1 jd_ok) (proj1 jd_ok) (proj2 jd_ok) (proj2 jd_ok) jd_o (proj1 jd_fine) (proj2 jd_fine) t _ (skipn (List.length t - 1) t) Ht).
  - symmetry. apply firstn_skipn.
  - intro E. apply (f_equal (@List.length N)) in E. rewrite skipn_length in E. cbn [List.length] in E.
    assert (t <> []) by (intros ->; destruct (C160_saved_partial jd_show jd_show jd_read jd_read (proj1 jd_ok) (proj1 jd_ok) (proj2 jd_ok) (proj2 jd_ok) jd_o (proj1 jd_fine) (proj2 jd_fine)) as (t' & E1 & _ & E2 & _); rewrite Ht in E1; injection E1 as <-; discriminate E2).
    destruct t; [congruence|cbn [List.length] in E; lia].
Qed.

(** ** The claim: any texts are loaded as they were saved. *)
Definition any_text : Prop :=
  forall sh4 sh3 rd4 rd3, (forall z, number (sh4 z)) -> (forall z, number (sh3 z)) -> (forall z, rd4 (sh4 z) = Some z) -> (forall z, rd3 (sh3 z) = Some z) ->
  forall (o : dict str oinfo) t, NoDup (map fst o) -> save_text sh4 sh3 o = Some t -> load_text rd4 rd3 t = Some o.
(** A high and a low surrogate side by side come back as one character. *)
Theorem C160_surrogates_refuted : ~ any_text.
Proof.
  intro H. pose (o := [(lit "7", OInfo (lit "a") (PNum (lit "1")) 1 [] [] [] [] [] None None None None None None None None (Some [55357; 56832]%N))] : dict str oinfo).
  destruct (save_text jd_show jd_show o) as [t|] eqn:E; [|vm_compute in E; discriminate].
  specialize (H jd_show jd_show jd_read jd_read (proj1 jd_ok) (proj1 jd_ok) (proj2 jd_ok) (proj2 jd_ok) o t ltac:(repeat constructor; cbn; tauto) E).
  vm_compute in E. injection E as <-. vm_compute in H. discriminate.
Qed.
Print Assumptions C160_surrogates_refuted.

(** The gate's model (MGate.v) keeps in the save file just what would be loaded, and fails to
    save just when json.dump does. *)
Theorem C160_gate : forall sh4 sh3 rd4 rd3, (forall z, number (sh4 z)) -> (forall z, number (sh3 z)) -> (forall z, rd4 (sh4 z) = Some z) -> (forall z, rd3 (sh3 z) = Some z) ->
  forall g, NoDup (map fst (gs_orders g)) -> Forall (fun kv => text (fst kv) /\ (match i_price (snd kv) with PBad _ => True | _ => fine (snd kv) end)) (gs_orders g) ->
    ge_save (gs_env g) = Ok tt ->
    match save_text sh4 sh3 (gs_orders g) with
    | Some t => fst (save_orders g) = Ok tt /\ load_text rd4 rd3 t = Some (data_of (gs_day g) (gs_data (snd (save_orders g))))
    | None => save_orders g = (Err TypeError, g)
    end.
Proof.
  intros sh4 sh3 rd4 rd3 N4 N3 R4 R3 g Hn F Hs. unfold save_orders. destruct (save_text sh4 sh3 (gs_orders g)) as [t|] eqn:E.
  - assert (Hp : forall kv, In kv (gs_orders g) -> forall s, i_price (snd kv) <> PBad s).
    { intros [k i] Hin s X. assert (Z0 : save_text sh4 sh3 (gs_orders g) = None) by (apply C160_fails; exists k, i, s; split; assumption). congruence. }
    assert (S : forallb (fun kv => serialisable (snd kv)) (gs_orders g) = true).
    { apply forallb_forall. intros kv Hin. unfold serialisable. destruct (i_price (snd kv)) as [?|?|s] eqn:Q; [reflexivity|reflexivity|destruct (Hp kv Hin s Q)]. }
    rewrite S, Hs. split; [reflexivity|]. cbn [snd gs_data set_data gs_day]. unfold data_of. rewrite dget_dset_same.
    assert (F' : Forall (fun kv => text (fst kv) /\ fine (snd kv)) (gs_orders g)).
    { apply Forall_forall. intros kv Hin. destruct (proj1 (Forall_forall _ _) F kv Hin) as [F1 F2]. split; [exact F1|]. destruct (i_price (snd kv)) as [?|?|s] eqn:Q; [exact F2|exact F2|destruct (Hp kv Hin s Q)]. }
    destruct (C160_saved_partial sh4 sh3 rd4 rd3 N4 N3 R4 R3 (gs_orders g) Hn F') as (t' & E1 & _ & E2 & _). rewrite E in E1. injection E1 as <-. exact E2.
  - apply C160_fails in E as (k & i & s & Hin & P). assert (S : forallb (fun kv => serialisable (snd kv)) (gs_orders g) = false).
    { apply not_true_is_false. intro X. rewrite forallb_forall in X. specialize (X _ Hin). unfold serialisable in X. cbn [snd] in X. rewrite P in X. discriminate. }
    rewrite S. reflexivity.
Qed.
Print Assumptions C160_gate.
