(** C84: the broker's texts are read as they were written. *)
From Coq Require Import String.
From Verif Require Import PyBase PyStr MTime MDate MOrder MAccount MApi MGate MCodec SCodec TGate.
Open Scope list_scope.
Open Scope Z_scope.

Section Codec.
  Context (enc : N -> list N) (ok : N -> Prop) (Hcd : codec enc ok).
  Notation bs := (bytes enc).
  Lemma bytes_app s t : bs (s ++ t) = bs s ++ bs t.
  Proof. apply flat_map_app. Qed.
  Lemma lines_pre p s : p <> [] -> ~ In NL p -> lines_of (p ++ s) = match lines_of s with [] => [p] | l :: ls => (p ++ l) :: ls end.
  Proof.
    induction p as [|c p IH]; intros H1 H2; [destruct H1; reflexivity|]. cbn [app lines_of].
    destruct (N.eqb_spec c NL) as [->|_]; [destruct H2; left; reflexivity|]. destruct p as [|c' p].
    - cbn [app]. reflexivity.
    - rewrite IH; [|discriminate|intro H; apply H2; right; exact H]. destruct (lines_of s); reflexivity.
  Qed.
  Lemma lines_bytes t : Forall ok t -> lines_of (bs t) = map bs (lines_of t).
  Proof.
    induction 1 as [|c t Hc _ IH]; [reflexivity|]. cbn [bytes flat_map lines_of]. change (flat_map enc t) with (bs t).
    destruct (N.eqb_spec c NL) as [->|Hn].
    - rewrite (cd_nl _ _ Hcd). cbn [app lines_of map]. rewrite N.eqb_refl, IH. cbn [bytes flat_map]. rewrite (cd_nl _ _ Hcd). reflexivity.
    - rewrite lines_pre; [|apply (cd_some _ _ Hcd), Hc|apply (cd_other _ _ Hcd); assumption]. rewrite IH. destruct (lines_of t) as [|l ls]; cbn [map]; [|reflexivity].
      cbn [bytes flat_map]. rewrite app_nil_r. reflexivity.
  Qed.
  Lemma lines_ok t : Forall ok t -> Forall (Forall ok) (lines_of t).
  Proof.
    induction 1 as [|c t Hc _ IH]; [constructor|]. cbn [lines_of]. destruct (N.eqb c NL); [constructor; auto|].
    destruct (lines_of t) as [|l ls]; [repeat constructor; exact Hc|]. inversion IH; subst. constructor; [constructor; assumption|assumption].
  Qed.
  Lemma lines_concat t : concat (lines_of t) = t.
  Proof.
    induction t as [|c t IH]; [reflexivity|]. cbn [lines_of]. destruct (N.eqb c NL); [cbn [concat app]; rewrite IH; reflexivity|].
    destruct (lines_of t) as [|l ls]; cbn [concat app] in *; rewrite <- IH; reflexivity.
  Qed.

  Context (ptime f3 f4 : str -> option Z) (go : gopts).
  Notation at_ t k := (List.length (bs (firstn k t))).
  Lemma loop_bytes dec (Hd : reads dec enc ok) step t ls : forall pos off o, Forall (Forall ok) ls -> skipn pos t = concat ls -> (pos <= List.length t)%nat -> (off <= List.length t)%nat ->
    let '(x, off', o') := read_loop go step ls pos off o in
    read_loop go (fun l => step (decoded dec l)) (map bs ls) (at_ t pos) (at_ t off) o = (x, at_ t off', o') /\ (off' <= List.length t)%nat.
  Proof.
    induction ls as [|l ls IH]; intros pos off o Hls Hs Hp Ho; [split; [reflexivity|exact Ho]|]. cbn [read_loop map].
    inversion Hls as [|? ? Hl Hls']; subst. unfold decoded at 1. rewrite (Hd l Hl).
    assert (Hlen : (pos + List.length l <= List.length t)%nat).
    { apply (f_equal (@List.length N)) in Hs. cbn [concat] in Hs. rewrite skipn_length, app_length in Hs. lia. }
    assert (Hf : firstn (pos + List.length l) t = firstn pos t ++ l).
    { rewrite <- (firstn_skipn pos t) at 1. rewrite Hs. cbn [concat]. rewrite firstn_app, firstn_length_le by exact Hp.
      replace (pos + List.length l - pos)%nat with (List.length l + 0)%nat by lia. rewrite firstn_app_2. cbn [firstn]. rewrite app_nil_r.
      rewrite firstn_all2; [reflexivity|rewrite firstn_length; lia]. }
    assert (Ha : (at_ t pos + List.length (bs l))%nat = at_ t (pos + List.length l)) by (rewrite Hf, bytes_app, app_length; reflexivity).
    assert (Hs' : skipn (pos + List.length l) t = concat ls).
    { apply (app_inv_head (firstn (pos + List.length l) t)). rewrite firstn_skipn, Hf, <- app_assoc. change (l ++ concat ls) with (concat (l :: ls)). rewrite <- Hs. symmetry. apply firstn_skipn. }
    rewrite Ha. destruct (step l o) as [|o'| |o' x].
    - split; [reflexivity|exact Ho].
    - apply IH; assumption.
    - apply IH; assumption.
    - destruct (go_ignore go); [apply IH; assumption|split; [reflexivity|exact Ho]].
  Qed.
  Lemma file_bytes dec (Hd : reads dec enc ok) step t off o : Forall ok t -> (off <= List.length t)%nat ->
    let '(x, off', o') := read_file go step t off o in
    read_bytes go dec step (bs t) (at_ t off) o = (x, at_ t off', o') /\ (off' <= List.length t)%nat.
  Proof.
    intros Ht Ho. unfold read_bytes, read_file.
    assert (Hsk : Forall ok (skipn off t)) by (rewrite <- (firstn_skipn off t) in Ht; apply Forall_app in Ht; apply Ht).
    assert (Hb : skipn (at_ t off) (bs t) = bs (skipn off t)).
    { rewrite <- (firstn_skipn off t) at 2. rewrite bytes_app, skipn_app, skipn_all, Nat.sub_diag. reflexivity. }
    rewrite Hb, (lines_bytes _ Hsk).
    replace (forallb (decodable dec) (map bs (lines_of (skipn off t)))) with true.
    - apply (loop_bytes dec Hd); [apply lines_ok, Hsk|symmetry; apply lines_concat|exact Ho|exact Ho].
    - symmetry. apply forallb_forall. intros x Hx. apply in_map_iff in Hx as (l & <- & Hl). unfold decodable.
      rewrite (Hd l); [reflexivity|]. apply (proj1 (Forall_forall _ _) (lines_ok _ Hsk) l Hl).
  Qed.

  (** If both files are read with the codec they were written in, the sync of the bytes is
      the sync of the texts. *)
  Theorem C84_same_codec_partial : forall dec_r dec_u, reads dec_r enc ok -> reads dec_u enc ok -> forall g b, encoded enc ok g b ->
    exists r g' b', gate_sync_orders ptime f3 f4 go g = (r, g') /\ sync_bytes ptime f3 f4 go dec_r dec_u b = (r, b') /\ encoded enc ok g' b'.
  Proof.
    intros dec_r dec_u Hr Hu g b (rt & ut & Er & Eu & Kr & Ku & Lr & Lu & ->).
    unfold gate_sync_orders, sync_bytes. cbn [gs_env gs_ufile gs_rfile gs_roff gs_uoff gs_orders].
    rewrite Er, Eu, !dget_dset_same.
    pose proof (file_bytes dec_r Hr result_line rt (gs_roff g) (gs_orders g) Kr Lr) as F1.
    destruct (read_file go result_line rt (gs_roff g) (gs_orders g)) as [[x1 roff] o1]. destruct F1 as [-> L1].
    destruct x1 as [x1|].
    { do 3 eexists. split; [reflexivity|]. split; [reflexivity|]. exists rt, ut. repeat split; try assumption. }
    cbn [set_rread gs_uoff].
    pose proof (file_bytes dec_u Hu (update_line ptime f3 f4) ut (gs_uoff g) o1 Ku Lu) as F2.
    destruct (read_file go (update_line ptime f3 f4) ut (gs_uoff g) o1) as [[x2 uoff] o2]. destruct F2 as [-> L2].
    destruct x2 as [x2|].
    { do 3 eexists. split; [reflexivity|]. split; [reflexivity|]. exists rt, ut. repeat split; try assumption. }
    unfold save_orders. cbn [set_uread set_rread gs_orders gs_env gs_day gs_data].
    destruct (forallb _ _); [destruct (ge_save (gs_env g)) eqn:Es|].
    all: do 3 eexists; split; [reflexivity|]; split; [reflexivity|]; exists rt, ut; repeat split; assumption.
  Qed.
End Codec.
Print Assumptions C84_same_codec_partial.

(** ** UTF-8 is such a codec *)
Section Utf8.
  Open Scope N_scope.
  Lemma ltb_t a b : a < b -> (a <? b) = true. Proof. apply N.ltb_lt. Qed.
  Lemma ltb_f a b : b <= a -> (a <? b) = false. Proof. apply N.ltb_ge. Qed.
  Lemma cont_mod x : cont (128 + x mod 64) = true.
  Proof.
    pose proof (N.mod_lt x 64 ltac:(lia)) as H. revert H. generalize (x mod 64). intros y H. unfold cont.
    apply andb_true_iff. rewrite N.leb_le, N.ltb_lt. lia.
  Qed.
  Lemma utf8_step f c s : scalar c = true -> utf8_dec (S f) (utf8_char c ++ s) = option_map (cons c) (utf8_dec f s).
  Proof.
    intro Hs. assert (Hmax : c < 1114112).
    { unfold scalar in Hs. apply orb_true_iff in Hs. rewrite andb_true_iff, !N.ltb_lt in Hs. lia. }
    unfold utf8_char.
    pose proof (N.div_mod' c 64) as E1. pose proof (N.mod_lt c 64 ltac:(lia)) as M1.
    pose proof (N.div_mod' (c / 64) 64) as E2. pose proof (N.mod_lt (c / 64) 64 ltac:(lia)) as M2. rewrite N.div_div in E2 by lia. change (64 * 64) with 4096 in E2.
    pose proof (N.div_mod' (c / 4096) 64) as E3. pose proof (N.mod_lt (c / 4096) 64 ltac:(lia)) as M3. rewrite N.div_div in E3 by lia. change (4096 * 64) with 262144 in E3.
    pose proof (cont_mod c) as C1. pose proof (cont_mod (c / 64)) as C2. pose proof (cont_mod (c / 4096)) as C3.
    assert (B1 : c < 2048 -> c / 64 < 32) by (intro; apply N.div_lt_upper_bound; lia).
    assert (B2 : c < 65536 -> c / 4096 < 16) by (intro; apply N.div_lt_upper_bound; lia).
    assert (B3 : c / 262144 < 5) by (apply N.div_lt_upper_bound; lia).
    set (r2 := c / 64 mod 64) in *. set (r3 := c / 4096 mod 64) in *. clearbody r2 r3.
    set (r1 := c mod 64) in *. set (q1 := c / 64) in *. set (q2 := c / 4096) in *. set (q3 := c / 262144) in *. clearbody r1 q1 q2 q3.
    destruct (N.ltb_spec c 128) as [H|H].
    { cbn [app utf8_dec]. rewrite ltb_t by exact H. rewrite Hs. reflexivity. }
    destruct (N.ltb_spec c 2048) as [H2|H2].
    { specialize (B1 H2). remember (192 + q1) as a eqn:Ea. remember (128 + r1) as b eqn:Eb.
      cbn [app utf8_dec]. rewrite (ltb_f a 128), (ltb_f a 192) by lia. rewrite C1. cbn [negb]. rewrite (ltb_t a 224) by lia.
      replace ((a - 192) * 64 + (b - 128)) with c by lia. rewrite ltb_f by lia. rewrite Hs. reflexivity. }
    destruct (N.ltb_spec c 65536) as [H3|H3].
    { specialize (B2 H3). remember (224 + q2) as a eqn:Ea. remember (128 + r2) as b eqn:Eb. remember (128 + r1) as d eqn:Ed.
      cbn [app utf8_dec]. rewrite (ltb_f a 128), (ltb_f a 192) by lia. rewrite C2. cbn [negb]. rewrite (ltb_f a 224) by lia. rewrite C1. cbn [negb]. rewrite (ltb_t a 240) by lia.
      replace ((a - 224) * 4096 + (b - 128) * 64 + (d - 128)) with c by lia. rewrite ltb_f by lia. rewrite Hs. reflexivity. }
    remember (240 + q3) as a eqn:Ea. remember (128 + r3) as b eqn:Eb. remember (128 + r2) as d eqn:Ed. remember (128 + r1) as e eqn:Ee.
    cbn [app utf8_dec]. rewrite (ltb_f a 128), (ltb_f a 192) by lia. rewrite C3. cbn [negb]. rewrite (ltb_f a 224) by lia. rewrite C2. cbn [negb]. rewrite (ltb_f a 240) by lia.
    rewrite C1. cbn [negb]. rewrite (ltb_t a 248) by lia.
    replace ((a - 240) * 262144 + (b - 128) * 4096 + (d - 128) * 64 + (e - 128)) with c by lia.
    rewrite ltb_f by lia. rewrite Hs. reflexivity.
  Qed.
  Lemma utf8_some c : utf8_char c <> [].
  Proof. unfold utf8_char. destruct (c <? 128); [discriminate|]. destruct (c <? 2048); [discriminate|]. destruct (c <? 65536); discriminate. Qed.
  Theorem C84_utf8 : codec utf8_char (fun c => scalar c = true) /\ reads utf8_decode utf8_char (fun c => scalar c = true).
  Proof.
    split.
    - split.
      + reflexivity.
      + intros c _ Hn. unfold utf8_char, NL in *. destruct (N.ltb_spec c 128) as [H|H]; [intros [E|[]]; apply Hn; exact E|].
        destruct (c <? 2048); [|destruct (c <? 65536)]; cbn [In]; intro X.
        all: assert (Y : forall k m : N, 128 <= k -> k + m = 10 -> False) by (intros; lia).
        all: repeat destruct X as [X|X]; try exact X; refine (Y _ _ _ X); lia.
      + intros c _. apply utf8_some.
    - intros t Ht. unfold utf8_decode.
      assert (G : forall f, (List.length (bytes utf8_char t) < f)%nat -> utf8_dec f (bytes utf8_char t) = Some t); [|apply G; lia].
      induction Ht as [|c t Hc _ IH]; intros f Hf; destruct f as [|f]; try (cbn in Hf; lia); [reflexivity|].
      unfold bytes in *. cbn [flat_map] in *. rewrite utf8_step by exact Hc. rewrite IH; [reflexivity|]. rewrite app_length in Hf.
      pose proof (utf8_some c). destruct (utf8_char c); [congruence|cbn in Hf; lia].
  Qed.
End Utf8.
Print Assumptions C84_utf8.

(** ** The claim: with file_encoding set to the broker's encoding the texts are read as
    written, whatever the locale. *)
Definition as_written : Prop :=
  forall ptime f3 f4 go enc ok enc_l ok_l dec_r dec_u,
    codec enc ok -> reads dec_u enc ok -> codec enc_l ok_l -> reads dec_r enc_l ok_l ->
    forall g b, encoded enc ok g b ->
      gs_orders (snd (gate_sync_orders ptime f3 f4 go g)) = gs_orders (snd (sync_bytes ptime f3 f4 go dec_r dec_u b)).

(** False: the result file is read with the locale's encoding; here Latin-1, while the broker
    writes UTF-8.  The message of a rejection is garbled. *)
Lemma latin1_codec : codec (fun c => [c]) (fun c => (c <? 256)%N = true) /\ reads latin1_decode (fun c => [c]) (fun c => (c <? 256)%N = true).
Proof.
  split.
  - split; [reflexivity|intros c _ Hn [E|[]]; exact (Hn E)|discriminate].
  - intros t Ht. assert (E : bytes (fun c => [c]) t = t) by (clear; induction t as [|c t IH]; [reflexivity|unfold bytes in *; cbn [flat_map app]; rewrite IH; reflexivity]).
    rewrite E. unfold latin1_decode. rewrite (proj2 (forallb_forall _ _)); [reflexivity|]. apply Forall_forall. exact Ht.
Qed.
(** "é" as one code point *)
Definition r_accent : str := lit "t,1,77,1,E1,refus" ++ [233%N; NL].
Definition text_g : gst := with_files r_accent u_head (w_gate demo_w1).
Definition byte_g : gst := set_bfiles [(19000, bytes utf8_char r_accent)] [(19000, bytes utf8_char u_head)] (w_gate demo_w1).
Definition err_of (g : gst) : option (option str) := option_map i_err (dget (lit "77") (gs_orders g)).
Lemma text_byte : encoded utf8_char (fun c => scalar c = true) text_g byte_g.
Proof.
  exists r_accent, u_head. repeat split; try reflexivity; try (apply Forall_forall, forallb_forall; vm_compute; reflexivity).
  - apply Nat.leb_le. vm_compute. reflexivity.
  - apply Nat.leb_le. vm_compute. reflexivity.
Qed.
Theorem C84_locale_refuted : ~ as_written.
Proof.
  intros H. destruct C84_utf8 as [A B]. destruct latin1_codec as [C D].
  pose proof (H demo_ptime demo_f3 demo_f4 demo_go utf8_char _ _ _ latin1_decode utf8_decode A B C D text_g byte_g text_byte) as E.
  apply (f_equal (fun o => option_map i_err (dget (lit "77") o))) in E. vm_compute in E. discriminate.
Qed.
Print Assumptions C84_locale_refuted.
Example C84_demo :
  err_of (snd (gate_sync_orders demo_ptime demo_f3 demo_f4 demo_go text_g)) = Some (Some (lit "refus" ++ [233%N])) /\
  err_of (snd (sync_bytes demo_ptime demo_f3 demo_f4 demo_go utf8_decode utf8_decode byte_g)) = Some (Some (lit "refus" ++ [233%N])) /\
  err_of (snd (sync_bytes demo_ptime demo_f3 demo_f4 demo_go latin1_decode utf8_decode byte_g)) = Some (Some (lit "refus" ++ [195%N; 169%N])) /\
  utf8_decode [228; 184; 173]%N = Some [20013%N] /\ utf8_decode [240; 159; 152; 128]%N = Some [128512%N] /\
  map utf8_decode [[192; 128]; [237; 160; 128]; [255]; [228; 184]]%N = [None; None; None; None].
Proof. vm_compute. repeat split. Qed.

(** The claim: with bad lines ignored, a line that can not be decoded does not keep the other
    lines from being read. *)
Definition only_its_line : Prop :=
  forall ptime f3 f4 go dec_r dec_u g d r bad t, go_ignore go = true -> ge_date (gs_env g) = d -> gs_uoff g = 0%nat ->
    SGate.whole bad -> dec_u bad = None ->
    gs_orders (snd (sync_bytes ptime f3 f4 go dec_r dec_u (set_bfiles r [(d, bad ++ t)] g))) =
    gs_orders (snd (sync_bytes ptime f3 f4 go dec_r dec_u (set_bfiles r [(d, t)] g))).
(** False: the text is decoded by chunks, so the lines around it are lost too, for good. *)
Definition u_foreign : list N := removelast u_else ++ [255%N; NL].
Theorem C84_undecodable_refuted : ~ only_its_line.
Proof.
  intros H.
  pose proof (H demo_ptime demo_f3 demo_f4 demo_go utf8_decode utf8_decode (w_gate demo_w1) 19000 [(19000, [])] u_foreign u_done eq_refl eq_refl eq_refl) as E.
  assert (W : SGate.whole u_foreign).
  { exists (removelast u_else ++ [255%N]). split; [vm_compute; reflexivity|]. intro X.
    assert (Y : existsb (N.eqb NL) (removelast u_else ++ [255%N]) = true) by (apply existsb_exists; exists NL; split; [exact X|apply N.eqb_refl]).
    vm_compute in Y. discriminate. }
  assert (U : utf8_decode u_foreign = None) by (vm_compute; reflexivity).
  specialize (E W U). apply (f_equal (fun o => option_map i_status (dget (lit "77") o))) in E. vm_compute in E. discriminate.
Qed.
Print Assumptions C84_undecodable_refuted.
Example C84_undecodable_demo :
  let s := sync_bytes demo_ptime demo_f3 demo_f4 demo_go utf8_decode utf8_decode in
  let g1 := snd (s (set_bfiles [(19000, [])] [(19000, u_foreign ++ u_done)] (w_gate demo_w1))) in
  (state_of "77" g1, state_of "77" (snd (s g1)), Nat.eqb (gs_uoff g1) (List.length (u_foreign ++ u_done))) = (Some (lit "new", Some 0), Some (lit "new", Some 0), true) /\
  state_of "77" (snd (s (set_bfiles [(19000, [])] [(19000, u_done)] (w_gate demo_w1)))) = Some (lit "filled", Some 300).
Proof. vm_compute. repeat split. Qed.

(** What happens instead: with bad lines ignored all that is new in the file is passed over at
    once, as if it were not there, and is not read again; otherwise the synchronization fails
    and stays where it was, so that it fails again every time. *)
Lemma loop_ignores go step ls : go_ignore go = true -> forall pos off o, fst (fst (read_loop go step ls pos off o)) = None.
Proof.
  intros Hi. induction ls as [|l ls IH]; intros pos off o; [reflexivity|]. cbn [read_loop]. destruct (step l o) as [|o'| |o' x]; try apply IH; [reflexivity|]. rewrite Hi. apply IH.
Qed.
Lemma save_same g : gs_uoff (snd (save_orders g)) = gs_uoff g /\ gs_orders (snd (save_orders g)) = gs_orders g.
Proof. unfold save_orders. destruct (forallb _ _); [|auto]. destruct (ge_save (gs_env g)); auto. Qed.
Theorem C84_undecodable_lost :
  forall ptime f3 f4 go dec_r dec_u g d ut rt, ge_date (gs_env g) = d -> dget d (gs_ufile g) = Some ut -> dget d (gs_rfile g) = Some rt ->
    (exists l, In l (lines_of (skipn (gs_uoff g) ut)) /\ dec_u l = None) ->
    let sync := sync_bytes ptime f3 f4 go dec_r dec_u in
    (go_ignore go = true -> gs_uoff (snd (sync g)) = List.length ut /\
       gs_orders (snd (sync g)) = gs_orders (snd (sync (set_bfiles (gs_rfile g) [(d, firstn (gs_uoff g) ut)] g)))) /\
    (go_ignore go = false -> (exists x, fst (sync g) = Err x) /\ gs_uoff (snd (sync g)) = gs_uoff g).
Proof.
  intros ptime f3 f4 go dec_r dec_u g d ut rt Hd Hu Hr (l & Hl & Hn).
  assert (B : forallb (decodable dec_u) (lines_of (skipn (gs_uoff g) ut)) = false).
  { destruct (forallb _ _) eqn:E; [|reflexivity]. rewrite forallb_forall in E. specialize (E l Hl). unfold decodable in E. rewrite Hn in E. discriminate. }
  cbv zeta. split; intros Hi.
  - assert (X : forall t off o, fst (fst (read_bytes go dec_r result_line t off o)) = None).
    { intros t off o. unfold read_bytes. destruct (forallb (decodable dec_r) _); [apply loop_ignores; exact Hi|]. rewrite Hi. reflexivity. }
    unfold sync_bytes. cbn [set_bfiles gs_env gs_ufile gs_rfile gs_roff gs_orders]. rewrite Hd, Hu, Hr. cbn [dget]. rewrite eqb_refl.
    specialize (X rt (gs_roff g) (gs_orders g)). destruct (read_bytes go dec_r result_line rt (gs_roff g) (gs_orders g)) as [[x1 roff] o1]. cbn [fst] in X. subst x1.
    cbn [gs_uoff set_rread]. unfold read_bytes. rewrite B, Hi.
    rewrite skipn_firstn_comm, Nat.sub_diag. cbn [firstn lines_of forallb read_loop].
    match goal with |- context [save_orders ?a] => pose proof (save_same a) as [S1 S2]; destruct (save_orders a) as [[u|x] g3] end;
    cbn [snd] in S1, S2; cbn [snd]; rewrite S1, S2;
    match goal with |- context [save_orders ?a] => pose proof (save_same a) as [S3 S4]; destruct (save_orders a) as [[u'|x'] g4] end;
    cbn [snd] in S3, S4; cbn [snd]; rewrite S4; auto.
  - unfold sync_bytes. rewrite Hd, Hu, Hr. destruct (read_bytes go dec_r result_line rt (gs_roff g) (gs_orders g)) as [[[x1|] roff] o1]; [cbn [fst snd set_rread gs_uoff]; eauto|].
    cbn [gs_uoff set_rread]. unfold read_bytes. rewrite B, Hi. cbn [fst snd set_uread gs_uoff]. eauto.
Qed.
Print Assumptions C84_undecodable_lost.
