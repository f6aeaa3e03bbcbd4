(** C161: the encoding of the balance's files. *)
From Coq Require Import String.
From Verif Require Import PyBase PyStr MTime MDate MOrder MAccount MApi MGate MBalance PyCsv MCsv MCodec MEncode MFolio MBalBytes SCodec SUtf8 SEncode TCodec TUtf8 TEncode TGate TFolio.
Open Scope list_scope.
Open Scope Z_scope.

Lemma decode_iff b t : utf8_decode b = Some t <-> spelled utf8_enc t b.
Proof.
  split; [|apply (proj1 C159_encodings)]. intro H. apply C84_utf8_exact in H as (bs & F & ->). exists bs. split; [|reflexivity].
  induction F as [|c x t bs [Hu Hp] _ IH]; constructor; [|exact IH]. unfold utf8_enc. rewrite (proj2 (scalar_iff c) Hu), (pattern_char c x Hp). reflexivity.
Qed.
(** [holds file text]: the file is there as bytes and the text are its characters in UTF-8,
    without a mark or after one *)
Definition no_mark (t : str) : Prop := match t with c :: _ => c <> 65279%N | [] => True end.
Definition holds (file text : option str) : Prop :=
  match file, text with
  | Some b, Some t => spelled utf8_enc t b /\ no_mark t \/ spelled utf8_enc (65279%N :: t) b
  | None, None => True
  | _, _ => False
  end.
Lemma read_same file text : holds file text -> read_csv_b file = read_csv_q text.
Proof.
  destruct file as [b|], text as [t|]; cbn [holds]; try contradiction; [|reflexivity]. intro H. unfold read_csv_b.
  destruct H as [[H N]|H]; rewrite (proj2 (decode_iff _ _) H); cbn [skip_mark]; [|rewrite N.eqb_refl; reflexivity].
  destruct t as [|c t]; [reflexivity|]. cbn [skip_mark no_mark] in *. rewrite (proj2 (N.eqb_neq _ _) N). reflexivity.
Qed.

Section Bytes.
  Context {F : Type} (pnum pyfloat : str -> option F) (trunc : F -> option Z) (round4 round3 : F -> Z) (minus : F -> F -> F).
  Notation on_bytes := (sync_balance_b pnum pyfloat trunc round4 round3 minus).
  Notation on_text := (sync_balance_q pnum pyfloat trunc round4 round3 minus).

  (** Files in UTF-8, with or without a mark, are read as the texts they hold. *)
  Theorem C161_utf8 : forall acct fa fp ta tp, holds fa ta -> holds fp tp -> on_bytes acct fa fp = on_text acct ta tp.
  Proof.
    intros acct fa fp ta tp Ha Hp. unfold sync_balance_b, sync_balance_q. rewrite (read_same _ _ Ha), (read_same _ _ Hp).
    destruct fa, ta; try contradiction; [|reflexivity]. destruct acct; [reflexivity|]. destruct (read_csv_q _) as [adf|]; [|reflexivity]. cbn [rbind].
    destruct (fr_rows adf); [reflexivity|]. destruct (asset_loop _ _ _ _ _ _ _ _); [|reflexivity]. cbn [rbind]. destruct fp, tp; try contradiction; reflexivity.
  Qed.

  (** ASCII files are read as they are, whatever the broker's encoding over ASCII. *)
  Theorem C161_ascii : forall e acct ta tp ba bp, over_ascii e -> SEncode.ascii ta -> SEncode.ascii tp -> spelled e ta ba -> spelled e tp bp ->
    on_bytes acct (Some ba) (Some bp) = on_text acct (Some ta) (Some tp).
  Proof.
    intros e acct ta tp ba bp O Aa Ap Sa Sp.
    assert (G : forall t b, SEncode.ascii t -> spelled e t b -> holds (Some b) (Some t)).
    { intros t b A Sb. rewrite <- (spelled_fun e t t b (ascii_can e t O A) Sb). left. split; [apply ascii_can; [apply C159_encodings|exact A]|].
      destruct A as [|c t' Hc _]; [exact I|]. cbn. lia. }
    apply C161_utf8; apply G; assumption.
  Qed.

  (** If one of the files is not UTF-8, anywhere in it, the account is left as it was. *)
  Context (ptime f3 f4 : str -> option Z) (go : gopts).
  Notation gt := (bytes_gate pnum pyfloat trunc round4 round3 minus ptime f3 f4 go).
  Theorem C161_not_utf8 : forall a f b, (dget (today f) (fg_assets f) = Some b \/ dget (today f) (fg_positions f) = Some b) ->
    (forall t, ~ spelled utf8_enc t b) -> acc_sync_balance gt a f = (a, f) /\ exists x, fst (g_sync_balance gt f) = Err x.
  Proof.
    intros a f b Hf Hn. assert (D : read_csv_b (Some b) = Err ValueError).
    { unfold read_csv_b. destruct (utf8_decode b) as [t|] eqn:E; [|reflexivity]. apply decode_iff in E. destruct (Hn t E). }
    assert (G : exists x, on_bytes (go_acct go) (dget (today f) (fg_assets f)) (dget (today f) (fg_positions f)) = Err x).
    { unfold sync_balance_b. destruct Hf as [-> | E].
      - destruct (go_acct go); [eauto|]. rewrite D. cbn. eauto.
      - destruct (dget (today f) (fg_assets f)) as [ba|]; [|eauto]. destruct (go_acct go); [eauto|]. destruct (read_csv_b (Some ba)) as [adf|]; [|cbn; eauto]. cbn [rbind].
        destruct (fr_rows adf); [eauto|]. destruct (asset_loop _ _ _ _ _ _ _ _); [|cbn; eauto]. cbn [rbind]. rewrite E, D. cbn. eauto. }
    destruct G as (x & G). unfold acc_sync_balance. cbn [g_sync_balance bytes_gate]. unfold bytes_balance. rewrite G. cbn [rbind fst]. split; [reflexivity|eauto].
  Qed.
  (** The gate on bytes does what the gate on texts does (C97), call by call. *)
  Definition same_files (f ft : fgst) : Prop :=
    fg_gate f = fg_gate ft /\ forall d, holds (dget d (fg_assets f)) (dget d (fg_assets ft)) /\ holds (dget d (fg_positions f)) (dget d (fg_positions ft)).
  Definition same {A} (x y : A * fgst) : Prop := fst x = fst y /\ same_files (snd x) (snd y).
  Notation tgt := (full_gate ptime f3 f4 go pnum pyfloat trunc round4 round3 minus).
  Theorem C161_gate : forall f ft, same_files f ft ->
    (forall o, same (g_order gt o f) (g_order tgt o ft)) /\ (forall i, same (g_cancel gt i f) (g_cancel tgt i ft)) /\
    same (g_sync_orders gt f) (g_sync_orders tgt ft) /\ same (g_sync_balance gt f) (g_sync_balance tgt ft) /\
    forall a, same (acc_sync_balance gt a f) (acc_sync_balance tgt a ft).
  Proof.
    intros f ft H. pose proof H as [Hg Hd].
    assert (B : same (g_sync_balance gt f) (g_sync_balance tgt ft)).
    { cbn [g_sync_balance bytes_gate full_gate]. unfold bytes_balance, full_balance. split; [|exact H]. cbn [fst].
      assert (today f = today ft) as -> by (unfold today; rewrite Hg; reflexivity). destruct (Hd (today ft)) as [Ha Hp].
      rewrite (C161_utf8 (go_acct go) _ _ _ _ Ha Hp). reflexivity. }
    assert (L : forall A (x : res A * gst), same (lift f x) (lift ft x)) by (intros A x; split; [reflexivity|]; split; [reflexivity|exact Hd]).
    split; [intro o; cbn [g_order bytes_gate full_gate]; rewrite Hg; apply L|]. split; [intro i; cbn [g_cancel bytes_gate full_gate]; rewrite Hg; apply L|].
    split; [cbn [g_sync_orders bytes_gate full_gate]; rewrite Hg; apply L|]. split; [exact B|].
    intro a. unfold acc_sync_balance. destruct B as [B1 B2]. destruct (g_sync_balance gt f) as [r1 g1], (g_sync_balance tgt ft) as [r2 g2]. cbn [fst snd] in *. subst r2.
    destruct r1 as [b|]; [destruct (b_cash b), (b_pos b)|]; (split; [reflexivity|exact B2]).
  Qed.
End Bytes.
Print Assumptions C161_utf8.
Print Assumptions C161_ascii.
Print Assumptions C161_not_utf8.
Print Assumptions C161_gate.

(** ** The claim: with file_encoding set to the encoding of the broker's files the balance is
    read as it was written. *)
Definition balance_as_written : Prop :=
  forall e ta tp ba bp, over_ascii e -> proper e -> spelled e ta ba -> spelled e tp bp ->
    sync_balance_b py_int py_int Some (fun z => z) (fun z => z) Z.sub (lit "8888") (Some ba) (Some bp)
    = sync_balance_q py_int py_int Some (fun z => z) (fun z => z) Z.sub (lit "8888") (Some ta) (Some tp).
(** a position of another account has a symbol with an accent, in Latin-1 *)
Definition accent : list str := [[51; 52; 44; 233; 44; 49; 44; 49; 44; 49; 44; 49; 44; 49]%N; lit "8888,000001.SZ,100,50,9,10,1000"].
Theorem C161_encoding_refuted : ~ balance_as_written.
Proof.
  intro H. destruct C159_encodings as (_ & (L1 & L2 & _ & L4) & _).
  assert (G : forall t, forallb (fun c => (c <=? 255)%N) t = true -> spelled latin1_enc t t).
  { intros t Ht. induction t as [|c t IH]; [apply spelled_nil|]. cbn [forallb] in Ht. apply andb_prop in Ht as [Hc Ht]. apply (spelled_app latin1_enc [c] t [c] t); [|apply IH, Ht].
    exists [[c]]. split; [|reflexivity]. constructor; [|constructor]. unfold latin1_enc. apply N.leb_le in Hc. destruct (N.ltb_spec c 256); [reflexivity|lia]. }
  specialize (H latin1_enc (asset_file cash1) (position_file accent) (asset_file cash1) (position_file accent) L2 L1 (G (asset_file cash1) eq_refl) (G (position_file accent) eq_refl)).
  vm_compute in H. discriminate.
Qed.
Print Assumptions C161_encoding_refuted.

(** The files of the portfolio example: as they are; after a mark; with a symbol of another
    account in UTF-8 and in Latin-1. *)
Definition bgate := bytes_gate py_int py_int Some (fun z => z) (fun z => z) Z.sub (fun _ => None) demo_f3 demo_f4 demo_go.
Definition with_bytes (a p : list N) : fgst := FG demo_g0 [(19000, a)] [(19000, p)].
Definition utf8_of (t : str) : list N := match enc_text utf8_enc t with Some b => b | None => [] end.
Example C161_demo :
  let show a p := seen (fst (acc_sync_balance bgate acct_new (with_bytes a p))) in
  show (asset_file cash1) (position_file held1) = (1000, 300, 200, [(lit "000001.XSHE", 100, 50); (lit "600002.XSHG", 200, 0)]) /\
  show (utf8_of (65279%N :: asset_file cash1)) (utf8_of (position_file accent)) = (1000, 300, 200, [(lit "000001.XSHE", 100, 50)]) /\
  show (asset_file cash1) (position_file accent) = (0, 0, 0, []) /\
  holds (Some (utf8_of (65279%N :: asset_file cash1))) (Some (asset_file cash1)) /\ utf8_decode (position_file accent) = None.
Proof.
  cbn zeta. split; [vm_compute; reflexivity|]. split; [vm_compute; reflexivity|]. split; [vm_compute; reflexivity|].
  split; [right; apply enc_iff; vm_compute; reflexivity|vm_compute; reflexivity].
Qed.
Example C161_demo_gate :
  same_files (with_bytes (utf8_of (65279%N :: asset_file cash1)) (utf8_of (position_file accent))) (with_bytes (asset_file cash1) (position_file accent)).
Proof.
  split; [reflexivity|]. intro d. unfold with_bytes. cbn [fg_assets fg_positions dget]. destruct (eqb d 19000); [|split; exact I].
  split; [right|left; split; [|vm_compute; discriminate]]; apply enc_iff; vm_compute; reflexivity.
Qed.
