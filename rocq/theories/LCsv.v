(** pandas' tokenizer: runs over written fields, and texts without quotes. *)
From Verif Require Import PyBase PyStr LStr MGate MBalance LBalance PyCsv SCsv.
Open Scope N_scope.

Lemma trun_app k a b : trun k (a ++ b) = (fst (trun (fst (trun k a)) b), snd (trun k a) ++ snd (trun (fst (trun k a)) b)).
Proof.
  revert k. induction a as [|c a IH]; intros k; cbn [trun app fst snd]; [destruct (trun k b); reflexivity|].
  destruct (tstep k c) as [k1 o1]. rewrite IH. destruct (trun k1 a) as [k2 o2]. cbn [fst snd].
  destruct (trun k2 b) as [k3 o3]. cbn [fst snd]. rewrite app_assoc. reflexivity.
Qed.

(** ** written fields *)

(** the field [f] of the record [r] is complete unless more follows *)
Definition ready (r : list str) (f : str) (k : tconf) : Prop :=
  exists st, k = (TC st f r) /\ (st = SFld \/ st = SIn \/ st = SQQ).
Lemma run_plain_in f : forall g r, Forall (fun c => c <> 10 /\ c <> 13 /\ c <> 44) f -> trun (TC SIn g r) f = (TC SIn (g ++ f) r, []).
Proof.
  induction f as [|c f IH]; intros g r H; cbn [trun]; [rewrite app_nil_r; reflexivity|].
  inversion H as [|? ? (H1 & H2 & H3) Hf]; subst. cbn [tstep]. unfold in_line, NL, CR, COMMA.
  apply N.eqb_neq in H1, H2, H3. rewrite H1, H2, H3. cbv beta iota zeta. rewrite (IH (g ++ [c]) r Hf). rewrite <- app_assoc. reflexivity.
Qed.
Lemma run_doubled f : forall g r, trun (TC SQuo g r) (doubled f) = (TC SQuo (g ++ f) r, []).
Proof.
  induction f as [|c f IH]; intros g r; cbn [doubled trun]; [rewrite app_nil_r; reflexivity|].
  destruct (N.eqb_spec c 34) as [->|E].
  - cbn [trun tstep]. change (34 =? DQ) with true. cbn iota. cbn [trun tstep]. unfold in_line at 1.
    change (34 =? NL) with false. change (34 =? CR) with false. change (34 =? COMMA) with false. change (34 =? DQ) with true. cbn iota.
    cbv beta iota zeta. rewrite (IH (g ++ [34]) r). rewrite <- app_assoc. reflexivity.
  - cbn [trun tstep]. unfold DQ at 1. apply N.eqb_neq in E. rewrite E. cbv beta iota zeta. rewrite (IH (g ++ [c]) r). rewrite <- app_assoc. reflexivity.
Qed.
Lemma run_field f w r : field_text f w -> exists k, trun (TC SFld [] r) w = (k, []) /\ ready r f k.
Proof.
  intros [f' [Hp Hh]|f'].
  - destruct f' as [|c f']; [exists (TC SFld [] r); split; [reflexivity|exists SFld; auto]|].
    inversion Hp as [|? ? (H1 & H2 & H3) Hf]; subst. exists (TC SIn (c :: f') r). split; [|exists SIn; auto].
    cbn [trun tstep]. unfold in_line, NL, CR, COMMA, DQ. assert (H4 : c <> 34) by (intros ->; apply Hh; reflexivity).
    apply N.eqb_neq in H1, H2, H3, H4. rewrite H1, H2, H3, H4. cbn [app]. cbv beta iota zeta. rewrite (run_plain_in f' [c] r Hf). reflexivity.
  - exists (TC SQQ f' r). split; [|exists SQQ; auto]. cbn [trun tstep]. unfold in_line at 1.
    change (34 =? NL) with false. change (34 =? CR) with false. change (34 =? COMMA) with false. change (34 =? DQ) with true. cbn iota.
    cbv beta iota zeta. rewrite trun_app, (run_doubled f' [] r). cbn [app fst snd trun tstep]. change (34 =? DQ) with true. reflexivity.
Qed.
Lemma ready_comma r f k : ready r f k -> tstep k 44 = (TC SFld [] (r ++ [f]), []).
Proof. intros (st & -> & [->|[->| ->]]); reflexivity. Qed.
Lemma ready_eol r f k eol : ready r f k -> eol = [10] \/ eol = [13; 10] -> trun k eol = (t0, [r ++ [f]]).
Proof. intros (st & -> & [->|[->| ->]]) [-> | ->]; reflexivity. Qed.

Lemma run_fields fs ws : Forall2 field_text fs ws -> fs <> [] -> forall r, exists k f fs', trun (TC SFld [] r) (commas ws) = (k, []) /\ r ++ fs = fs' ++ [f] /\ ready fs' f k.
Proof.
  induction 1 as [|f w fs ws Hf HF IH]; intros Hne r; [contradiction|].
  destruct (run_field f w r Hf) as (k & Ek & Hk). destruct HF as [|f2 w2 fs ws Hf2 HF].
  - cbn [commas]. exists k, f, r. auto.
  - cbn [commas]. rewrite trun_app, Ek. cbn [fst snd app trun]. rewrite (ready_comma r f k Hk). cbv beta iota zeta.
    destruct (IH ltac:(discriminate) (r ++ [f])) as (k' & f' & fs' & E1 & E2 & E3). cbn [commas] in E1. rewrite E1. exists k', f', fs'.
    rewrite <- app_assoc in E2. cbn [app] in E2. auto.
Qed.

(** a line that is not blank starts like a field *)
Lemma run_blanks b : forall w, forallb is_blank b = true -> trun (TC (SBlank w) [] []) b = (TC (SBlank (w ++ b)) [] [], []).
Proof.
  induction b as [|c b IH]; intros w H; cbn [trun]; [rewrite app_nil_r; reflexivity|]. cbn [forallb] in H. apply andb_prop in H as [Hc Hb].
  cbn [tstep]. assert (E1 : (c =? NL) = false /\ (c =? CR) = false).
  { unfold is_blank, NL, CR in *. destruct (N.eqb_spec c 32) as [->|]; [auto|]. destruct (N.eqb_spec c 9) as [->|]; [auto|discriminate Hc]. }
  destruct E1 as [-> ->]. rewrite Hc. cbv beta iota zeta. rewrite (IH (w ++ [c]) Hb), <- app_assoc. reflexivity.
Qed.
Lemma blank_char c : is_blank c = true -> c <> 10 /\ c <> 13 /\ c <> 44 /\ c <> 34.
Proof. unfold is_blank. destruct (N.eqb_spec c 32) as [->|]; [intros _; repeat split; discriminate|]. destruct (N.eqb_spec c 9) as [->|]; [intros _; repeat split; discriminate|discriminate]. Qed.
Lemma start_field b c s : forallb is_blank b = true -> is_blank c = false -> c <> 10 -> c <> 13 -> trun t0 (b ++ c :: s) = trun (TC SFld [] []) (b ++ c :: s).
Proof.
  intros Hb Hc H1 H2. apply N.eqb_neq in H1, H2. destruct b as [|a b].
  - cbn [app trun t0 tstep]. unfold at_start, NL, CR. rewrite H1, H2, Hc. unfold in_line, NL, CR. rewrite H1, H2. cbn iota.
    destruct (c =? COMMA); [reflexivity|]. destruct (c =? DQ); reflexivity.
  - cbn [forallb] in Hb. apply andb_prop in Hb as [Ha Hb]. destruct (blank_char a Ha) as (A1 & A2 & A3 & A4). apply N.eqb_neq in A1, A2, A3, A4.
    cbn [app trun t0 tstep]. unfold at_start, in_line, NL, CR, COMMA, DQ. rewrite A1, A2, A3, A4, Ha. cbn [app]. cbv beta iota zeta.
    rewrite !trun_app, (run_blanks b [a] Hb). cbn [fst snd app].
    assert (Hp : Forall (fun c => c <> 10 /\ c <> 13 /\ c <> 44) b).
    { apply Forall_forall. intros x Hx. rewrite forallb_forall in Hb. destruct (blank_char x (Hb x Hx)) as (? & ? & ? & ?). auto. }
    rewrite (run_plain_in b [a] [] Hp). cbn [fst snd app trun tstep]. unfold NL, CR. rewrite H1, H2, Hc. reflexivity.
Qed.

(** the first character of a line that is not blank *)
Lemma nonblank_split s : forallb is_blank s = false -> exists b c t, s = b ++ c :: t /\ forallb is_blank b = true /\ is_blank c = false.
Proof.
  induction s as [|c s IH]; cbn [forallb]; [discriminate|]. destruct (is_blank c) eqn:E; cbn [andb]; intros H.
  - destruct (IH H) as (b & d & t & -> & Hb & Hd). exists (c :: b), d, t. cbn [forallb]. rewrite E. auto.
  - exists [], c, s. auto.
Qed.
Lemma commas_start fs ws : Forall2 field_text fs ws -> blank_line (commas ws) = false ->
  exists b c t, commas ws = b ++ c :: t /\ forallb is_blank b = true /\ is_blank c = false /\ c <> 10 /\ c <> 13.
Proof.
  intros HF Hb. destruct HF as [|f w fs ws Hf HF]; [discriminate Hb|].
  destruct Hf as [f [Hp _]|f].
  - destruct (forallb is_blank f) eqn:Ef.
    + destruct ws as [|w2 ws]; [cbn [commas] in Hb; unfold blank_line in Hb; congruence|]. exists f, 44, (commas (w2 :: ws)).
      split; [reflexivity|]. split; [exact Ef|]. split; [reflexivity|]. split; discriminate.
    + destruct (nonblank_split f Ef) as (b & c & t & -> & H1 & H2). rewrite Forall_app in Hp. destruct Hp as [_ Hp]. inversion Hp as [|? ? (? & ? & ?) _]; subst.
      exists b, c, (t ++ match ws with [] => [] | _ => 44 :: commas ws end). split; [|auto].
      destruct ws as [|w2 ws]; cbn [commas]; [rewrite app_nil_r; reflexivity|]. rewrite <- app_assoc. reflexivity.
  - destruct ws as [|w2 ws]; cbn [commas app]; eexists [], 34, _; (split; [reflexivity|]); repeat split; discriminate.
Qed.

Lemma run_record fs s : record_text fs s -> trun t0 s = (t0, [fs]).
Proof.
  intros [fs' ws eol Hne HF He Hb]. destruct (commas_start fs' ws HF Hb) as (b & c & t & Ec & H1 & H2 & H3 & H4).
  destruct (run_fields fs' ws HF Hne []) as (k & f & fs0 & E1 & E2 & E3). cbn [app] in E2.
  rewrite trun_app. rewrite Ec, (start_field b c t H1 H2 H3 H4), <- Ec, E1. cbn [fst snd app].
  rewrite (ready_eol fs0 f k eol E3 He). cbn [fst snd]. rewrite E2. reflexivity.
Qed.
Lemma run_records rows : forall ts, Forall2 record_text rows ts -> trun t0 (concat ts) = (t0, rows).
Proof.
  induction rows as [|r rows IH]; intros ts H; inversion H as [|? t ? ts' Hr HF]; subst; [reflexivity|].
  cbn [concat]. rewrite trun_app, (run_record r t Hr). cbn [fst snd]. rewrite (IH ts' HF). reflexivity.
Qed.

(** ** texts without quotes *)
Definition outs (k : tconf) (s : str) : res (list (list str)) := let '(k', o) := trun k s in do l <- tfinish k'; Ok (o ++ l).
Lemma outs_cons k c s : outs k (c :: s) = do l <- outs (fst (tstep k c)) s; Ok (snd (tstep k c) ++ l).
Proof.
  unfold outs. cbn [trun]. destruct (tstep k c) as [k1 o1]. cbn [fst snd]. destruct (trun k1 s) as [k2 o2]. destruct (tfinish k2) as [l|]; cbn [rbind]; [rewrite app_assoc|]; reflexivity.
Qed.

Definition recs (ls : list str) : list (list str) := map (split_on COMMA) (filter (fun l => negb (blank_line l)) ls).
Definition tail_recs (f : str) (r : list str) (ls : list str) : list (list str) :=
  match ls with [] => [] | l :: ls' => (r ++ split_on COMMA (f ++ l)) :: recs ls' end.

Lemma recs_blank l ls : blank_line l = true -> recs (l :: ls) = recs ls.
Proof. intros H. unfold recs. cbn [filter]. rewrite H. reflexivity. Qed.
Lemma recs_solid l ls : blank_line l = false -> recs (l :: ls) = split_on COMMA l :: recs ls.
Proof. intros H. unfold recs. cbn [filter]. rewrite H. reflexivity. Qed.

Lemma outs_eat f r s : outs (TC SEat f r) s = do l <- outs t0 s; Ok (r :: l).
Proof.
  destruct s as [|c s]; [reflexivity|]. rewrite !outs_cons.
  assert (E : tstep (TC SEat f r) c = (fst (tstep t0 c), [r])) by (cbn [tstep t0 fst]; unfold at_start; destruct (c =? NL); reflexivity).
  rewrite E. cbn [fst snd]. change (snd (tstep t0 c)) with (@nil (list str)). destruct (outs (fst (tstep t0 c)) s); reflexivity.
Qed.
Lemma outs_nop s : outs (TC SNop [] []) s = outs t0 s.
Proof.
  destruct s as [|c s]; [reflexivity|]. rewrite !outs_cons.
  assert (E : tstep (TC SNop [] []) c = tstep t0 c) by (cbn [tstep t0 fst]; unfold at_start; destruct (c =? NL); reflexivity).
  rewrite E. reflexivity.
Qed.
Lemma ok_nil (x : res (list (list str))) l : x = Ok l -> (do m <- x; Ok ([] ++ m)) = Ok l.
Proof. intros ->. reflexivity. Qed.
Lemma has_char_app c a b : has_char c (a ++ b) = has_char c a || has_char c b.
Proof. unfold has_char. apply existsb_app. Qed.

Lemma unquoted s : has_char 34 s = false ->
  (forall st f r, (st = SFld /\ f = [] \/ st = SIn) -> has_char COMMA f = false -> outs (TC st f r) s = Ok (tail_recs f r (split_lines s))) /\
  outs t0 s = Ok (recs (split_lines s)) /\
  (forall w, forallb is_blank w = true -> outs (TC (SBlank w) [] []) s = Ok (recs (match split_lines s with [] => [] | l :: ls => (w ++ l) :: ls end))).
Proof.
  induction s as [|c s IH]; intros Hq.
  - split; [|split].
    + intros st f r Hst Hf. cbn [split_lines tail_recs]. rewrite app_nil_r, (split_on_none _ _ Hf). destruct Hst as [[-> ->]| ->]; reflexivity.
    + reflexivity.
    + intros w Hw. cbn [split_lines]. rewrite app_nil_r. rewrite recs_blank by exact Hw. reflexivity.
  - assert (Hq' : (c =? 34) = false /\ has_char 34 s = false).
    { unfold has_char in *. cbn [existsb] in Hq. apply orb_false_iff in Hq as [? ?]. rewrite N.eqb_sym. rewrite N.eqb_sym in *. auto. }
    destruct Hq' as [Hc Hs]. destruct (IH Hs) as (I1 & I2 & I3). clear IH Hq.
    pose proof (split_lines_ne s) as Hne. cbn [split_lines].
    assert (A : forall st f r, (st = SFld /\ f = [] \/ st = SIn) -> has_char COMMA f = false ->
       (do l <- outs (fst (in_line st f r c)) s; Ok (snd (in_line st f r c) ++ l)) =
       Ok (tail_recs f r (if (c =? NL) || (c =? CR) then [] :: split_lines s else match split_lines s with [] => [[c]] | l :: ls => (c :: l) :: ls end))).
    { intros st f r Hst Hf. unfold in_line. destruct (N.eqb_spec c NL) as [->|E1].
      - cbn [fst snd orb]. rewrite I2. cbn [rbind tail_recs app]. rewrite app_nil_r, (split_on_none _ _ Hf). reflexivity.
      - destruct (N.eqb_spec c CR) as [->|E2].
        + cbn [fst snd orb]. rewrite outs_eat, I2. cbn [rbind tail_recs app]. rewrite app_nil_r, (split_on_none _ _ Hf). reflexivity.
        + cbn [orb]. destruct (split_lines s) as [|l ls] eqn:El; [contradiction|]. destruct (N.eqb_spec c COMMA) as [->|E3].
          * cbn [fst snd]. apply ok_nil. etransitivity; [apply (I1 SFld [] (r ++ [f])); auto|]. cbn [tail_recs app].
            rewrite split_on_app by exact Hf. rewrite <- app_assoc. reflexivity.
          * assert (Hf' : has_char COMMA (f ++ [c]) = false).
            { rewrite has_char_app, Hf. unfold has_char. cbn [existsb orb]. rewrite orb_false_r. apply N.eqb_neq. congruence. }
            assert (G : outs (TC SIn (f ++ [c]) r) s = Ok (tail_recs f r ((c :: l) :: ls))).
            { rewrite (I1 SIn (f ++ [c]) r) by auto. cbn [tail_recs]. rewrite <- app_assoc. reflexivity. }
            destruct Hst as [[-> ->]| ->]; cbn [fst snd]; [unfold DQ; rewrite Hc|]; cbn [fst snd]; apply ok_nil; exact G. }
    split; [|split].
    + intros st f r Hst Hf. rewrite outs_cons.
      replace (tstep (TC st f r) c) with (in_line st f r c) by (destruct Hst as [[-> ->]| ->]; reflexivity). apply A; assumption.
    + rewrite outs_cons. cbn [tstep t0 fst snd]. apply ok_nil. unfold at_start. destruct (N.eqb_spec c NL) as [->|E1].
      * cbn [orb]. rewrite recs_blank by reflexivity. exact I2.
      * destruct (N.eqb_spec c CR) as [->|E2].
        { cbn [orb]. rewrite outs_nop, recs_blank by reflexivity. exact I2. }
        cbn [orb]. destruct (is_blank c) eqn:Eb.
        { rewrite (I3 [c]) by (cbn [forallb]; rewrite Eb; reflexivity). destruct (split_lines s); [contradiction|]. reflexivity. }
        specialize (A SFld [] [] (or_introl (conj eq_refl eq_refl)) eq_refl).
        replace (snd (in_line SFld [] [] c)) with (@nil (list str)) in A.
        2:{ unfold in_line. apply N.eqb_neq in E1, E2. rewrite E1, E2. destruct (c =? COMMA); [reflexivity|]. destruct (c =? DQ); reflexivity. }
        cbn [orb] in A.
        destruct (outs (fst (in_line SFld [] [] c)) s) as [l0|]; [|discriminate A]. cbn [rbind app] in A. rewrite A.
        destruct (split_lines s) as [|l ls]; [contradiction|]. cbn [tail_recs app]. rewrite recs_solid; [reflexivity|].
        unfold blank_line. cbn [forallb]. rewrite Eb. reflexivity.
    + intros w Hw. rewrite outs_cons. cbn [tstep]. destruct (N.eqb_spec c NL) as [->|E1].
      { cbn [orb fst snd]. apply ok_nil. rewrite app_nil_r, recs_blank by exact Hw. exact I2. }
      destruct (N.eqb_spec c CR) as [->|E2].
      { cbn [orb fst snd]. apply ok_nil. rewrite app_nil_r, recs_blank by exact Hw. rewrite outs_nop. exact I2. }
      cbn [orb]. destruct (is_blank c) eqn:Eb.
      { cbn [fst snd]. apply ok_nil. rewrite (I3 (w ++ [c])) by (rewrite forallb_app, Hw; cbn [forallb]; rewrite Eb; reflexivity).
        destruct (split_lines s) as [|l ls]; [contradiction|]. rewrite <- app_assoc. reflexivity. }
      rewrite (A SIn w []) ; [|auto|].
      * cbn [orb]. destruct (split_lines s) as [|l ls]; [contradiction|]. cbn [tail_recs app].
        rewrite recs_solid; [reflexivity|]. unfold blank_line. rewrite forallb_app. cbn [forallb]. rewrite Eb, andb_false_r. reflexivity.
      * unfold has_char. destruct (existsb (N.eqb COMMA) w) eqn:E; [|reflexivity]. apply existsb_exists in E as (x & Hx & Ex). apply N.eqb_eq in Ex. subst x.
        rewrite forallb_forall in Hw. specialize (Hw _ Hx). discriminate Hw.
Qed.
Lemma tokenize_unquoted s : has_char 34 s = false -> tokenize s = Ok (map (split_on COMMA) (csv_records s)).
Proof. intros H. destruct (unquoted s H) as (_ & E & _). exact E. Qed.
