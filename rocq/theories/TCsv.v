(** C89: the fields of the broker's balance files. *)
From Verif Require Import PyBase PyStr LStr MOrder MAccount MGate MBalance LBalance PyCsv MCsv SCsv LCsv.
Open Scope N_scope.

Theorem C116_roundtrip rows ts : Forall2 record_text rows ts -> tokenize (concat ts) = Ok rows.
Proof. intros H. unfold tokenize. rewrite (run_records rows ts H). cbn [tfinish t0 rbind]. rewrite app_nil_r. reflexivity. Qed.

(** a file with a header, rows as wide as it and a last row of missing fields is read as
    written *)
Theorem C116_file head rows last ts : Forall2 record_text (head :: rows ++ [last]) ts ->
  Forall (fun r => length r = length head) (rows ++ [last]) -> Forall (fun f => is_na f = true) last ->
  read_csv_q (Some (concat ts)) = Ok (Frame head (map (map field) (rows ++ [last]))).
Proof.
  intros H Hw Hl. unfold read_csv_q, pd_read. rewrite (C116_roundtrip _ ts H). cbn [rbind].
  assert (E : forall rs, Forall (fun r => length r = length head) rs -> trows (length head) rs = Ok (map (map field) rs)).
  { induction 1 as [|r rs Hr Hrs IH]; cbn [trows]; [reflexivity|]. unfold trow. rewrite Hr, Nat.ltb_irrefl, Nat.sub_diag. cbn [rbind repeat].
    rewrite IH. cbn [rbind map]. rewrite app_nil_r. reflexivity. }
  rewrite (E _ Hw). cbn [rbind fr_rows]. rewrite map_app, rev_app_distr. cbn [map rev app].
  assert (En : forallb is_none (map field last) = true).
  { apply forallb_forall. intros o Ho. apply in_map_iff in Ho as (f & <- & Hf). rewrite Forall_forall in Hl. unfold field. rewrite (Hl f Hf). reflexivity. }
  rewrite En. reflexivity.
Qed.

(** a file cut inside a quoted field is never taken for complete *)
Theorem C116_open_quote rows ts fs ws g : Forall2 record_text rows ts -> Forall2 field_text fs ws ->
  read_csv_q (Some (concat ts ++ concat (map (fun w => w ++ [44]) ws) ++ 34 :: doubled g)) = Err ParserError.
Proof.
  intros H HF. unfold read_csv_q, pd_read. cut (tokenize (concat ts ++ concat (map (fun w => w ++ [44]) ws) ++ 34 :: doubled g) = Err ParserError); [intros ->; reflexivity|].
  unfold tokenize. rewrite trun_app, (run_records rows ts H). cbn [fst snd].
  assert (R : forall fs ws, Forall2 field_text fs ws -> forall r, trun (TC SFld [] r) (concat (map (fun w => w ++ [44]) ws) ++ 34 :: doubled g) = (TC SQuo g (r ++ fs), [])).
  { clear. induction 1 as [|f w fs ws Hf HF IH]; intros r.
    - cbn [map concat app trun tstep]. unfold in_line. change (34 =? NL) with false. change (34 =? CR) with false. change (34 =? COMMA) with false. change (34 =? DQ) with true.
      cbv beta iota zeta. rewrite (run_doubled g [] r). cbn [app fst snd]. f_equal. f_equal. symmetry. apply app_nil_r.
    - cbn [map concat]. rewrite <- !app_assoc. cbn [app]. destruct (run_field f w r Hf) as (k & Ek & Hk). rewrite trun_app, Ek. cbn [fst snd trun].
      rewrite (ready_comma r f k Hk). cbv beta iota zeta. rewrite (IH (r ++ [f])). cbn [fst snd]. rewrite <- app_assoc. reflexivity. }
  assert (S : exists b c t, concat (map (fun w => w ++ [44]) ws) ++ 34 :: doubled g = b ++ c :: t /\ forallb is_blank b = true /\ is_blank c = false /\ c <> 10 /\ c <> 13).
  { destruct HF as [|f w fs ws Hf HF]; [exists [], 34, (doubled g); repeat split; discriminate|]. cbn [map concat]. rewrite <- !app_assoc. cbn [app].
    destruct Hf as [f [Hp _]|f].
    - destruct (forallb is_blank f) eqn:Ef; [eexists f, 44, _; split; [reflexivity|]; repeat split; [exact Ef|discriminate|discriminate]|].
      destruct (nonblank_split f Ef) as (b & c & t & -> & H1 & H2). rewrite Forall_app in Hp. destruct Hp as [_ Hp]. inversion Hp as [|? ? (? & ? & ?) _]; subst.
      eexists b, c, _. rewrite <- app_assoc. split; [reflexivity|]. auto.
    - eexists [], 34, _. split; [reflexivity|]. repeat split; discriminate. }
  destruct S as (b & c & t & ES & H1 & H2 & H3 & H4). rewrite ES, (start_field b c t H1 H2 H3 H4), <- ES, (R fs ws HF []). reflexivity.
Qed.

(** files without quotes: the model of the synchronisation without quotes is the same *)
Theorem C116_unquoted text : has_char 34 text = false -> read_csv_q (Some text) = read_csv (Some text).
Proof.
  intros H. unfold read_csv_q, read_csv, pd_read, pd_read_csv. rewrite (tokenize_unquoted text H). cbn [rbind].
  destruct (csv_records text) as [|h ls]; [reflexivity|]. cbn [map].
  assert (E : forall n ls, trows n (map (split_on COMMA) ls) = csv_rows n ls).
  { clear. intros n ls. induction ls as [|l ls IH]; [reflexivity|]. cbn [map trows csv_rows]. rewrite IH. reflexivity. }
  rewrite E. reflexivity.
Qed.
Theorem C116_sync_unquoted {F} pnum pyfloat trunc round4 round3 minus acct atext ptext :
  has_char 34 atext = false -> has_char 34 ptext = false ->
  @sync_balance_q F pnum pyfloat trunc round4 round3 minus acct (Some atext) (Some ptext) = sync_balance pnum pyfloat trunc round4 round3 minus acct (Some atext) (Some ptext).
Proof. intros H1 H2. unfold sync_balance_q, sync_balance. rewrite (C116_unquoted _ H1), (C116_unquoted _ H2). reflexivity. Qed.

(** ** refuted *)
Definition line (ws : list str) : str := commas ws ++ [13; 10].
Definition q_head : list str := [lit "acct"; lit "symbol"; lit "name"; lit "currentQty"; lit "enabledQty"; lit "costPrice"; lit "lastPrice"; lit "mktValue"].
Definition q_last : list str := repeat [] 8.
Definition q_row (sym name n : str) : list str := [lit "12"; sym; name; n; lit "50"; lit "9"; lit "10"; lit "1000"].
Definition q_assets : str := concat (map line [[lit "acct"; lit "exchange"; lit "totalAsset"; lit "enabledBalance"; lit "currentBalance"]; [lit "12"; []; lit "1000"; lit "300"; lit "500"]; repeat [] 5]).
Definition q_sync (text : str) : res (list (str * Z)) :=
  do r <- @sync_balance_q Z py_int py_int Some (fun z => z) (fun z => z) Z.sub (lit "12") (Some q_assets) (Some text); Ok (map (fun p => (bp_code p, bp_amount p)) (snd r)).

(** fields without commas and ends of lines, written as they are, are not always read as
    written: after two names that start with a quote the first share is reported with the
    amount of the second, which is not reported at all *)
Theorem C89_bare_fields_refuted :
  ~ (forall sym1 sym2 name1 name2 : str,
       Forall (fun f => Forall (fun c => c <> 10 /\ c <> 13 /\ c <> 44) f) [name1; name2] ->
       tokenize (concat (map line [q_head; q_row sym1 name1 (lit "100"); q_row sym2 name2 (lit "200"); q_last])) = Ok [q_head; q_row sym1 name1 (lit "100"); q_row sym2 name2 (lit "200"); q_last]) /\
  (forall name1 name2, (name1, name2) = (34 :: lit "A", 34 :: lit "B") ->
     q_sync (concat (map line [q_head; q_row (lit "000001.SZ") name1 (lit "100"); q_row (lit "600002.SH") name2 (lit "200"); q_last])) = Ok [(lit "000001.XSHE", 200%Z)]).
Proof.
  split; [|intros n1 n2 [= -> ->]; vm_compute; reflexivity].
  intros H. specialize (H (lit "000001.SZ") (lit "600002.SH") (34 :: lit "A") (34 :: lit "B")). vm_compute in H.
  discriminate H. repeat constructor; discriminate.
Qed.
Print Assumptions C116_roundtrip.
Print Assumptions C116_file.
Print Assumptions C116_open_quote.
Print Assumptions C116_unquoted.
Print Assumptions C116_sync_unquoted.
Print Assumptions C89_bare_fields_refuted.

(** The same names written with their quotes doubled, the first with a comma and an end of
    line in it; the file cut in a quoted name; no quotes; one quote too many. *)
Definition q_name : str := 34 :: lit "A, B" ++ [10; 34; 34].
Definition q_text (w : str) : str := concat (map line [q_head; q_row (lit "000001.SZ") w (lit "100"); q_row (lit "600002.SH") (lit "B""") (lit "200"); q_last]).
Example C89_demo :
  q_sync (q_text (34 :: doubled q_name ++ [34])) = Ok [(lit "000001.XSHE", 100%Z); (lit "600002.XSHG", 200%Z)] /\
  tokenize (q_text (34 :: doubled q_name ++ [34])) = Ok [q_head; q_row (lit "000001.SZ") q_name (lit "100"); q_row (lit "600002.SH") (lit "B""") (lit "200"); q_last] /\
  q_sync (firstn 90 (q_text (34 :: doubled q_name ++ [34]))) = Err ParserError /\
  q_sync (concat (map line [q_head; q_row (lit "000001.SZ") (34 :: lit "A") (lit "100"); q_row (lit "600002.SH") (lit "B") (lit "200"); q_last])) = Err ParserError /\
  q_sync (q_text (lit "A")) = Ok [(lit "000001.XSHE", 100%Z); (lit "600002.XSHG", 200%Z)].
Proof. repeat split; vm_compute; reflexivity. Qed.
Example C89_demo_hyp : Forall2 record_text (q_head :: [q_row (lit "000001.SZ") q_name (lit "100"); q_row (lit "600002.SH") (lit "B""") (lit "200")] ++ [q_last])
    (map line [q_head; q_row (lit "000001.SZ") (34 :: doubled q_name ++ [34]) (lit "100"); q_row (lit "600002.SH") (lit "B""") (lit "200"); q_last]) /\
  Forall (fun f => is_na f = true) q_last.
Proof.
  split; [|vm_compute; repeat constructor].
  assert (P : forall f, forallb (fun c => negb ((c =? 10) || (c =? 13) || (c =? 44))) f = true -> match hd_error f with Some c => negb (c =? 34) | None => true end = true -> field_text f f).
  { intros f H1 H2. apply text_plain. split.
    - apply Forall_forall. intros c Hc. rewrite forallb_forall in H1. specialize (H1 c Hc). apply negb_true_iff in H1. apply orb_false_iff in H1 as [H1 H3]. apply orb_false_iff in H1 as [H1 H4].
      apply N.eqb_neq in H1, H3, H4. auto.
    - destruct f as [|c f]; [discriminate|]. cbn [hd_error] in *. intros [= ->]. discriminate H2. }
  repeat (apply Forall2_cons || apply Forall2_nil); unfold line; (apply rec_text; [discriminate| |right; reflexivity|vm_compute; reflexivity]); unfold q_row, q_head, q_last; cbn [repeat];
    repeat (apply Forall2_cons || apply Forall2_nil); try (apply P; vm_compute; reflexivity). apply text_quoted.
Qed.

(** a line of blanks and tabs is no row, wherever a row could begin *)
Theorem C116_blank_lines rows ts b t : Forall2 record_text rows ts -> Forall (fun c => c = 32 \/ c = 9) b ->
  tokenize (concat ts ++ b ++ 10 :: t) = tokenize (concat ts ++ t).
Proof.
  intros H Hb.
  assert (E : trun t0 (b ++ 10 :: t) = trun t0 t).
  { assert (B : forallb is_blank b = true) by (apply forallb_forall; intros c Hc; rewrite Forall_forall in Hb; destruct (Hb c Hc) as [-> | ->]; reflexivity).
    destruct b as [|a b].
    - cbn [app trun t0 tstep]. change (at_start 10) with t0. destruct (trun t0 t). reflexivity.
    - cbn [forallb] in B. apply andb_prop in B as [Ba Bb]. rewrite trun_app. cbn [trun tstep t0].
      assert (A : at_start a = TC (SBlank [a]) [] []) by (apply Forall_inv in Hb as [-> | ->]; reflexivity).
      rewrite A. rewrite (run_blanks b [a] Bb). cbn [fst snd app trun tstep]. change (10 =? NL) with true. cbn iota. destruct (trun t0 t). reflexivity. }
  unfold tokenize. rewrite (trun_app t0 (concat ts) (b ++ 10 :: t)), (trun_app t0 (concat ts) t), (run_records rows ts H). cbn [fst snd]. rewrite E. reflexivity.
Qed.
Print Assumptions C116_blank_lines.
Example C89_blank_demo : tokenize (lit "a,b" ++ 10 :: 32 :: 9 :: 10 :: lit "1, 2") = Ok [[lit "a"; lit "b"]; [lit "1"; lit " 2"]].
Proof. vm_compute. reflexivity. Qed.
