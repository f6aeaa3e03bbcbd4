(** C135: the line breaks of the broker's files. *)
From Coq Require Import String.
From Verif Require Import PyBase PyStr MTime MDate MOrder MAccount MApi MGate MNewline SCodec SNewline LStr LUtils TGate TCodec.
Open Scope list_scope.
Open Scope N_scope.

(** ** lines *)
Lemma nl_is c : (c =? NL) = true <-> c = 10. Proof. apply N.eqb_eq. Qed.
Lemma ulines_nil s : ulines s = [] -> s = [].
Proof.
  destruct s as [|c s]; [reflexivity|]. cbn [ulines]. destruct (c =? NL); [discriminate|].
  destruct (c =? CR); [destruct s as [|d s]; [discriminate|destruct (d =? NL); discriminate]|]. destruct (ulines s); discriminate.
Qed.
Lemma ulines_plain b : breakless b -> forall s, ulines (b ++ s) = match b, ulines s with [], ls => ls | _, [] => [b] | _, l :: ls => (b ++ l) :: ls end.
Proof.
  induction b as [|c b IH]; intros [H1 H2] s; [cbn [app]; destruct (ulines s); reflexivity|].
  assert (B : breakless b) by (split; intro; [apply H1|apply H2]; right; assumption). cbn [app ulines].
  destruct (N.eqb_spec c NL) as [->|_]; [exfalso; apply H1; left; reflexivity|].
  destruct (N.eqb_spec c CR) as [->|_]; [exfalso; apply H2; left; reflexivity|].
  rewrite (IH B s). destruct b as [|x b]; destruct (ulines s) as [|l ls]; reflexivity.
Qed.
Theorem C135_lines : forall t ls, ulines t = ls <-> broken t ls.
Proof.
  assert (Back : forall t ls, broken t ls -> ulines t = ls).
  { intros t ls H. induction H as [|b Hn Hb|b k s ls Hb Hk _ IH]; [reflexivity| |].
    - rewrite <- (app_nil_r b) at 1. rewrite (ulines_plain b Hb). destruct b; [congruence|reflexivity].
    - rewrite (ulines_plain b Hb). assert (E : ulines (k ++ s) = k :: ls).
      { destruct Hk as [->|[->|[-> Hs]]]; cbn [app ulines]; [rewrite IH; reflexivity|rewrite IH; reflexivity|].
        change (13 =? NL) with false. change (13 =? CR) with true. cbv iota. destruct s as [|d s]; [cbn in IH; subst; reflexivity|].
        destruct (N.eqb_spec d NL) as [->|_]; [exfalso; apply (Hs s); reflexivity|]. rewrite IH. reflexivity. }
      rewrite E. destruct b; reflexivity. }
  assert (Ex : forall n t, (List.length t <= n)%nat -> broken t (ulines t)).
  { induction n as [|n IH]; intros t Hn; [destruct t; [constructor|cbn in Hn; lia]|]. destruct t as [|c s]; [constructor|]. cbn in Hn. cbn [ulines].
    destruct (N.eqb_spec c NL) as [->|N1]; [apply (br_line [] [10]); [split; intros []|auto|apply IH; lia]|].
    destruct (N.eqb_spec c CR) as [->|N2].
    - destruct s as [|d s]; [apply (br_line [] [13] []); [split; intros []|right; right; split; [reflexivity|discriminate]|constructor]|].
      cbn in Hn. destruct (N.eqb_spec d NL) as [->|N3]; [apply (br_line [] [13; 10]); [split; intros []|auto|apply IH; lia]|].
      apply (br_line [] [13]); [split; intros []|right; right; split; [reflexivity|intros s' E; injection E as E _; apply N3; exact E]|apply IH; cbn; lia].
    - specialize (IH s ltac:(lia)). inversion IH as [E1 E2|b Hne Hb E1 E2|b k s2 ls Hb Hk Hs E1 E2]; subst.
      + apply br_last; [discriminate|]. split; intros [X|[]]; [apply N1|apply N2]; exact X.
      + apply br_last; [discriminate|]. destruct Hb. split; intros [X|X]; auto.
      + apply (br_line (c :: b) k s2 ls); [|exact Hk|exact Hs]. destruct Hb. split; intros [X|X]; auto. }
  intros t ls. split; [intros <-; apply (Ex (List.length t)); lia|apply Back].
Qed.
Print Assumptions C135_lines.

Lemma no_lone_skip t n : no_lone t -> no_lone (skipn n t).
Proof.
  intros H a b E. apply (H (firstn n t ++ a) b). rewrite <- app_assoc, <- E. symmetry. apply firstn_skipn.
Qed.
Lemma no_lone_tl c t : no_lone (c :: t) -> no_lone t.
Proof. intros H. apply (no_lone_skip (c :: t) 1 H). Qed.
Lemma ulines_same t : no_lone t -> ulines t = lines_of t.
Proof.
  assert (G : forall n t, (List.length t <= n)%nat -> no_lone t -> ulines t = lines_of t); [|apply (G (List.length t)); lia].
  induction n as [|n IH]; intros s Hn H; [destruct s; [reflexivity|cbn in Hn; lia]|]. destruct s as [|c s]; [reflexivity|]. cbn in Hn. cbn [ulines lines_of].
  pose proof (no_lone_tl c s H) as Hs. destruct (N.eqb_spec c NL) as [->|N1]; [rewrite (IH s ltac:(lia) Hs); reflexivity|].
  destruct (N.eqb_spec c CR) as [->|N2]; [|rewrite (IH s ltac:(lia) Hs); reflexivity].
  destruct (H [] s eq_refl) as (s' & ->). cbn in Hn. cbn [lines_of]. change (10 =? NL) with true. cbv iota.
  rewrite (IH s' ltac:(lia) (no_lone_tl _ _ Hs)). reflexivity.
Qed.
Lemma strip_snoc s c : is_space c = true -> strip (s ++ [c]) = strip s.
Proof.
  intro H. rewrite <- (strip_rstrip (s ++ [c])), <- (strip_rstrip s). f_equal. unfold rstrip. rewrite rev_app_distr. cbn [rev app drop_while]. rewrite H. reflexivity.
Qed.
Lemma nl_text_cases l : nl_text l = l \/ exists r k, l = r ++ k /\ nl_text l = r ++ [NL] /\ (k = [CR; NL] \/ k = [CR]).
Proof.
  unfold nl_text. destruct (rev l) as [|a [|b r]] eqn:E; [auto| |]; apply (f_equal (@rev N)) in E; rewrite rev_involutive in E; cbn [rev app] in E; subst l.
  - destruct (N.eqb_spec a CR) as [->|_]; [|auto]. right. exists [], [CR]. auto.
  - rewrite <- app_assoc. cbn [app]. destruct (N.eqb_spec a NL) as [->|_]; cbn [andb].
    + destruct (N.eqb_spec b CR) as [->|_]; [right; exists (rev r), [CR; NL]; auto|]. change (NL =? CR) with false. auto.
    + destruct (N.eqb_spec a CR) as [->|_]; [|auto]. right. exists (rev r ++ [b]), [CR]. rewrite <- !app_assoc. auto.
Qed.
Lemma strip_nl_text l : strip (nl_text l) = strip l.
Proof.
  destruct (nl_text_cases l) as [-> | (r & k & -> & -> & [-> | ->])]; [reflexivity| |].
  - change [CR; NL] with ([CR] ++ [NL]). rewrite app_assoc, !strip_snoc by reflexivity. reflexivity.
  - rewrite !strip_snoc by reflexivity. reflexivity.
Qed.
Lemma loop_ext go step step' ls : (forall l o, step' l o = step l o) -> forall p q o, read_loop go step' ls p q o = read_loop go step ls p q o.
Proof.
  intro H. induction ls as [|l ls IH]; intros p q o; [reflexivity|]. cbn [read_loop]. rewrite H. destruct (step l o); auto. destruct (go_ignore go); auto.
Qed.
Lemma result_strip l o : result_line (nl_text l) o = result_line l o.
Proof. unfold result_line. rewrite strip_nl_text. reflexivity. Qed.
Lemma update_strip ptime f3 f4 l o : update_line ptime f3 f4 (nl_text l) o = update_line ptime f3 f4 l o.
Proof. unfold update_line. rewrite strip_nl_text. reflexivity. Qed.

(** ** files whose '\r' all belong to a '\r\n' are read as MGate.v reads them *)
Theorem C135_same_partial : forall ptime f3 f4 go g,
  (forall t, dget (ge_date (gs_env g)) (gs_rfile g) = Some t \/ dget (ge_date (gs_env g)) (gs_ufile g) = Some t -> no_lone t) ->
  sync_u ptime f3 f4 go g = gate_sync_orders ptime f3 f4 go g.
Proof.
  intros ptime f3 f4 go g H. unfold sync_u, gate_sync_orders. set (d := ge_date (gs_env g)) in *.
  destruct (dget d (gs_ufile g)) as [ut|]; [|reflexivity]. destruct (dget d (gs_rfile g)) as [rt|]; [|reflexivity].
  assert (R : forall off o, read_file_u go result_line rt off o = read_file go result_line rt off o).
  { intros off o. unfold read_file_u, read_file. rewrite ulines_same by (apply no_lone_skip; auto). apply loop_ext. apply result_strip. }
  assert (U : forall off o, read_file_u go (update_line ptime f3 f4) ut off o = read_file go (update_line ptime f3 f4) ut off o).
  { intros off o. unfold read_file_u, read_file. rewrite ulines_same by (apply no_lone_skip; auto). apply loop_ext. apply update_strip. }
  rewrite R. destruct (read_file go result_line rt (gs_roff g) (gs_orders g)) as [[[x1|] roff] o1]; [reflexivity|].
  rewrite U. reflexivity.
Qed.
Print Assumptions C135_same_partial.

(** ** '\r\n' instead of '\n' makes no difference *)
Notation win := (bytes crlf).
Lemma win_nl : crlf NL = [CR; NL]. Proof. reflexivity. Qed.
Lemma win_plain b : breakless b -> win b = b.
Proof.
  intros [H _]. induction b as [|c b IH]; [reflexivity|]. unfold bytes in *. cbn [flat_map]. unfold crlf at 1.
  destruct (N.eqb_spec c 10) as [->|_]; [exfalso; apply H; left; reflexivity|]. cbn [app]. rewrite IH; [reflexivity|]. intro X. apply H. right. exact X.
Qed.
Definition clean (t : str) : Prop := Forall (fun c => c <> 13) t.
Lemma win_lone t : clean t -> no_lone (win t).
Proof.
  induction 1 as [|c t Hc _ IH]; intros a b E; [destruct a; discriminate|]. unfold bytes in *. cbn [flat_map] in E. unfold crlf at 1 in E.
  destruct (N.eqb_spec c 10) as [->|_]; cbn [app] in E.
  - destruct a as [|x [|y a]]; cbn [app] in E; [injection E as <-; eauto|injection E as _ E; discriminate|].
    injection E as _ _ E. apply (IH a b E).
  - destruct a as [|x a]; cbn [app] in E; [injection E as E _; contradiction|]. injection E as _ E. apply (IH a b E).
Qed.
Lemma lines_win t : clean t -> lines_of (win t) = map win (lines_of t).
Proof.
  induction 1 as [|c t Hc _ IH]; [reflexivity|]. unfold bytes in *. cbn [flat_map lines_of]. unfold crlf at 1.
  destruct (N.eqb_spec c 10) as [->|Hn].
  - cbn [app lines_of]. change (13 =? NL) with false. change (10 =? NL) with true. cbv iota. rewrite IH. reflexivity.
  - assert (E : crlf c = [c]) by (unfold crlf; destruct (N.eqb_spec c 10); [contradiction|reflexivity]).
    cbn [app lines_of]. destruct (N.eqb_spec c NL) as [->|_]; [contradiction|]. rewrite IH. destruct (lines_of t) as [|l ls]; cbn [map flat_map]; rewrite E; reflexivity.
Qed.
Lemma win_app s t : win (s ++ t) = win s ++ win t. Proof. apply flat_map_app. Qed.
(** the lines of a text end with their '\n' *)
Lemma line_shape t l : In l (lines_of t) -> exists b, ~ In NL b /\ (l = b \/ l = b ++ [NL]).
Proof.
  revert l. induction t as [|c t IH]; intros l H; [destruct H|]. cbn [lines_of] in H. destruct (N.eqb_spec c NL) as [->|Hn].
  - destruct H as [<-|H]; [exists []; auto|apply IH; exact H].
  - destruct (lines_of t) as [|l0 ls] eqn:E; cbn [In] in H.
    + destruct H as [<-|[]]. exists [c]. split; [|auto]. intros [X|[]]. apply Hn. exact X.
    + destruct H as [<-|H]; [|apply IH; right; exact H]. destruct (IH l0 (or_introl eq_refl)) as (b & Hb & S). exists (c :: b).
      split; [intros [X|X]; [apply Hn; exact X|exact (Hb X)]|]. destruct S as [->| ->]; auto.
Qed.
Lemma nl_free b : ~ In NL b -> win b = b.
Proof.
  intro H. induction b as [|c b IH]; [reflexivity|]. unfold bytes in *. cbn [flat_map]. unfold crlf at 1.
  destruct (N.eqb_spec c 10) as [->|_]; [exfalso; apply H; left; reflexivity|]. cbn [app]. rewrite IH; [reflexivity|]. intro X. apply H. right. exact X.
Qed.
Lemma strip_win t l : In l (lines_of t) -> strip (win l) = strip l.
Proof.
  intro H. destruct (line_shape t l H) as (b & Hb & [->| ->]); [rewrite nl_free by exact Hb; reflexivity|].
  rewrite win_app, nl_free by exact Hb. change (win [NL]) with ([CR] ++ [NL]). rewrite app_assoc, !strip_snoc by reflexivity. reflexivity.
Qed.
Section Win.
  Context (go : gopts).
  Notation at_ t k := (List.length (win (firstn k t))).
  Lemma loop_win step (Hstep : forall l l' o, strip l = strip l' -> step l o = step l' o) t ls : forall pos off o, (forall l, In l ls -> strip (win l) = strip l) ->
    skipn pos t = concat ls -> (pos <= List.length t)%nat -> (off <= List.length t)%nat ->
    let '(x, off', o') := read_loop go step ls pos off o in
    read_loop go step (map win ls) (at_ t pos) (at_ t off) o = (x, at_ t off', o') /\ (off' <= List.length t)%nat.
  Proof.
    induction ls as [|l ls IH]; intros pos off o Hls Hs Hp Ho; [split; [reflexivity|exact Ho]|]. cbn [read_loop map].
    rewrite (Hstep (win l) l o) by (apply Hls; left; reflexivity).
    assert (Hlen : (pos + List.length l <= List.length t)%nat).
    { apply (f_equal (@List.length N)) in Hs. cbn [concat] in Hs. rewrite skipn_length, app_length in Hs. lia. }
    assert (Hf : firstn (pos + List.length l) t = firstn pos t ++ l).
    { rewrite <- (firstn_skipn pos t) at 1. rewrite Hs. cbn [concat]. rewrite firstn_app, firstn_length_le by exact Hp.
      replace (pos + List.length l - pos)%nat with (List.length l + 0)%nat by lia. rewrite firstn_app_2. cbn [firstn]. rewrite app_nil_r.
      rewrite firstn_all2; [reflexivity|rewrite firstn_length; lia]. }
    assert (Ha : (at_ t pos + List.length (win l))%nat = at_ t (pos + List.length l)) by (rewrite Hf, win_app, app_length; reflexivity).
    assert (Hs' : skipn (pos + List.length l) t = concat ls).
    { apply (app_inv_head (firstn (pos + List.length l) t)). rewrite firstn_skipn, Hf, <- app_assoc. change (l ++ concat ls) with (concat (l :: ls)). rewrite <- Hs. symmetry. apply firstn_skipn. }
    assert (Hls' : forall x, In x ls -> strip (win x) = strip x) by (intros; apply Hls; right; assumption).
    rewrite Ha. destruct (step l o) as [|o'| |o' x].
    - split; [reflexivity|exact Ho].
    - apply IH; assumption.
    - apply IH; assumption.
    - destruct (go_ignore go); [apply IH; assumption|split; [reflexivity|exact Ho]].
  Qed.
  Lemma file_win step (Hstep : forall l l' o, strip l = strip l' -> step l o = step l' o) t off o : clean t -> (off <= List.length t)%nat ->
    let '(x, off', o') := read_file go step t off o in
    read_file_u go step (win t) (at_ t off) o = (x, at_ t off', o') /\ (off' <= List.length t)%nat.
  Proof.
    intros Ht Ho. unfold read_file_u, read_file.
    assert (Hsk : clean (skipn off t)) by (unfold clean in *; rewrite <- (firstn_skipn off t) in Ht; apply Forall_app in Ht; apply Ht).
    assert (Hb : skipn (at_ t off) (win t) = win (skipn off t)).
    { rewrite <- (firstn_skipn off t) at 2. rewrite win_app, skipn_app, skipn_all, Nat.sub_diag. reflexivity. }
    rewrite Hb, ulines_same, lines_win by (try apply win_lone; exact Hsk).
    rewrite (loop_ext go step (fun l => step (nl_text l))) by (intros; apply Hstep, strip_nl_text).
    apply (loop_win step Hstep); [intros l Hl; apply (strip_win _ _ Hl)|symmetry; apply TCodec.lines_concat|exact Ho|exact Ho].
  Qed.
End Win.
Lemma result_by_strip l l' o : strip l = strip l' -> result_line l o = result_line l' o.
Proof. unfold result_line. intros ->. reflexivity. Qed.
Lemma update_by_strip ptime f3 f4 l l' o : strip l = strip l' -> update_line ptime f3 f4 l o = update_line ptime f3 f4 l' o.
Proof. unfold update_line. intros ->. reflexivity. Qed.
Theorem C135_windows_partial : forall ptime f3 f4 go g b, encoded crlf (fun c => c <> 13) g b ->
  exists r g' b', gate_sync_orders ptime f3 f4 go g = (r, g') /\ sync_u ptime f3 f4 go b = (r, b') /\ encoded crlf (fun c => c <> 13) g' b'.
Proof.
  intros ptime f3 f4 go g b (rt & ut & Er & Eu & Kr & Ku & Lr & Lu & ->).
  unfold gate_sync_orders, sync_u. cbn [gs_env gs_ufile gs_rfile gs_roff gs_uoff gs_orders].
  rewrite Er, Eu, !dget_dset_same.
  pose proof (file_win go result_line result_by_strip rt (gs_roff g) (gs_orders g) Kr Lr) as F1.
  destruct (read_file go result_line rt (gs_roff g) (gs_orders g)) as [[x1 roff] o1]. destruct F1 as [-> L1].
  destruct x1 as [x1|].
  { do 3 eexists. split; [reflexivity|]. split; [reflexivity|]. exists rt, ut. repeat split; try assumption. }
  cbn [set_rread gs_uoff].
  pose proof (file_win go (update_line ptime f3 f4) (update_by_strip ptime f3 f4) ut (gs_uoff g) o1 Ku Lu) as F2.
  destruct (read_file go (update_line ptime f3 f4) ut (gs_uoff g) o1) as [[x2 uoff] o2]. destruct F2 as [-> L2].
  destruct x2 as [x2|].
  { do 3 eexists. split; [reflexivity|]. split; [reflexivity|]. exists rt, ut. repeat split; try assumption. }
  unfold save_orders. cbn [set_uread set_rread gs_orders gs_env gs_day gs_data].
  destruct (forallb _ _); [destruct (ge_save (gs_env g)) eqn:Es|].
  all: do 3 eexists; split; [reflexivity|]; split; [reflexivity|]; exists rt, ut; repeat split; assumption.
Qed.
Print Assumptions C135_windows_partial.

(** ** a file seen between '\r' and '\n' *)
(** the '\n' is then a blank line of its own, and nothing behind it is ever read *)
Theorem C135_torn_refuted : forall ptime f3 f4 go g d a rest rt, ge_date (gs_env g) = d ->
  dget d (gs_ufile g) = Some (a ++ [CR] ++ NL :: rest) -> dget d (gs_rfile g) = Some rt ->
  gs_uoff g = List.length (a ++ [CR]) -> (List.length rt <= gs_roff g)%nat ->
  gs_orders (snd (sync_u ptime f3 f4 go g)) = gs_orders g /\ gs_uoff (snd (sync_u ptime f3 f4 go g)) = gs_uoff g.
Proof.
  intros ptime f3 f4 go g d a rest rt Hd Hu Hr Ho Hl. unfold sync_u. rewrite Hd, Hu, Hr.
  assert (R : read_file_u go result_line rt (gs_roff g) (gs_orders g) = (None, gs_roff g, gs_orders g)).
  { unfold read_file_u. rewrite skipn_all2 by exact Hl. reflexivity. }
  rewrite R. cbn [set_rread gs_uoff].
  assert (U : forall o, read_file_u go (update_line ptime f3 f4) (a ++ [CR] ++ NL :: rest) (gs_uoff g) o = (None, gs_uoff g, o)).
  { intro o. unfold read_file_u. rewrite Ho. rewrite app_assoc, skipn_app, skipn_all, Nat.sub_diag. cbn [app skipn ulines]. change (NL =? NL) with true. cbv iota. reflexivity. }
  rewrite U.
  match goal with |- context [save_orders ?s] => pose proof (save_same s) as [S1 S2]; destruct (save_orders s) as [[u|x] g3] end;
  cbn [snd set_uread set_rread gs_uoff gs_orders] in *; auto.
Qed.
Print Assumptions C135_torn_refuted.

Open Scope Z_scope.
(** ** a lone '\r' *)
(** the claim: a record is what stands between two '\n' *)
Definition records : Prop := forall ptime f3 f4 go g, sync_u ptime f3 f4 go g = gate_sync_orders ptime f3 f4 go g.
(** a message with a '\r' in it: its second half is a short line, behind which nothing is read *)
Definition r_torn : str := lit "t,1,66,1,E1,no" ++ [CR] ++ nl "money" ++ nl "t,1,77,1,E1,closed".
Definition demo_u (g : gst) : gst := snd (sync_u demo_ptime demo_f3 demo_f4 demo_go g).
Theorem C135_lone_refuted : ~ records.
Proof.
  intro H. specialize (H demo_ptime demo_f3 demo_f4 demo_go (with_files r_torn [] (w_gate demo_w1))).
  apply (f_equal (fun p => state_of "77" (snd p))) in H. vm_compute in H. discriminate.
Qed.
Print Assumptions C135_lone_refuted.
Example C135_demo :
  state_of "77" (demo_sync (with_files r_torn [] (w_gate demo_w1))) = Some (lit "rejected", Some 0) /\
  state_of "77" (demo_u (with_files r_torn [] (w_gate demo_w1))) = Some (lit "new", Some 0) /\
  state_of "77" (demo_u (with_files r_torn [] (demo_u (with_files r_torn [] (w_gate demo_w1))))) = Some (lit "new", Some 0) /\
  (* '\r\n' line breaks *)
  state_of "77" (demo_u (with_files [] (win (u_head ++ u_open ++ u_part)) (w_gate demo_w1))) = Some (lit "filling", Some 100) /\
  (* the file is read between '\r' and '\n' *)
  (let seen := removelast (win (u_head ++ u_open)) in
   let g1 := demo_u (with_files [] seen (w_gate demo_w1)) in
   state_of "77" g1 = Some (lit "open", Some 0) /\ gs_uoff g1 = List.length seen /\
   state_of "77" (demo_u (with_files [] (win (u_head ++ u_open ++ u_part)) g1)) = Some (lit "open", Some 0)).
Proof. vm_compute. repeat split. Qed.
Example C135_demo_windows : encoded crlf (fun c => c <> 13%N) (with_files [] (u_head ++ u_open) (w_gate demo_w1)) (with_files [] (win (u_head ++ u_open)) (w_gate demo_w1)).
Proof.
  exists [], (u_head ++ u_open). split; [reflexivity|]. split; [reflexivity|]. split; [constructor|]. split.
  - apply Forall_forall. intros c Hc ->. assert (X : forallb (fun c => negb (c =? 13)%N) (u_head ++ u_open) = true) by (vm_compute; reflexivity).
    rewrite forallb_forall in X. specialize (X 13%N Hc). discriminate.
  - repeat split; apply Nat.leb_le; vm_compute; reflexivity.
Qed.
