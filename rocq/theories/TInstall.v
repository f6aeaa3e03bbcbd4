(** C154: what the package says of itself when it is installed. *)
From Coq Require Import String.
From Verif Require Import PyBase PyStr LStr MNewline SNewline TNewline MInstall.
Open Scope list_scope.

(** ** what is meant *)
Definition blank (s : str) : Prop := forall c, In c s -> is_space c = true.
(** a text that neither begins nor ends with blanks *)
Definition trimmed (r : str) : Prop := exists c d m m', r = c :: m /\ r = m' ++ [d] /\ is_space c = false /\ is_space d = false.
(** the entries of the lines of a file: blank lines and blanks around an entry do not count *)
Inductive entries : list str -> list str -> Prop :=
| en_nil : entries [] []
| en_blank l ls rs : blank l -> entries ls rs -> entries (l :: ls) rs
| en_entry a r b ls rs : blank a -> trimmed r -> blank b -> entries ls rs -> entries ((a ++ r ++ b) :: ls) (r :: rs).

(** ** lemmas *)
Lemma drop_blank a : blank a -> forall s, drop_while is_space (a ++ s) = drop_while is_space s.
Proof. induction a as [|c a IH]; intros H s; [reflexivity|]. cbn [app drop_while]. rewrite (H c (or_introl eq_refl)). apply IH. intros d I. apply H. right. exact I. Qed.
Lemma blank_rev a : blank a -> blank (rev a).
Proof. intros H c I. apply H, in_rev, I. Qed.
Lemma strip_blank l : blank l -> strip l = [].
Proof. intro H. unfold strip. rewrite <- (app_nil_r l), drop_blank by exact H. reflexivity. Qed.
Lemma strip_around a r b : blank a -> trimmed r -> blank b -> strip (a ++ r ++ b) = r.
Proof.
  intros Ha (c & d & m & m' & E1 & E2 & Hc & Hd) Hb. unfold strip. rewrite drop_blank by exact Ha.
  assert (X : drop_while is_space (r ++ b) = r ++ b) by (rewrite E1; cbn [app drop_while]; rewrite Hc; reflexivity).
  rewrite X, rev_app_distr, drop_blank by (apply blank_rev, Hb).
  assert (Y : drop_while is_space (rev r) = rev r) by (rewrite E2, rev_app_distr; cbn [rev app drop_while]; rewrite Hd; reflexivity).
  rewrite Y. apply rev_involutive.
Qed.
Lemma drop_cut s : exists a, blank a /\ s = a ++ drop_while is_space s /\ (forall c m, drop_while is_space s = c :: m -> is_space c = false).
Proof.
  induction s as [|c s IH]; [exists []; split; [intros c []|split; [reflexivity|discriminate]]|]. cbn [drop_while]. destruct (is_space c) eqn:E.
  - destruct IH as (a & Ha & Es & H). exists (c :: a). split; [intros d [<-|I]; [exact E|apply Ha, I]|]. split; [cbn [app]; f_equal; exact Es|exact H].
  - exists []. split; [intros d []|]. split; [reflexivity|]. intros d m X. injection X as <- _. exact E.
Qed.
Lemma line_cut l : (blank l /\ strip l = []) \/ exists a b, blank a /\ trimmed (strip l) /\ blank b /\ l = a ++ strip l ++ b.
Proof.
  destruct (drop_cut l) as (a & Ha & El & H). set (s := drop_while is_space l) in *.
  destruct (drop_cut (rev s)) as (b & Hb & Es & H'). set (u := drop_while is_space (rev s)) in *.
  assert (S : strip l = rev u) by reflexivity.
  assert (E : s = rev u ++ rev b) by (rewrite <- rev_app_distr, <- Es, rev_involutive; reflexivity).
  destruct u as [|d u'] eqn:Eu.
  - left. rewrite S. split; [|reflexivity]. cbn [rev app] in E. rewrite El, E. intros c I. apply in_app_or in I as [I|I]; [apply Ha, I|apply Hb, in_rev, I].
  - right. exists a, (rev b). rewrite S. split; [exact Ha|]. split; [|split; [apply blank_rev, Hb|rewrite <- E; exact El]].
    destruct s as [|c m] eqn:Es'; [cbn [rev] in E; destruct (rev u'); discriminate E|].
    destruct (rev (d :: u')) as [|c' m'] eqn:Er; [cbn [rev] in Er; destruct (rev u'); discriminate Er|].
    cbn [app] in E. injection E as <- E. exists c, d, m', (rev u'). split; [reflexivity|]. split; [rewrite <- Er; reflexivity|]. split; [eapply H; reflexivity|eapply H'; reflexivity].
Qed.
Lemma trimmed_some r : trimmed r -> str_eqb r [] = false.
Proof. intros (c & d & m & m' & -> & _). reflexivity. Qed.
Lemma entries_of ls rs : entries ls rs -> map strip (filter (fun l => negb (str_eqb (strip l) [])) ls) = rs.
Proof.
  induction 1 as [|l ls rs Hl H IH|a r b ls rs Ha Hr Hb H IH]; cbn [filter map]; [reflexivity| |].
  - rewrite (strip_blank l Hl). exact IH.
  - rewrite strip_around by assumption. rewrite (trimmed_some r Hr). cbn [negb map]. rewrite strip_around by assumption. rewrite IH. reflexivity.
Qed.
Lemma entries_ex ls : entries ls (map strip (filter (fun l => negb (str_eqb (strip l) [])) ls)).
Proof.
  induction ls as [|l ls IH]; cbn [filter map]; [constructor|]. destruct (line_cut l) as [[Hl ->]|(a & b & Ha & Hr & Hb & El)].
  - apply en_blank; assumption.
  - rewrite (trimmed_some _ Hr). cbn [negb map]. rewrite El at 1. constructor; assumption.
Qed.
Lemma strip_lines ls : map strip (filter (fun l => negb (str_eqb (strip l) [])) (map nl_text ls)) = map strip (filter (fun l => negb (str_eqb (strip l) [])) ls).
Proof.
  induction ls as [|l ls IH]; [reflexivity|]. cbn [map filter]. rewrite !strip_nl_text. destruct (negb (str_eqb (strip l) [])); cbn [map]; rewrite ?strip_nl_text, IH; reflexivity.
Qed.

(** ** C154 *)
(** The requirements are exactly the entries of the lines of the file, whatever the line
    breaks. *)
Theorem C154_requirements : forall t rs, parse_requirement_file (Some t) = rs <-> exists ls, broken t ls /\ entries ls rs.
Proof.
  intros t rs. unfold parse_requirement_file. rewrite strip_lines. split.
  - intros <-. exists (ulines t). split; [apply C135_lines; reflexivity|apply entries_ex].
  - intros (ls & B & E). apply C135_lines in B. rewrite B. apply entries_of, E.
Qed.
Print Assumptions C154_requirements.
Theorem C154_no_file : parse_requirement_file None = [].
Proof. reflexivity. Qed.
Print Assumptions C154_no_file.

(** The version's numbers are those of its text; another text fails the import of the
    package. *)
Theorem C154_version : forall ns, ns <> [] -> version_info (join_with 46%N (map str_of_N ns)) = Ok (map Z.of_N ns).
Proof.
  intros ns H. unfold version_info. rewrite split_join.
  - clear H. induction ns as [|n ns IH]; [reflexivity|]. cbn [map]. rewrite py_int_str_of_N, IH. reflexivity.
  - destruct ns; [congruence|discriminate].
  - rewrite Forall_map. apply Forall_forall. intros n _. apply str_of_N_no_char. reflexivity.
Qed.
Print Assumptions C154_version.
Theorem C154_version_bad : forall a p b, ~ In 46%N p -> py_int p = None -> Forall (fun q => ~ In 46%N q) (a ++ b) -> version_info (join_with 46%N (a ++ p :: b)) = Err ValueError.
Proof.
  intros a p b Hp Ep Hab. unfold version_info. rewrite split_join.
  - clear Hab. induction a as [|q a IH]; cbn [app]; [rewrite Ep; reflexivity|]. destruct (py_int q); [rewrite IH; reflexivity|reflexivity].
  - destruct a; discriminate.
  - assert (X : forall q : str, ~ In 46%N q -> has_char 46 q = false).
    { intros q Hq. destruct (has_char 46 q) eqn:E; [|reflexivity]. apply has_char_In in E. contradiction. }
    apply Forall_app in Hab as [Ha Hb]. apply Forall_app. split; [eapply Forall_impl; [|exact Ha]; exact X|]. constructor; [apply X, Hp|eapply Forall_impl; [|exact Hb]; exact X].
Qed.
Print Assumptions C154_version_bad.

(** What is said of the version and the address is what jqtrade/__init__.py says. *)
Theorem C154_info_partial : forall d r v m, dget (lit "__version__") d = Some (PText v) -> dget (lit "__email__") d = Some (PText m) -> v <> [] -> m <> [] ->
  let a := setup_call (Some d) r in sa_version a = PText v /\ sa_email a = PText m /\ sa_requires a = parse_requirement_file r.
Proof.
  intros d r v m Hv Hm Nv Nm. unfold setup_call, get_package_info. cbn [sa_version sa_email sa_requires]. rewrite Hv, Hm. destruct v; [congruence|]. destruct m; [congruence|]. auto.
Qed.
Print Assumptions C154_info_partial.
(** Without a file, without the name in it, or with an empty value for it there is no version. *)
Theorem C154_none : forall scope r,
  (forall d v, scope = Some d -> dget (lit "__version__") d = Some v -> v = PNone \/ v = PText [] \/ v = PTuple []) -> sa_version (setup_call scope r) = PNone.
Proof.
  intros scope r H. unfold setup_call, get_package_info. cbn [sa_version]. destruct scope as [d|]; [|reflexivity]. destruct (dget (lit "__version__") d) as [v|] eqn:E; [|reflexivity].
  destruct (H d v eq_refl E) as [->|[->| ->]]; reflexivity.
Qed.
Print Assumptions C154_none.
(** The author is never said to be the text given there: it is a tuple. *)
Theorem C154_author_refuted : forall d r n, dget (lit "__author__") d = Some (PText n) -> n <> [] ->
  sa_author (setup_call (Some d) r) = PTuple [PText n] /\ sa_maintainer (setup_call (Some d) r) = PTuple [PText n] /\ sa_author (setup_call (Some d) r) <> PText n.
Proof.
  intros d r n Hn Nn. unfold setup_call, get_package_info. cbn [sa_author sa_maintainer]. rewrite Hn. destruct n; [congruence|]. split; [reflexivity|]. split; [reflexivity|discriminate].
Qed.
Print Assumptions C154_author_refuted.
(** A comment or an option in the file is taken for a requirement. *)
Theorem C154_comments_refuted : ~ (forall t r, In r (parse_requirement_file (Some t)) -> hd_error r <> Some 35%N).
Proof. intro H. apply (H (lit "# tools" ++ [10%N] ++ lit "pyuv") (lit "# tools")); vm_compute; auto. Qed.
Print Assumptions C154_comments_refuted.

(** the repository's own files *)
Definition in_req : str := lit "pyuv >= 1.4.0" ++ [13; 10]%N ++ lit "psutil >= 5.9.6" ++ [10]%N ++ lit "  " ++ [10]%N ++ lit "pandas >= 1.1.5 " ++ [10]%N ++ lit "portalocker >= 2.7.0".
Definition in_scope : dict str pval := [(lit "__version__", PText (lit "1.0.2")); (lit "__author__", PText (lit "wangzihao")); (lit "__email__", PText (lit "wow_zihao@163.com"))].
Example C154_demo :
  parse_requirement_file (Some in_req) = [lit "pyuv >= 1.4.0"; lit "psutil >= 5.9.6"; lit "pandas >= 1.1.5"; lit "portalocker >= 2.7.0"] /\
  version_info (lit "1.0.2") = Ok [1; 0; 2]%Z /\ lit "1.0.2" = join_with 46%N (map str_of_N [1; 0; 2]%N) /\ version_info (lit "1.0.2rc1") = Err ValueError /\
  sa_version (setup_call (Some in_scope) (Some in_req)) = PText (lit "1.0.2") /\
  sa_author (setup_call (Some in_scope) (Some in_req)) = PTuple [PText (lit "wangzihao")] /\
  sa_version (setup_call None None) = PNone.
Proof. vm_compute. repeat split. Qed.
