(** C152: the text of the log can be read back and sorted. *)
From Coq Require Import Sorted String.
From Verif Require Import PyBase PyStr LStr MTime MDate LDate SDate LDate2 SGate LGate MLine.
Open Scope list_scope.
Open Scope Z_scope.

(** ** what is meant *)
(** comparison of texts, character by character (sort, LC_ALL=C) *)
Fixpoint before (a b : list N) : Prop :=
  match a, b with
  | [], _ :: _ => True
  | x :: a', y :: b' => (x < y)%N \/ (x = y /\ before a' b')
  | _, [] => False
  end.
(** an entry on one line: years of four digits, one of logging's levels, a logger whose name has
    no bracket, a message without line break, no traceback *)
Definition one_line (e : entry) : Prop :=
  date_ok (dt_date (n_time e)) /\ In (n_level e) [10; 20; 30; 40; 50] /\ 0 <= n_pid e /\ ~ In 93%N (n_logger e) /\ ~ In 10%N (n_logger e) /\
  ~ In 10%N (n_msg e) /\ n_exc e = None.

(** ** lemmas *)
Lemma before_app p : forall a b, before a b -> before (p ++ a) (p ++ b).
Proof. induction p as [|x p IH]; intros a b H; [exact H|]. cbn [app before]. right. split; [reflexivity|apply IH, H]. Qed.
Lemma before_first : forall a b u v, List.length a = List.length b -> before a b -> before (a ++ u) (b ++ v).
Proof.
  induction a as [|x a IH]; intros [|y b] u v L H; try discriminate L; [destruct H|]. cbn [app before] in *.
  destruct H as [H|[-> H]]; [left; exact H|]. right. split; [reflexivity|]. apply IH; [injection L; auto|exact H].
Qed.
Lemma digits_before : forall k a b, 0 <= a -> a < b -> b < 10 ^ Z.of_nat k -> before (digits k a) (digits k b).
Proof.
  induction k as [|k IH]; intros a b Ha Hab Hb; [cbn in Hb; lia|]. cbn [digits].
  rewrite Nat2Z.inj_succ, Z.pow_succ_r in Hb by lia.
  pose proof (Z.div_mod a 10 ltac:(discriminate)) as Da. pose proof (Z.mod_pos_bound a 10 ltac:(reflexivity)) as Ba.
  pose proof (Z.div_mod b 10 ltac:(discriminate)) as Db. pose proof (Z.mod_pos_bound b 10 ltac:(reflexivity)) as Bb.
  destruct (Z_lt_le_dec (a / 10) (b / 10)) as [L|L].
  - apply before_first; [rewrite !digits_length; reflexivity|]. apply IH; lia.
  - assert (E : a / 10 = b / 10) by lia. rewrite E. apply before_app. cbn [before]. left. lia.
Qed.
Lemma field_cases k a b sep u v : 0 <= a -> b < 10 ^ Z.of_nat k -> a <= b -> (a = b -> before u v) -> before (digits k a ++ sep :: u) (digits k b ++ sep :: v).
Proof.
  intros Ha Hb Hab H. destruct (Z.eq_dec a b) as [->|N].
  - apply before_app. cbn [before]. right. split; [reflexivity|apply H; reflexivity].
  - apply before_first; [rewrite !digits_length; reflexivity|]. apply digits_before; lia.
Qed.

(** dates *)
Lemma month_len y m : 28 <= month_days y m <= 31.
Proof. unfold month_days. destruct (m =? 2); [destruct (leap y); lia|]. destruct ((m =? 4) || (m =? 6) || (m =? 9) || (m =? 11)); lia. Qed.
Lemma cum_mono y m m' : 1 <= m -> m <= m' -> m' <= 13 -> cum y m <= cum y m'.
Proof.
  intros H1 H2 H3. assert (K : forall k, (Z.of_nat k <= 13 - m) -> cum y m <= cum y (m + Z.of_nat k)).
  { induction k as [|k IH]; intro Hk; [rewrite Z.add_0_r; lia|]. replace (m + Z.of_nat (S k)) with (m + Z.of_nat k + 1) by lia.
    rewrite cum_step by lia. pose proof (month_len y (m + Z.of_nat k)). specialize (IH ltac:(lia)). lia. }
  replace m' with (m + Z.of_nat (Z.to_nat (m' - m))) by lia. apply K. lia.
Qed.
Lemma year_len y : new_year y + cum y 13 = new_year (y + 1).
Proof.
  unfold new_year. replace (y + 1 - 1) with y by lia. unfold cum. change ((367 * 13 - 362) / 12) with 367. cbn [Z.leb Z.compare Pos.compare Pos.compare_cont].
  unfold leap. destruct (Z.eqb_spec (y mod 4) 0); destruct (Z.eqb_spec (y mod 100) 0); destruct (Z.eqb_spec (y mod 400) 0); cbn [andb orb negb];
  Z.to_euclidean_division_equations; lia.
Qed.
Lemma new_year_mono y y' : y <= y' -> new_year y <= new_year y'.
Proof. intro H. unfold new_year. Z.to_euclidean_division_equations. lia. Qed.
Lemma civil_before a b y m d y' m' d' : civil_of_days a = (y, m, d) -> civil_of_days b = (y', m', d') -> a < b ->
  y < y' \/ (y = y' /\ (m < m' \/ (m = m' /\ d < d'))).
Proof.
  intros Ea Eb H. pose proof (civil_ok a) as Ha. pose proof (civil_ok b) as Hb. rewrite Ea in Ha. rewrite Eb in Hb.
  destruct Ha as (M & D & Na), Hb as (M' & D' & Nb). rewrite civil_cum in Na by exact M. rewrite civil_cum in Nb by exact M'.
  destruct (Z_lt_le_dec y y') as [|Ly]; [left; assumption|]. right.
  destruct (Z.eq_dec y y') as [->|Ny].
  - split; [reflexivity|]. destruct (Z_lt_le_dec m m') as [|Lm]; [left; assumption|]. right.
    destruct (Z.eq_dec m m') as [->|Nm]; [split; [reflexivity|lia]|]. exfalso.
    pose proof (cum_mono y' (m' + 1) m ltac:(lia) ltac:(lia) ltac:(lia)). pose proof (cum_step y' m' M'). lia.
  - exfalso. pose proof (new_year_mono (y' + 1) y ltac:(lia)). pose proof (year_len y'). pose proof (cum_step y' m' M').
    pose proof (cum_mono y' (m' + 1) 13 ltac:(lia) ltac:(lia) ltac:(lia)). pose proof (cum_mono y 1 m ltac:(lia) ltac:(lia) ltac:(lia)) as C1.
    change (cum y 1) with 0 in C1. lia.
Qed.
Lemma fmt_before a b : date_ok (dt_date a) -> date_ok (dt_date b) -> a < b -> before (fmt_dt a) (fmt_dt b).
Proof.
  intros Ha Hb H. unfold date_ok, year_of in Ha, Hb. unfold fmt_dt.
  destruct (civil_of_days (dt_date a)) as [[y m] d] eqn:Ea. destruct (civil_of_days (dt_date b)) as [[y' m'] d'] eqn:Eb. cbn [fst] in Ha, Hb.
  pose proof (civil_ok (dt_date a)) as Ca. pose proof (civil_ok (dt_date b)) as Cb. rewrite Ea in Ca. rewrite Eb in Cb.
  destruct Ca as (M & D & _), Cb as (M' & D' & _). pose proof (month_len y m). pose proof (month_len y' m').
  pose proof (Z.div_mod a DAY ltac:(discriminate)) as Da. pose proof (Z.mod_pos_bound a DAY ltac:(reflexivity)) as Ba.
  pose proof (Z.div_mod b DAY ltac:(discriminate)) as Db. pose proof (Z.mod_pos_bound b DAY ltac:(reflexivity)) as Bb.
  assert (Hd : dt_date a < dt_date b \/ (dt_date a = dt_date b /\ dt_time a < dt_time b)).
  { unfold dt_date, dt_time. destruct (Z_lt_le_dec (a / DAY) (b / DAY)); [left; assumption|]. right.
    assert (HD : 0 < DAY) by reflexivity. set (D0 := DAY) in *. clearbody D0. assert (a / D0 = b / D0) by nia. split; [assumption|]. nia. }
  assert (Hc : y < y' \/ (y = y' /\ (m < m' \/ (m = m' /\ (d < d' \/ (d = d' /\ dt_time a < dt_time b)))))).
  { destruct Hd as [L|[E L]].
    - pose proof (civil_before _ _ _ _ _ _ _ _ Ea Eb L). intuition.
    - rewrite E, Eb in Ea. injection Ea as <- <- <-. intuition. }
  unfold dt_time in *. set (s := a mod DAY) in *. set (t := b mod DAY) in *. clearbody s t.
  apply field_cases; [lia|cbn; lia|lia|]. intros ->.
  apply field_cases; [lia|cbn; lia|lia|]. intros ->.
  apply field_cases; [lia|cbn; lia|lia|]. intros ->.
  assert (L : s < t) by lia. clear - L Ba Bb. change DAY with (86400 * 1000000) in *. change US with 1000000 in *.
  pose proof (Z.div_mod s 1000000 ltac:(discriminate)) as E1. pose proof (Z.mod_pos_bound s 1000000 ltac:(reflexivity)) as B1.
  pose proof (Z.div_mod t 1000000 ltac:(discriminate)) as E2. pose proof (Z.mod_pos_bound t 1000000 ltac:(reflexivity)) as B2.
  set (p := s / 1000000) in *. set (q := t / 1000000) in *. set (u := s mod 1000000) in *. set (v := t mod 1000000) in *. clearbody p q u v.
  assert (Hpq : p <= q) by lia. assert (Hp : 0 <= p < 86400) by lia. assert (Hq : 0 <= q < 86400) by lia.
  pose proof (Z.div_mod p 3600 ltac:(discriminate)). pose proof (Z.mod_pos_bound p 3600 ltac:(reflexivity)).
  pose proof (Z.div_mod q 3600 ltac:(discriminate)). pose proof (Z.mod_pos_bound q 3600 ltac:(reflexivity)).
  apply field_cases; [apply Z.div_pos; lia|cbn; apply Z.div_lt_upper_bound; lia|apply Z.div_le_mono; lia|]. intro Eh.
  apply field_cases; [apply Z.mod_pos_bound; reflexivity|pose proof (Z.mod_pos_bound (q / 60) 60 ltac:(reflexivity)); cbn; lia| |].
  { Z.to_euclidean_division_equations. lia. }
  intro Em.
  apply field_cases; [apply Z.mod_pos_bound; reflexivity|pose proof (Z.mod_pos_bound q 60 ltac:(reflexivity)); cbn; lia| |].
  { Z.to_euclidean_division_equations. lia. }
  intro Es. apply digits_before; [lia| |exact (proj2 B2)].
  assert (p = q) by (Z.to_euclidean_division_equations; lia). lia.
Qed.

(** texts cut at a character *)
Lemma cut_at (c : N) : forall a b u v, ~ In c a -> ~ In c b -> a ++ c :: u = b ++ c :: v -> a = b /\ u = v.
Proof.
  induction a as [|x a IH]; intros [|y b] u v Ha Hb E; cbn [app] in E.
  - injection E as ->. auto.
  - injection E as -> _. destruct Hb. left. reflexivity.
  - injection E as -> _. destruct Ha. left. reflexivity.
  - injection E as -> E. destruct (IH b u v) as [-> ->]; auto; intro I; [apply Ha|apply Hb]; right; exact I.
Qed.
Lemma lines_cut : forall ls ls' : list str, Forall (fun l => ~ In 10%N l) ls -> Forall (fun l => ~ In 10%N l) ls' ->
  concat (map (fun l => l ++ [10%N]) ls) = concat (map (fun l => l ++ [10%N]) ls') -> ls = ls'.
Proof.
  induction ls as [|l ls IH]; intros [|l' ls'] H H' E; cbn [map concat] in E.
  - reflexivity.
  - destruct l'; discriminate E.
  - destruct l; discriminate E.
  - inversion H; inversion H'; subst. rewrite <- !app_assoc in E. cbn [app] in E. apply cut_at in E as [-> E]; auto. f_equal. apply IH; assumption.
Qed.
Lemma fmt_length t : List.length (fmt_dt t) = 26%nat.
Proof. unfold fmt_dt. destruct (civil_of_days (dt_date t)) as [[y m] d]. repeat (rewrite app_length || cbn [List.length]). rewrite !digits_length. reflexivity. Qed.
Lemma fmt_inj a b : date_ok (dt_date a) -> date_ok (dt_date b) -> fmt_dt a = fmt_dt b -> a = b.
Proof. intros Ha Hb E. pose proof (parse_fmt_dt a Ha) as A. pose proof (parse_fmt_dt b Hb) as B. rewrite E in A. congruence. Qed.
Lemma fmt_chars t c : In c (fmt_dt t) -> is_digit c = true \/ In c [45; 32; 58; 46]%N.
Proof.
  unfold fmt_dt. destruct (civil_of_days (dt_date t)) as [[y m] d].
  assert (X : forall k z, In c (digits k z) -> is_digit c = true) by (intros k z I; pose proof (digits_digits k z) as F; rewrite forallb_forall in F; apply F, I).
  repeat (rewrite in_app_iff || cbn [In]). intuition eauto.
Qed.
Lemma level_chars l : In l [10; 20; 30; 40; 50] -> ~ In 93%N (level_name l) /\ ~ In 10%N (level_name l).
Proof. intros H. repeat (destruct H as [<-|H]); [| | | | |destruct H]; vm_compute; split; intro I; repeat (destruct I as [I|I]; [discriminate I|]); destruct I. Qed.
Lemma level_inj l l' : In l [10; 20; 30; 40; 50] -> In l' [10; 20; 30; 40; 50] -> level_name l = level_name l' -> l = l'.
Proof.
  intros H H'. repeat (destruct H as [<-|H]); [| | | | |destruct H]; repeat (destruct H' as [<-|H']); try destruct H'; intro E; try reflexivity; vm_compute in E; discriminate E.
Qed.
Lemma pid_chars p : 0 <= p -> ~ In 93%N (str_of_Z p) /\ ~ In 10%N (str_of_Z p).
Proof.
  intro H. rewrite <- (Z.abs_eq p H). pose proof (abs_numeral p) as F. unfold numeral in F. rewrite Forall_forall in F.
  split; intro I; apply F in I; lia.
Qed.
Lemma pid_inj p q : 0 <= p -> 0 <= q -> str_of_Z p = str_of_Z q -> p = q.
Proof.
  intros Hp Hq E. pose proof (proj1 (str_of_abs p)) as A. pose proof (proj1 (str_of_abs q)) as B. rewrite (Z.abs_eq p Hp) in A. rewrite (Z.abs_eq q Hq) in B. congruence.
Qed.
Lemma line_text e : n_exc e = None -> line_of e =
  91%N :: fmt_dt (n_time e) ++ 93%N :: 32%N :: 91%N :: level_name (n_level e) ++ 93%N :: 32%N :: 91%N :: str_of_Z (n_pid e) ++ 93%N :: 32%N :: 91%N :: n_logger e ++ 93%N :: 32%N :: n_msg e.
Proof.
  intro E. unfold line_of. rewrite E. unfold line_head. change (lit "[") with [91%N]. change (lit "] [") with [93%N; 32%N; 91%N]. change (lit "] ") with [93%N; 32%N].
  cbn [app]. f_equal. repeat (rewrite <- app_assoc; cbn [app]). reflexivity.
Qed.
Lemma line_one e : one_line e -> ~ In 10%N (line_of e).
Proof.
  intros (_ & Hl & Hp & _ & Hn & Hm & He). rewrite (line_text e He). destruct (level_chars _ Hl) as [_ L]. destruct (pid_chars _ Hp) as [_ P].
  intro I. destruct I as [I|I]; [discriminate I|]. repeat (rewrite in_app_iff in I || cbn [In] in I).
  assert (F : In 10%N (fmt_dt (n_time e)) -> False).
  { intro J. apply fmt_chars in J as [J|J]; [vm_compute in J; discriminate J|]. cbn in J. intuition discriminate. }
  intuition discriminate.
Qed.
Lemma line_inj e e' : one_line e -> one_line e' -> line_of e = line_of e' -> e = e'.
Proof.
  intros (Hd & Hl & Hp & Hg & _ & _ & He) (Hd' & Hl' & Hp' & Hg' & _ & _ & He') E. rewrite (line_text e He), (line_text e' He') in E.
  apply (f_equal (@tl N)) in E. cbn [tl] in E.
  assert (X : forall (a b u v : str), List.length a = List.length b -> a ++ u = b ++ v -> a = b /\ u = v).
  { induction a as [|x a IH]; intros [|y b] u v L H; try discriminate L; [auto|]. cbn [app] in H. injection H as -> H. injection L as L. destruct (IH b u v L H) as [-> ->]. auto. }
  apply X in E as [Et E]; [|rewrite !fmt_length; reflexivity]. apply (fmt_inj _ _ Hd Hd') in Et.
  injection E as E. apply cut_at in E as [El E]; try (apply level_chars; assumption). apply (level_inj _ _ Hl Hl') in El.
  injection E as E. apply cut_at in E as [Ep E]; try (apply pid_chars; assumption). apply (pid_inj _ _ Hp Hp') in Ep.
  injection E as E. apply cut_at in E as [Eg E]; try assumption. injection E as E.
  destruct e, e'. cbn in *. subst. reflexivity.
Qed.

(** ** C152 *)
(** From the text of the log all entries can be read back: when, how grave, which process,
    which part of the program, what. *)
Theorem C152_read_partial : forall es es', Forall one_line es -> Forall one_line es' -> log_text es = log_text es' -> es = es'.
Proof.
  intros es es' H H' E. unfold log_text in E.
  assert (X : map line_of es = map line_of es').
  { apply lines_cut.
    - rewrite Forall_map. eapply Forall_impl; [|exact H]. intros e He. apply line_one, He.
    - rewrite Forall_map. eapply Forall_impl; [|exact H']. intros e He. apply line_one, He.
    - rewrite !map_map. exact E. }
  clear E. revert es' H' X. induction H as [|e es He H IH]; intros [|e' es'] H' X; try discriminate X; [reflexivity|].
  inversion H'; subst. cbn [map] in X. injection X as X1 X2. f_equal; [apply line_inj; assumption|apply IH; assumption].
Qed.
Print Assumptions C152_read_partial.

(** Sorting the lines of any number of logs as texts sorts them by time. *)
Theorem C152_sorted : forall e e', one_line e -> one_line e' -> n_time e < n_time e' -> before (line_of e) (line_of e').
Proof.
  intros e e' (Hd & _ & _ & _ & _ & _ & He) (Hd' & _ & _ & _ & _ & _ & He') H. rewrite (line_text e He), (line_text e' He').
  cbn [before]. right. split; [reflexivity|]. apply before_first; [rewrite !fmt_length; reflexivity|]. apply fmt_before; assumption.
Qed.
Print Assumptions C152_sorted.
Theorem C152_sorted_all : forall es, Forall one_line es -> StronglySorted Z.lt (map n_time es) -> StronglySorted before (map line_of es).
Proof.
  intros es H. induction H as [|e es He H IH]; cbn [map]; intro S; [constructor|]. inversion S as [|? ? S' F]; subst. constructor; [apply IH, S'|].
  rewrite Forall_map in *. rewrite Forall_forall in *. intros x Hx. apply C152_sorted; auto.
Qed.
Print Assumptions C152_sorted_all.

(** the time is there to the microsecond *)
Theorem C152_stamp : forall e, one_line e -> exists r, line_of e = lit "[" ++ fmt_dt (n_time e) ++ lit "] " ++ r /\ parse_dt (fmt_dt (n_time e)) = Ok (n_time e) /\ List.length (fmt_dt (n_time e)) = 26%nat.
Proof.
  intros e (Hd & _ & _ & _ & _ & _ & He). rewrite (line_text e He). eexists. split; [reflexivity|]. split; [apply parse_fmt_dt, Hd|apply fmt_length].
Qed.
Print Assumptions C152_stamp.

(** The fields of a line, in this order. *)
Theorem C152_fields : forall e w, n_exc e = None ->
  In (n_level e, w) [(10, lit "DEBUG"); (20, lit "INFO"); (30, lit "WARNING"); (40, lit "ERROR"); (50, lit "CRITICAL")] ->
  line_of e = lit "[" ++ fmt_dt (n_time e) ++ lit "] [" ++ w ++ lit "] [" ++ str_of_Z (n_pid e) ++ lit "] [" ++ n_logger e ++ lit "] " ++ n_msg e.
Proof.
  intros e w He Hw. rewrite (line_text e He). assert (E : level_name (n_level e) = w).
  { repeat (destruct Hw as [Hw|Hw]; [injection Hw as <- <-; reflexivity|]). destruct Hw. }
  rewrite E. reflexivity.
Qed.
Print Assumptions C152_fields.
(** Entries are added at the end; nothing written is changed. *)
Theorem C152_order : forall es e, log_text (es ++ [e]) = log_text es ++ line_of e ++ [10%N].
Proof. intros es e. unfold log_text. rewrite map_app, concat_app. cbn [map concat]. rewrite app_nil_r. reflexivity. Qed.
Print Assumptions C152_order.

(** An entry with a traceback takes lines that say nothing of when and who. *)
Theorem C152_traceback : forall e c t, n_exc e = Some (c :: t) -> ~ In 10%N (n_msg e) -> n_msg e <> [] -> line_of e = line_head e ++ n_msg e ++ 10%N :: c :: t.
Proof.
  intros e c t E Hm Hn. unfold line_of. rewrite E.
  assert (X : List.last (line_head e ++ n_msg e) 0%N <> 10%N).
  { destruct (exists_last Hn) as (m & x & Em). rewrite Em, app_assoc, last_last. intros ->. apply Hm. rewrite Em. apply in_or_app. right. left. reflexivity. }
  apply N.eqb_neq in X. rewrite X. rewrite <- !app_assoc. reflexivity.
Qed.
Print Assumptions C152_traceback.

(** The full claim, for all messages, is false: a message with a line break looks like two
    entries. *)
Definition readable : Prop := forall es es',
  Forall (fun e => date_ok (dt_date (n_time e)) /\ n_exc e = None /\ n_logger e = lit "user") es ->
  Forall (fun e => date_ok (dt_date (n_time e)) /\ n_exc e = None /\ n_logger e = lit "user") es' -> log_text es = log_text es' -> es = es'.
Definition li_1 : entry := Entry (20000 * DAY + 34200 * US) 20 17 (lit "user") (lit "a") None.
Definition li_2 : entry := Entry (20000 * DAY + 34260000001) 30 17 (lit "user") (lit "b") None.
Definition li_12 : entry := Entry (20000 * DAY + 34200 * US) 20 17 (lit "user") (lit "a" ++ [10%N] ++ line_of li_2) None.
Theorem C152_read_refuted : ~ readable.
Proof.
  intro H. assert (E : [li_1; li_2] = [li_12]); [|discriminate E].
  apply H; [repeat constructor; vm_compute; congruence|repeat constructor; vm_compute; congruence|vm_compute; reflexivity].
Qed.
Print Assumptions C152_read_refuted.
Example C152_demo :
  log_text [li_1; li_2] = lit "[2024-10-04 09:30:00.000000] [INFO] [17] [user] a" ++ [10%N] ++ lit "[2024-10-04 09:31:00.000001] [WARNING] [17] [user] b" ++ [10%N] /\
  one_line li_1 /\ one_line li_2 /\
  line_of (Entry (20000 * DAY) 40 5 (lit "system.loop") (lit "failed") (Some (lit "Traceback"))) = lit "[2024-10-04 00:00:00.000000] [ERROR] [5] [system.loop] failed" ++ [10%N] ++ lit "Traceback".
Proof.
  split; [vm_compute; reflexivity|]. split; [|split; [|vm_compute; reflexivity]];
  (split; [vm_compute; split; congruence|]); (split; [cbn; tauto|]); (split; [discriminate|]); cbn; intuition discriminate.
Qed.
