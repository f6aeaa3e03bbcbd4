(** C153: the strategy's time in the log. *)
From Coq Require Import String.
From Verif Require Import PyBase PyStr LStr MTime MDate LDate SDate LDate2 SGate LGate MLog MLine TLogText MLogCtx.
Open Scope list_scope.
Open Scope Z_scope.

(** ** what is meant *)
(** the handlers installed by these calls, in order *)
Fixpoint installed (vs : list cevent) : list (dest * Z) :=
  match vs with
  | [] => []
  | CAdd d l :: vs' => (d, l) :: installed vs'
  | CContext _ :: vs' => installed vs'
  end.
(** the contexts given by these calls, in order *)
Fixpoint given (vs : list cevent) : list nat :=
  match vs with
  | [] => []
  | CAdd _ _ :: vs' => given vs'
  | CContext c :: vs' => c :: given vs'
  end.
(** the handlers an entry reaches, and the line each gets *)
Definition reached (e : entry) (hs : list (dest * Z)) : list dest := map fst (filter (fun h => snd h <=? n_level e) hs).
Definition lines (t : str) (ds : list dest) : list (dest * str) := map (fun d => (d, t ++ [10%N])) ds.

(** ** lemmas *)
Lemma add_app vs : forall hs, exists ks,
  fold_left c_step vs hs = map (fun h => CHandler (ch_dest h) (ch_level h) (match given vs with [] => ch_fmt h | _ => true end) (ch_filters h ++ given vs)) hs ++ ks /\
  map (fun h => (ch_dest h, ch_level h)) ks = installed vs /\
  Forall (fun h => ch_fmt h = match ch_filters h with [] => false | _ => true end) ks /\
  Forall (fun h => exists p, given vs = p ++ ch_filters h) ks.
Proof.
  induction vs as [|[d l|c] vs IH]; intro hs; cbn [fold_left c_step given installed].
  - exists []. split; [|repeat constructor]. rewrite app_nil_r. transitivity (map (fun h => h) hs); [symmetry; apply map_id|]. apply map_ext. intros [d l f fs]. cbn. rewrite app_nil_r. reflexivity.
  - destruct (IH (add_handler d l hs)) as (ks & E & I & F & P). unfold add_handler in *. rewrite map_app in E. cbn [map] in E. rewrite <- app_assoc in E. cbn [app] in E.
    eexists. split; [exact E|]. cbn [map ch_dest ch_level ch_fmt ch_filters app]. split; [rewrite I; reflexivity|]. split; constructor; auto.
    exists []. reflexivity.
  - destruct (IH (set_log_context c hs)) as (ks & E & I & F & P). unfold set_log_context in *. rewrite map_map in E. cbn [ch_dest ch_level ch_fmt ch_filters] in E.
    exists ks. split; [|split; [exact I|split; [exact F|]]].
    + rewrite E. f_equal. apply map_ext. intros h. rewrite <- app_assoc. cbn [app]. destruct (given vs); reflexivity.
    + eapply Forall_impl; [|exact P]. intros h (p & ->). exists (c :: p). reflexivity.
Qed.
Lemma filters_last clock : forall fs a x c, (forall c', In c' (fs ++ [c]) -> exists y, clock c' = Ok y) -> clock c = Ok x -> run_filters clock (fs ++ [c]) a = Ok (Some x).
Proof.
  induction fs as [|f fs IH]; intros a x c H Hc; cbn [app run_filters]; [rewrite Hc; reflexivity|].
  destruct (H f) as (y & ->); [left; reflexivity|]. apply IH; [|exact Hc]. intros c' I. apply H. right. exact I.
Qed.
Lemma call_plain clock e : forall ks a, Forall (fun h => ch_fmt h = false /\ ch_filters h = []) ks ->
  call_handlers clock e a ks = (lines (line_of e) (reached e (map (fun h => (ch_dest h, ch_level h)) ks)), None).
Proof.
  induction ks as [|h ks IH]; intros a F; cbn [call_handlers map]; [reflexivity|]. inversion F as [|? ? [F1 F2] F']; subst.
  unfold reached. cbn [filter snd]. destruct (ch_level h <=? n_level e); [|apply IH, F'].
  rewrite F2. cbn [run_filters]. rewrite F1, (IH a F'). reflexivity.
Qed.
Lemma call_ctx clock e c x : clock c = Ok x -> forall ks hs a, (forall h, In h hs -> ch_fmt h = true /\ exists fs, ch_filters h = fs ++ [c] /\ forall c', In c' fs -> exists y, clock c' = Ok y) ->
  Forall (fun h => ch_fmt h = false /\ ch_filters h = []) ks ->
  call_handlers clock e a (hs ++ ks) = (lines (ctx_line e x) (reached e (map (fun h => (ch_dest h, ch_level h)) hs)) ++ lines (line_of e) (reached e (map (fun h => (ch_dest h, ch_level h)) ks)), None).
Proof.
  intros Hc ks. induction hs as [|h hs IH]; intros a H F; cbn [app map].
  - rewrite call_plain by exact F. reflexivity.
  - cbn [call_handlers]. unfold reached at 1. cbn [filter snd]. assert (H' : forall h, In h hs -> ch_fmt h = true /\ exists fs, ch_filters h = fs ++ [c] /\ forall c', In c' fs -> exists y, clock c' = Ok y) by (intros; apply H; right; assumption).
    destruct (ch_level h <=? n_level e); [|apply IH; assumption].
    destruct (H h (or_introl eq_refl)) as (E & fs & Ef & G). rewrite Ef, (filters_last clock fs a x c), E.
    + rewrite (IH (Some x) H' F). reflexivity.
    + intros c' I. apply in_app_or in I as [I|[<-|[]]]; [apply G, I|exists x; exact Hc].
    + exact Hc.
Qed.
Lemma installed_app a b : installed (a ++ b) = installed a ++ installed b.
Proof. induction a as [|[d l|c] a IH]; cbn; rewrite ?IH; reflexivity. Qed.

(** ** C153 *)
(** Without a call of set_log_context the log is that of C152. *)
Theorem C153_before : forall vs clock e, given vs = [] -> ctx_log vs clock e = (lines (line_of e) (reached e (installed vs)), None).
Proof.
  intros vs clock e G. unfold ctx_log. destruct (add_app vs []) as (ks & -> & I & F & P). cbn [map app]. rewrite call_plain; [rewrite I; reflexivity|].
  rewrite Forall_forall in *. intros h Hh. destruct (P h Hh) as (p & Ep). rewrite G in Ep. destruct p; [|discriminate Ep]. cbn in Ep. specialize (F h Hh). rewrite <- Ep in F. auto.
Qed.
Print Assumptions C153_before.

(** After it every line of the handlers that are there shows the time of the context given
    last, whatever was given before; handlers installed later write lines without it. *)
Theorem C153_last_partial : forall pre c post clock e x,
  given post = [] -> clock c = Ok x -> (forall c', In c' (given pre) -> exists y, clock c' = Ok y) ->
  ctx_log (pre ++ CContext c :: post) clock e =
    (lines (ctx_line e x) (reached e (installed pre)) ++ lines (line_of e) (reached e (installed post)), None).
Proof.
  intros pre c post clock e x G Hc Hp. unfold ctx_log. rewrite fold_left_app. cbn [fold_left c_step].
  destruct (add_app pre []) as (ks & -> & I & F & P). cbn [map app].
  destruct (add_app post (set_log_context c ks)) as (ls & -> & I' & F' & P'). rewrite G in *.
  rewrite (call_ctx clock e c x Hc).
  - rewrite I'. unfold set_log_context. rewrite !map_map. cbn [ch_dest ch_level]. rewrite I. reflexivity.
  - intros h Hh. rewrite in_map_iff in Hh. destruct Hh as (h1 & <- & Hh). unfold set_log_context in Hh. rewrite in_map_iff in Hh. destruct Hh as (h0 & <- & Hh).
    cbn [ch_fmt ch_filters]. split; [reflexivity|]. exists (ch_filters h0). rewrite app_nil_r. split; [reflexivity|].
    intros c' I0. apply Hp. rewrite Forall_forall in P. destruct (P h0 Hh) as (p & ->). apply in_or_app. right. exact I0.
  - rewrite Forall_forall in *. intros h Hh. destruct (P' h Hh) as (p & Ep). destruct p; [|discriminate Ep]. cbn in Ep. specialize (F' h Hh). rewrite <- Ep in F'. auto.
Qed.
Print Assumptions C153_last_partial.

(** Who gets an entry does not depend on the contexts. *)
Theorem C153_reach : forall vs clock e, (forall c', In c' (given vs) -> exists y, clock c' = Ok y) ->
  map fst (fst (ctx_log vs clock e)) = reached e (installed vs) /\ snd (ctx_log vs clock e) = None.
Proof.
  assert (L : forall t ds, map fst (lines t ds) = ds) by (intros t ds; unfold lines; rewrite map_map; cbn; apply map_id).
  assert (S : forall vs, given vs = [] \/ exists pre c post, vs = pre ++ CContext c :: post /\ given post = []).
  { induction vs as [|[d l|c] vs IH]; [left; reflexivity| |].
    - destruct IH as [IH|(pre & c & post & -> & G)]; [left; exact IH|right]. exists (CAdd d l :: pre), c, post. auto.
    - right. destruct IH as [IH|(pre & c' & post & -> & G)]; [exists [], c, vs; auto|]. exists (CContext c :: pre), c', post. auto. }
  assert (GA : forall a b, given (a ++ b) = given a ++ given b) by (induction a as [|[d l|c] a IH]; intro b; cbn; rewrite ?IH; reflexivity).
  intros vs clock e H. destruct (S vs) as [G|(pre & c & post & -> & G)].
  - rewrite C153_before by exact G. split; [apply L|reflexivity].
  - rewrite GA in H. cbn [given] in H. destruct (H c) as (x & Hx); [apply in_or_app; right; left; reflexivity|].
    rewrite (C153_last_partial pre c post clock e x G Hx); [|intros c' I; apply H, in_or_app; left; exact I].
    split; [|reflexivity]. cbn [fst]. rewrite map_app, !L, installed_app. cbn [installed]. unfold reached. rewrite filter_app, map_app. reflexivity.
Qed.
Print Assumptions C153_reach.

(** Every handler asks all contexts given since it was installed, for every entry. *)
Theorem C153_asks : forall pre d l post, exists hs ks,
  fold_left c_step (pre ++ CAdd d l :: post) [] = hs ++ CHandler d l (match given post with [] => false | _ => true end) (given post) :: ks /\ List.length hs = List.length (installed pre).
Proof.
  intros pre d l post. rewrite fold_left_app. cbn [fold_left c_step]. destruct (add_app pre []) as (ks & -> & I & _ & _). cbn [map app].
  destruct (add_app post (add_handler d l ks)) as (ls & -> & _). unfold add_handler. rewrite map_app. cbn [map ch_dest ch_level ch_fmt ch_filters app].
  rewrite <- app_assoc. cbn [app]. do 2 eexists. split; [reflexivity|]. rewrite map_length, <- I, map_length. reflexivity.
Qed.
Print Assumptions C153_asks.

(** So an earlier context that no longer knows its time fails the log call itself. *)
Theorem C153_stale : forall d l a c b c' clock e x err,
  l <= n_level e -> clock c = Err err -> (forall k, In k (given a) -> exists y, clock k = Ok y) -> given b = [] -> clock c' = Ok x ->
  ctx_log (CAdd d l :: a ++ CContext c :: b ++ [CContext c']) clock e = ([], Some err).
Proof.
  intros d l a c b c' clock e x err Hl Hc Ha Gb Hc'.
  assert (GA : forall a b, given (a ++ b) = given a ++ given b) by (clear; induction a as [|[d l|c] a IH]; intro b; cbn; rewrite ?IH; reflexivity).
  unfold ctx_log. cbn [fold_left c_step]. unfold add_handler. cbn [app].
  destruct (add_app (a ++ CContext c :: b ++ [CContext c']) [CHandler d l false []]) as (ks & -> & _). cbn [map app call_handlers ch_level ch_filters].
  replace (l <=? n_level e) with true by (symmetry; apply Z.leb_le; exact Hl).
  rewrite GA. cbn [given]. rewrite GA, Gb. cbn [given app].
  assert (R : forall fs a0, (forall k, In k fs -> exists y, clock k = Ok y) -> run_filters clock (fs ++ [c; c']) a0 = Err err).
  { induction fs as [|f fs IH]; intros a0 H; cbn [app run_filters]; [rewrite Hc; reflexivity|].
    destruct (H f (or_introl eq_refl)) as (y & ->). apply IH. intros k I. apply H. right. exact I. }
  rewrite (R (given a) None Ha). reflexivity.
Qed.
Print Assumptions C153_stale.

(** *** the text *)
Lemma fmt_second t : fmt_dt t = second_text t ++ 46%N :: digits 6 (dt_time t mod US).
Proof.
  unfold fmt_dt, second_text. destruct (civil_of_days (dt_date t)) as [[y m] d]. repeat (rewrite <- app_assoc; cbn [app]). reflexivity.
Qed.
Lemma second_length t : List.length (second_text t) = 19%nat.
Proof. unfold second_text. destruct (civil_of_days (dt_date t)) as [[y m] d]. repeat (rewrite app_length || cbn [List.length]). rewrite !digits_length. reflexivity. Qed.
Lemma second_chars t : incl (second_text t) (fmt_dt t).
Proof. rewrite fmt_second. apply incl_appl, incl_refl. Qed.
Lemma same_length (a b u v : str) : List.length a = List.length b -> a ++ u = b ++ v -> a = b /\ u = v.
Proof.
  revert b. induction a as [|x a IH]; intros [|y b] L H; try discriminate L; [auto|]. cbn [app] in H. injection H as -> H. injection L as L. destruct (IH b L H) as [-> ->]. auto.
Qed.
Lemma stamp_inj a b u v (c : N) : date_ok (dt_date a) -> date_ok (dt_date b) ->
  second_text a ++ c :: digits 6 (dt_time a mod US) ++ u = second_text b ++ c :: digits 6 (dt_time b mod US) ++ v -> a = b /\ u = v.
Proof.
  intros Ha Hb E. apply same_length in E as [E1 E]; [|rewrite !second_length; reflexivity]. apply (f_equal (@tl N)) in E. cbn [tl] in E.
  apply same_length in E as [E2 E]; [|rewrite !digits_length; reflexivity]. split; [|exact E]. apply fmt_inj; auto. rewrite !fmt_second, E1, E2. reflexivity.
Qed.
Definition dt_fine (x : option Z) : Prop := forall t, x = Some t -> date_ok (dt_date t).
Lemma str_dt_inj x y : dt_fine x -> dt_fine y -> str_dt x = str_dt y -> x = y.
Proof.
  intros Hx Hy E. destruct x as [a|], y as [b|]; cbn [str_dt] in E.
  - specialize (Hx a eq_refl). specialize (Hy b eq_refl). apply same_length in E as [E1 E2]; [|rewrite !second_length; reflexivity]. f_equal. apply fmt_inj; auto. rewrite !fmt_second, E1. do 2 f_equal.
    destruct (Z.eqb_spec (dt_time a mod US) 0) as [->|], (Z.eqb_spec (dt_time b mod US) 0) as [->|]; try discriminate E2; [reflexivity|]. apply (f_equal (@tl N)) in E2. exact E2.
  - apply (f_equal (@List.length N)) in E. rewrite app_length, second_length in E. discriminate E.
  - apply (f_equal (@List.length N)) in E. rewrite app_length, second_length in E. discriminate E.
  - reflexivity.
Qed.
Lemma str_dt_chars x c : In c (str_dt x) -> is_digit c = true \/ In c [45; 32; 58; 46]%N \/ In c (lit "None").
Proof.
  destruct x as [t|]; cbn [str_dt]; [|auto]. intro I. assert (J : In c (fmt_dt t)).
  { apply in_app_or in I as [I|I]; [apply second_chars, I|]. rewrite fmt_second. apply in_or_app. right. destruct (dt_time t mod US =? 0); [destruct I|exact I]. }
  apply fmt_chars in J. tauto.
Qed.
Lemma str_dt_bracket x : ~ In 93%N (str_dt x).
Proof. intro I. apply str_dt_chars in I as [I|[I|I]]; [vm_compute in I; discriminate I| |]; cbn in I; intuition discriminate. Qed.
Lemma str_dt_line x : ~ In 10%N (str_dt x).
Proof. intro I. apply str_dt_chars in I as [I|[I|I]]; [vm_compute in I; discriminate I| |]; cbn in I; intuition discriminate. Qed.
Lemma ctx_text e x : n_exc e = None -> ctx_line e x =
  91%N :: second_text (n_time e) ++ 44%N :: digits 6 (dt_time (n_time e) mod US) ++ 93%N :: 32%N :: 91%N :: level_name (n_level e) ++ 93%N :: 32%N :: 91%N :: str_of_Z (n_pid e) ++ 93%N :: 32%N :: 91%N :: n_logger e ++ 93%N :: 32%N :: lit "[STRATEGY_DT=" ++ str_dt x ++ 93%N :: 32%N :: n_msg e.
Proof.
  intro E. unfold ctx_line. rewrite E. unfold ctx_head. change (lit "] [STRATEGY_DT=") with (93%N :: 32%N :: lit "[STRATEGY_DT="). generalize (lit "[STRATEGY_DT="). intro q. change (lit "[") with [91%N]. change (lit "] [") with [93%N; 32%N; 91%N]. change (lit "] ") with [93%N; 32%N].
  cbn [app]. f_equal. repeat (rewrite <- app_assoc; cbn [app]). reflexivity.
Qed.
Lemma ctx_inj e e' x x' : one_line e -> one_line e' -> dt_fine x -> dt_fine x' -> ctx_line e x = ctx_line e' x' -> e = e' /\ x = x'.
Proof.
  intros (Hd & Hl & Hp & Hg & _ & _ & He) (Hd' & Hl' & Hp' & Hg' & _ & _ & He') Hx Hx' E. rewrite (ctx_text e x He), (ctx_text e' x' He') in E.
  apply (f_equal (@tl N)) in E. cbn [tl] in E. apply (stamp_inj _ _ _ _ 44%N Hd Hd') in E as [Et E].
  injection E as E. apply cut_at in E as [El E]; try (apply level_chars; assumption). apply (level_inj _ _ Hl Hl') in El.
  injection E as E. apply cut_at in E as [Ep E]; try (apply pid_chars; assumption). apply (pid_inj _ _ Hp Hp') in Ep.
  injection E as E. apply cut_at in E as [Eg E]; try assumption. injection E as E.
  apply cut_at in E as [Ex E]; try apply str_dt_bracket. apply str_dt_inj in Ex; auto. injection E as E.
  destruct e, e'. cbn in *. subst. auto.
Qed.
Lemma ctx_one e x : one_line e -> ~ In 10%N (ctx_line e x).
Proof.
  intros (_ & Hl & Hp & _ & Hn & Hm & He). rewrite (ctx_text e x He). destruct (level_chars _ Hl) as [_ L]. destruct (pid_chars _ Hp) as [_ P].
  assert (F : In 10%N (fmt_dt (n_time e)) -> False).
  { intro J. apply fmt_chars in J as [J|J]; [vm_compute in J; discriminate J|]. cbn in J. intuition discriminate. }
  assert (F1 : ~ In 10%N (second_text (n_time e))) by (intro J; apply F, second_chars, J).
  assert (F2 : ~ In 10%N (digits 6 (dt_time (n_time e) mod US))) by (intro J; apply F; rewrite fmt_second; apply in_or_app; right; right; exact J).
  assert (F3 : ~ In 10%N (lit "[STRATEGY_DT=")) by (cbn; intuition discriminate). pose proof (str_dt_line x) as F4.
  revert F3. generalize (lit "[STRATEGY_DT="). intros q F3.
  intro I. destruct I as [I|I]; [discriminate I|]. repeat (rewrite in_app_iff in I || cbn [In] in I).
  intuition discriminate.
Qed.

(** From the text all entries can be read back, each with the strategy's time. *)
Theorem C153_read : forall es es' : list (entry * option Z),
  Forall (fun p => one_line (fst p) /\ dt_fine (snd p)) es -> Forall (fun p => one_line (fst p) /\ dt_fine (snd p)) es' ->
  concat (map (fun p => ctx_line (fst p) (snd p) ++ [10%N]) es) = concat (map (fun p => ctx_line (fst p) (snd p) ++ [10%N]) es') -> es = es'.
Proof.
  intros es es' H H' E.
  assert (X : map (fun p => ctx_line (fst p) (snd p)) es = map (fun p => ctx_line (fst p) (snd p)) es').
  { apply lines_cut.
    - rewrite Forall_map. eapply Forall_impl; [|exact H]. intros p [Hp _]. apply ctx_one, Hp.
    - rewrite Forall_map. eapply Forall_impl; [|exact H']. intros p [Hp _]. apply ctx_one, Hp.
    - rewrite !map_map. exact E. }
  clear E. revert es' H' X. induction H as [|p es [Hp Hq] H IH]; intros [|p' es'] H' X; try discriminate X; [reflexivity|].
  inversion H' as [|? ? [Hp' Hq'] H'']; subst. cbn [map] in X. injection X as X1 X2. f_equal; [|apply IH; assumption].
  destruct (ctx_inj _ _ _ _ Hp Hp' Hq Hq' X1). destruct p, p'. cbn in *. subst. reflexivity.
Qed.
Print Assumptions C153_read.

(** The fields of a line, in this order; the strategy's time as Python prints it. *)
Theorem C153_fields : forall e w x, n_exc e = None ->
  In (n_level e, w) [(10, lit "DEBUG"); (20, lit "INFO"); (30, lit "WARNING"); (40, lit "ERROR"); (50, lit "CRITICAL")] ->
  exists day_time micros, fmt_dt (n_time e) = day_time ++ lit "." ++ micros /\ List.length micros = 6%nat /\
    ctx_line e x = lit "[" ++ day_time ++ lit "," ++ micros ++ lit "] [" ++ w ++ lit "] [" ++ str_of_Z (n_pid e) ++ lit "] [" ++ n_logger e ++ lit "] [STRATEGY_DT=" ++ str_dt x ++ lit "] " ++ n_msg e.
Proof.
  intros e w x He Hw. exists (second_text (n_time e)), (digits 6 (dt_time (n_time e) mod US)). split; [apply fmt_second|]. split; [apply digits_length|].
  assert (E : level_name (n_level e) = w).
  { repeat (destruct Hw as [Hw|Hw]; [injection Hw as <- <-; reflexivity|]). destruct Hw. }
  rewrite (ctx_text e x He), E. reflexivity.
Qed.
Print Assumptions C153_fields.
Theorem C153_shown : forall t, str_dt None = lit "None" /\
  exists day_time micros, fmt_dt t = day_time ++ lit "." ++ micros /\ List.length micros = 6%nat /\
    (t mod US = 0 -> str_dt (Some t) = day_time) /\ (t mod US <> 0 -> str_dt (Some t) = fmt_dt t).
Proof.
  intro t. split; [reflexivity|]. exists (second_text t), (digits 6 (dt_time t mod US)). split; [apply fmt_second|]. split; [apply digits_length|].
  assert (E : dt_time t mod US = t mod US).
  { unfold dt_time. change DAY with (US * 86400). symmetry. assert (H : US <> 0) by discriminate.
    set (q := US * 86400). pose proof (Z.div_mod t q ltac:(discriminate)) as D. set (r := t mod q) in *. rewrite D. subst q.
    replace (US * 86400 * (t / (US * 86400)) + r) with (r + 86400 * (t / (US * 86400)) * US) by ring. apply Z.mod_add, H. }
  split; intro H; cbn [str_dt]; rewrite E.
  - rewrite H. change (0 =? 0) with true. cbv iota. apply app_nil_r.
  - apply Z.eqb_neq in H. rewrite H, fmt_second, E. reflexivity.
Qed.
Print Assumptions C153_shown.

(** Lines with the strategy's time sort by the clock among themselves. *)
Theorem C153_sorted : forall e e' x x', one_line e -> one_line e' -> n_time e < n_time e' -> before (ctx_line e x) (ctx_line e' x').
Proof.
  intros e e' x x' (Hd & _ & _ & _ & _ & _ & He) (Hd' & _ & _ & _ & _ & _ & He') H. rewrite (ctx_text e x He), (ctx_text e' x' He').
  cbn [before]. right. split; [reflexivity|].
  pose proof (fmt_before _ _ Hd Hd' H) as B. rewrite !fmt_second in B.
  assert (K : forall a b p q u v, List.length a = List.length b -> List.length p = List.length q -> before (a ++ 46%N :: p) (b ++ 46%N :: q) -> before (a ++ 44%N :: p ++ u) (b ++ 44%N :: q ++ v)).
  { clear. induction a as [|y a IH]; intros [|z b] p q u v L L' B; try discriminate L; cbn [app before] in *.
    - destruct B as [B|[_ B]]; [exfalso; lia|]. right. split; [reflexivity|]. apply before_first; assumption.
    - destruct B as [B|[-> B]]; [left; exact B|]. right. split; [reflexivity|]. apply IH; auto. }
  apply K; [rewrite !second_length; reflexivity|rewrite !digits_length; reflexivity|exact B].
Qed.
Print Assumptions C153_sorted.

(** But not together with lines without it: within a second the comma comes before the full
    stop. *)
Theorem C153_mixed_refuted : ~ (forall e e' x, one_line e -> one_line e' -> n_time e < n_time e' -> before (line_of e) (ctx_line e' x)).
Proof.
  intro H. assert (O : forall u, In u [0; 1] -> one_line (Entry (20000 * DAY + 34200 * US + u) 20 17 (lit "user") (lit "a") None)).
  { intros u Hu. destruct Hu as [<-|[<-|[]]]; (split; [vm_compute; split; congruence|]); (split; [cbn; tauto|]); (split; [discriminate|]); cbn; intuition discriminate. }
  specialize (H _ _ None (O 0 ltac:(cbn; tauto)) (O 1 ltac:(cbn; tauto)) ltac:(cbn [n_time]; lia)).
  vm_compute in H. repeat (destruct H as [H|[E H]]; [discriminate H|]; try discriminate E; clear E).
Qed.
Print Assumptions C153_mixed_refuted.

(** The claim that only the context given last matters is false. *)
Theorem C153_last_refuted : ~ (forall pre c post clock e x, given post = [] -> clock c = Ok x ->
  ctx_log (pre ++ CContext c :: post) clock e =
    (lines (ctx_line e x) (reached e (installed pre)) ++ lines (line_of e) (reached e (installed post)), None)).
Proof.
  intro H. specialize (H [CAdd Stdout 0; CContext 0%nat] 1%nat [] (fun c => match c with O => Err AttributeError | _ => Ok None end) li_1 None eq_refl eq_refl).
  vm_compute in H. discriminate H.
Qed.
Print Assumptions C153_last_refuted.

(** two tests after each other, and a file added last *)
Example C153_demo :
  let t := 20000 * DAY + 28800 * US in
  let clock := fun c => match c with O => Ok (Some 0) | _ => Ok (Some t) end in
  ctx_log [CAdd Stdout 0; CContext 0; CContext 1; CAdd (LogFile (lit "a.log")) 20] clock li_1 =
  ([(Stdout, lit "[2024-10-04 09:30:00,000000] [INFO] [17] [user] [STRATEGY_DT=2024-10-04 08:00:00] a" ++ [10%N]);
    (LogFile (lit "a.log"), lit "[2024-10-04 09:30:00.000000] [INFO] [17] [user] a" ++ [10%N])], None) /\
  str_dt (Some (t + 500000)) = lit "2024-10-04 08:00:00.500000" /\
  ctx_log [CAdd Stdout 0; CContext 0; CContext 1] (fun c => match c with O => Err AttributeError | _ => Ok (Some t) end) li_1 = ([], Some AttributeError).
Proof. vm_compute. repeat split. Qed.
