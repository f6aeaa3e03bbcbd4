(** Facts about [MTasks]. *)
From Verif Require Import PyStr LStr LGate MTasks STasks.
Open Scope list_scope.

Lemma contains_iff w s : contains w s = true <-> exists a b, s = a ++ w ++ b.
Proof.
  induction s as [|c s IH]; cbn [contains].
  - rewrite orb_false_r, startswith_iff. split.
    + intros [r E]. exists [], r. exact E.
    + intros (a & b & E). destruct a; [exists b; exact E|discriminate].
  - rewrite orb_true_iff, startswith_iff, IH. split.
    + intros [[r E]|(a & b & E)]; [exists [], r; exact E|exists (c :: a), b; cbn; congruence].
    + intros (a & b & E). destruct a as [|x a]; [left; exists b; exact E|right; exists a, b; cbn in E; congruence].
Qed.
Lemma mentions_iff cmd : mentions cmd = true <-> speaks cmd.
Proof.
  unfold mentions, speaks. rewrite andb_true_iff, !contains_iff. split.
  - intros [(a & b & E) (c & d & F)]. eauto 8.
  - intros (a & b & c & d & E & F). eauto 8.
Qed.

(** ** Command lines *)
Definition agree (s : apst) (i : tinfo) : Prop :=
  ti_name i = ap_name s /\ ti_code i = ap_code s /\ ti_out i = ap_out s /\ ti_env i = ap_env s /\ ti_debug i = ap_debug s.

Lemma not_flag_items t rest i : ~ In t flags -> parse_items (t :: rest) i = parse_items rest i.
Proof.
  intro H. cbn [parse_items].
  assert (E : forall f, In f flags -> eqb t f = false) by (intros f Hf; apply eqb_false; congruence).
  unfold memb. cbn [existsb]. rewrite !E by (cbn; tauto). reflexivity.
Qed.
Lemma arg_not_flag t : classify t = AArg -> ~ In t flags.
Proof. intros H Hin. cbn in Hin. repeat (destruct Hin as [<-|Hin]; [vm_compute in H; discriminate|]). exact Hin. Qed.

Lemma items_follow n : forall toks s s' i, (length toks <= n)%nat ->
  (forall t, In t toks -> In t flags \/ classify t = AArg) -> agree s i -> ap_loop toks s = Some s' ->
  exists i', parse_items toks i = Ok i' /\ agree s' i'.
Proof.
  induction n as [|n IH]; intros toks s s' i Hl Ht A H.
  { destruct toks; [|cbn in Hl; lia]. injection H as <-. exists i. split; [reflexivity|exact A]. }
  destruct toks as [|t rest]; [injection H as <-; exists i; split; [reflexivity|exact A]|].
  destruct (Ht t (or_introl eq_refl)) as [F|F].
  2:{ cbn [ap_loop] in H. rewrite F in H. destruct (eqb t (lit "--")); discriminate. }
  destruct A as (A1 & A2 & A3 & A4 & A5).
  assert (V : forall o, (forall v, agree (ap_set o v s) (match o with
      | OName => TInfo (ti_debug i) (ti_env i) (ti_out i) (ti_code i) (Some v)
      | OCode => TInfo (ti_debug i) (ti_env i) (ti_out i) (Some v) (ti_name i)
      | OOut => TInfo (ti_debug i) (ti_env i) (Some v) (ti_code i) (ti_name i)
      | OEnv => TInfo (ti_debug i) (Some v) (ti_out i) (ti_code i) (ti_name i)
      | _ => i end))) by (intros o v; destruct o; repeat split; assumption).
  cbn [In flags] in F.
  assert (W : forall o, (match rest with [] => None | v :: rest' => if eqb v (lit "--") then None else match classify v with AArg => ap_loop rest' (ap_set o v s) | _ => None end end) = Some s' ->
    exists v rest', rest = v :: rest' /\ classify v = AArg /\ ap_loop rest' (ap_set o v s) = Some s').
  { intros o E. destruct rest as [|v rest']; [discriminate|]. destruct (eqb v (lit "--")); [discriminate|].
    destruct (classify v) eqn:C; try discriminate. eauto. }
  assert (G : forall o i2, (exists v rest', rest = v :: rest' /\ classify v = AArg /\ ap_loop rest' (ap_set o v s) = Some s' /\ agree (ap_set o v s) i2) ->
    exists i', parse_items rest i2 = Ok i' /\ agree s' i').
  { intros o i2 (v & rest' & -> & C & L & Ag). rewrite not_flag_items by (apply arg_not_flag, C).
    apply (IH rest' (ap_set o v s)); [cbn in Hl; lia|intros x Hx; apply Ht; right; right; exact Hx|exact Ag|exact L]. }
  Ltac one o W G V H := apply (W o) in H; destruct H as (v & rest' & -> & C & L);
    exact (G o _ (ex_intro _ v (ex_intro _ rest' (conj eq_refl (conj C (conj L (V o v))))))).
  destruct F as [<-|[<-|[<-|[<-|[<-|[<-|[<-|[<-|[<-|[<-|[]]]]]]]]]]].
  - one OName W G V H.
  - one OName W G V H.
  - one OCode W G V H.
  - one OCode W G V H.
  - one OOut W G V H.
  - one OOut W G V H.
  - one OEnv W G V H.
  - one OEnv W G V H.
  - one OConfig W G V H.
  - apply (IH rest (ap_flag s) s' (TInfo true (ti_env i) (ti_out i) (ti_code i) (ti_name i))); [cbn in Hl; lia|intros x Hx; apply Ht; right; exact Hx| |exact H].
    repeat split; assumption.
Qed.

Lemma items_skip pre toks i : (forall t, In t pre -> ~ In t flags) -> parse_items (pre ++ toks) i = parse_items toks i.
Proof.
  induction pre as [|t pre IH]; intro H; [reflexivity|]. cbn [app]. rewrite not_flag_items by (apply H; left; reflexivity).
  apply IH. intros x Hx. apply H. right. exact Hx.
Qed.

(** ** The process table *)
Lemma scan_spec l : (forall p, In p l -> p_denied p = false) -> forall t ps,
  scan l t ps = Ok (t ++ filter (fun p => mentions (p_cmd p)) l, ps ++ map p_ppid (filter (fun p => mentions (p_cmd p)) l)).
Proof.
  induction l as [|p l IH]; intros H t ps; cbn [scan filter map]; [rewrite !app_nil_r; reflexivity|].
  rewrite (H p (or_introl eq_refl)). assert (H' : forall q, In q l -> p_denied q = false) by (intros; apply H; right; assumption).
  destruct (mentions (p_cmd p)); rewrite IH by exact H'; cbn [map]; rewrite <- ?app_assoc; reflexivity.
Qed.
Lemma get_active_spec table : (forall p, In p table -> p_denied p = false) ->
  exists l, get_active table = Ok l /\ (forall p, In p l <-> active_in table p) /\
    (exists f, l = filter f table).
Proof.
  intro H. unfold get_active. rewrite scan_spec by exact H. cbn [rbind app].
  set (tasks := filter (fun p => mentions (p_cmd p)) table).
  eexists. split; [reflexivity|]. split.
  - intro p. rewrite filter_In. unfold tasks at 1. rewrite filter_In, mentions_iff. unfold active_in. split.
    + intros [[Hin Hs] Hn]. split; [exact Hin|]. split; [exact Hs|]. intros (q & Hq & Hsq & E). apply negb_true_iff in Hn.
      assert (memb (p_pid p) (map p_ppid tasks) = true); [|congruence]. apply memb_In, in_map_iff. exists q. split; [exact E|].
      apply filter_In. split; [exact Hq|]. apply mentions_iff, Hsq.
    + intros (Hin & Hs & Hn). split; [split; assumption|]. apply negb_true_iff. destruct (memb (p_pid p) (map p_ppid tasks)) eqn:E; [|reflexivity].
      exfalso. apply Hn. apply memb_In, in_map_iff in E. destruct E as (q & E & Hq). apply filter_In in Hq. exists q. split; [tauto|]. split; [apply mentions_iff; tauto|exact E].
  - exists (fun p => mentions (p_cmd p) && negb (memb (p_pid p) (map p_ppid tasks))). 
    change (filter (fun p => negb (memb (p_pid p) (map p_ppid tasks))) (filter (fun p => mentions (p_cmd p)) table) =
      filter (fun p => mentions (p_cmd p) && negb (memb (p_pid p) (map p_ppid tasks))) table).
    generalize (map p_ppid tasks). clear. intro ps. induction table as [|x t IH]; [reflexivity|].
    cbn [filter]. destruct (mentions (p_cmd x)); cbn [andb filter]; rewrite IH; reflexivity.
Qed.
Definition name_is (n : str) (p : proc) : bool := match parse_task_info (p_cmd p) with Ok i => eqb (ti_name i) (Some n) | Err _ => false end.
Lemma stop_named_spec n l : (forall p, In p l -> exists m, named m (p_cmd p)) -> forall sent,
  stop_named (Some n) l sent = (Ok tt, sent ++ map p_pid (filter (name_is n) l)).
Proof.
  induction l as [|p l IH]; intros H sent; cbn [stop_named filter map]; [rewrite app_nil_r; reflexivity|].
  destruct (H p (or_introl eq_refl)) as (m & i & E & Em). unfold name_is at 1. rewrite E, Em.
  rewrite IH by (intros; apply H; right; assumption).
  destruct (eqb_spec (Some n) (Some m)) as [X|X], (eqb_spec (Some m) (Some n)) as [Y|Y]; try congruence; cbn [map]; rewrite <- ?app_assoc; reflexivity.
Qed.
Lemma name_is_iff n p : name_is n p = true <-> named n (p_cmd p).
Proof.
  unfold name_is, named. destruct (parse_task_info (p_cmd p)) as [i|x]; split.
  - intro H. apply eqb_true in H. eauto.
  - intros (j & E & En). injection E as <-. apply eqb_true. exact En.
  - discriminate.
  - intros (j & E & _). discriminate.
Qed.
