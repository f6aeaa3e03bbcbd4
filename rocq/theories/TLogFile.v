(** C155: the text of the log files of all tasks. *)
From Coq Require Import Sorted String.
From Verif Require Import PyBase PyStr MTime MDate SDate MLog TLog MLine TLogText MLogFile.
Open Scope list_scope.
Open Scope Z_scope.

(** ** what is meant *)
(** how each process was started last *)
Definition starts := Z -> option (option str * bool).
Definition started (st : starts) (p : Z) (o : option str) (d : bool) : starts := fun q => if q =? p then Some (o, d) else st q.
(** the entries that belong into file [f]: those of processes started with it, from INFO (with
    --debug, DEBUG) on *)
Fixpoint belong (f : str) (st : starts) (es : list lwev) : list entry :=
  match es with
  | [] => []
  | LwStart p o d :: es' => belong f (started st p o d) es'
  | LwLog e :: es' =>
      match st (n_pid e) with
      | Some (Some g, d) => if str_eqb g f && ((if d then 10 else 20) <=? n_level e) then e :: belong f st es' else belong f st es'
      | _ => belong f st es'
      end
  end.
(** what process [p] does *)
Definition of_proc (p : Z) (v : lwev) : bool := match v with LwStart q _ _ => q =? p | LwLog e => n_pid e =? p end.

(** ** lemmas *)
(** a process's set-up: as started, nothing set since *)
Definition as_started (s : logst) (x : option (option str * bool)) : Prop :=
  lg_user s = 0 /\ lg_system s = 0 /\
  match x with
  | Some (o, d) => lg_root s = least d /\ exists hl, lg_handlers s = [Handler (target o) hl] /\ hl <= least d
  | None => lg_root s = WARNING /\ lg_handlers s = []
  end.
Definition matches (w : lworld) (st : starts) : Prop :=
  forall p, as_started (match dget p (lw_procs w) with Some s => s | None => log_init end) (st p).
Lemma text_set f g t fs : text_in f (dset g t fs) = if str_eqb f g then t else text_in f fs.
Proof. unfold text_in. rewrite dget_dset. change (eqb f g) with (str_eqb f g). destruct (str_eqb f g); reflexivity. Qed.
Lemma str_eqb_iff a b : str_eqb a b = true <-> a = b.
Proof. change (str_eqb a b) with (eqb a b). destruct (eqb_spec a b); split; congruence. Qed.
Lemma skip_all {A} (l x : list A) : skipn (length l) (l ++ x) = x.
Proof. rewrite skipn_app, skipn_all, Nat.sub_diag. reflexivity. Qed.
Lemma step_start w st p o d : matches w st -> matches (lw_step w (LwStart p o d)) (started st p o d) /\
  (forall f, text_in f (lw_files (lw_step w (LwStart p o d))) = text_in f (lw_files w)).
Proof.
  intro M. split.
  - intro q. cbn [lw_step lw_procs]. unfold started. rewrite dget_dset. change (eqb q p) with (q =? p). destruct (q =? p); [|apply M].
    destruct o as [[|c g]|], d; (split; [reflexivity|]); (split; [reflexivity|]); (split; [reflexivity|]); eexists; (split; [reflexivity|]); unfold least, DEBUG, INFO; lia.
  - intro f. cbn [lw_step lw_files]. destruct o as [[|c g]|]; try reflexivity. rewrite text_set. destruct (str_eqb f (c :: g)) eqn:E; [|reflexivity]. apply str_eqb_iff in E. subst. reflexivity.
Qed.
Lemma step_log w st e : matches w st -> matches (lw_step w (LwLog e)) st /\
  (forall f, f <> [] -> text_in f (lw_files (lw_step w (LwLog e))) = text_in f (lw_files w) ++ log_text (belong f st [LwLog e])).
Proof.
  intro M. pose proof (M (n_pid e)) as Me. cbn [lw_step].
  set (s := match dget (n_pid e) (lw_procs w) with Some s => s | None => log_init end) in *.
  assert (Ef : effective (r_name (rec_of e)) s = lg_root s).
  { unfold effective. destruct Me as (Hu & Hs & _). destruct (r_name (rec_of e)); rewrite ?Hu, ?Hs; reflexivity. }
  split.
  - intro q. cbn [lw_procs]. rewrite dget_dset. change (eqb q (n_pid e)) with (q =? n_pid e). destruct (Z.eqb_spec q (n_pid e)) as [->|]; [|apply M].
    unfold log_call. destruct (effective (r_name (rec_of e)) s <=? r_level (rec_of e)); exact Me.
  - intros f Hf. cbn [lw_files belong]. unfold log_call. rewrite Ef. change (r_level (rec_of e)) with (n_level e).
    destruct Me as (_ & _ & Me). destruct (st (n_pid e)) as [[o d]|].
    + destruct Me as (Hr & hl & Hh & Hl). rewrite Hr, Hh.
      destruct (least d <=? n_level e) eqn:L.
      * cbn [lg_written filter h_level map]. replace (hl <=? n_level e) with true by (symmetry; apply Z.leb_le; apply Z.leb_le in L; lia).
        cbn [map h_dest]. rewrite skip_all. cbn [fold_left]. unfold write_out. cbn [fst snd].
        destruct o as [[|c g]|]; cbn [target].
        -- replace (str_eqb [] f) with false by (destruct f; [congruence|reflexivity]). cbn [andb log_text map concat]. rewrite app_nil_r. reflexivity.
        -- rewrite text_set. fold (least d). rewrite L. change (r_text (rec_of e)) with (line_of e).
           destruct (str_eqb f (c :: g)) eqn:E1.
           ++ apply str_eqb_iff in E1. subst f. replace (str_eqb (c :: g) (c :: g)) with true by (symmetry; apply str_eqb_iff; reflexivity). cbn [andb]. unfold log_text. cbn [map concat]. rewrite app_nil_r. reflexivity.
           ++ destruct (str_eqb (c :: g) f) eqn:E2; [apply str_eqb_iff in E2; subst f; assert (X : str_eqb (c :: g) (c :: g) = true) by (apply str_eqb_iff; reflexivity); congruence|].
              cbn [andb log_text map concat]. rewrite app_nil_r. reflexivity.
        -- cbn [log_text map concat]. rewrite app_nil_r. reflexivity.
      * rewrite skipn_all. cbn [fold_left]. fold (least d). rewrite L. destruct o as [g|]; [rewrite andb_false_r|]; cbn [log_text map concat]; rewrite app_nil_r; reflexivity.
    + destruct Me as (Hr & Hh). rewrite Hh. unfold log_text. cbn [map concat]. rewrite app_nil_r.
      destruct (lg_root s <=? n_level e); [|rewrite skipn_all; reflexivity]. cbn [lg_written]. rewrite skip_all. destruct (WARNING <=? n_level e); reflexivity.
Qed.
Lemma belong_cons f st e es : belong f st (LwLog e :: es) = belong f st [LwLog e] ++ belong f st es.
Proof. cbn [belong]. destruct (st (n_pid e)) as [[[g|] d]|]; try reflexivity. destruct (str_eqb g f && ((if d then 10 else 20) <=? n_level e)); reflexivity. Qed.
Lemma log_text_app a b : log_text (a ++ b) = log_text a ++ log_text b.
Proof. unfold log_text. rewrite map_app. apply concat_app. Qed.
Lemma run_text : forall es w st, matches w st -> forall f, f <> [] -> text_in f (lw_files (fold_left lw_step es w)) = text_in f (lw_files w) ++ log_text (belong f st es).
Proof.
  induction es as [|v es IH]; intros w st M f Hf; [cbn; rewrite app_nil_r; reflexivity|]. cbn [fold_left]. destruct v as [p o d|e].
  - destruct (step_start w st p o d M) as [M' T]. rewrite (IH _ _ M' f Hf), T. reflexivity.
  - destruct (step_log w st e M) as [M' T]. rewrite (IH _ _ M' f Hf), (T f Hf), (belong_cons f st e es), log_text_app, app_assoc. reflexivity.
Qed.
Definition nobody : starts := fun _ => None.
Definition lw_init (fs : dict str str) : lworld := LWorld [] fs.
Lemma init_matches fs : matches (lw_init fs) nobody.
Proof. intro p. cbn. repeat split. Qed.
Lemma belong_in f : forall es st e, In e (belong f st es) -> In (LwLog e) es.
Proof.
  induction es as [|[p o d|e0] es IH]; intros st e I; [destruct I| |].
  - right. apply (IH _ _ I).
  - rewrite belong_cons in I. apply in_app_or in I as [I|I]; [|right; apply (IH _ _ I)]. left. cbn [belong] in I.
    destruct (st (n_pid e0)) as [[[g|] d]|]; try destruct I. destruct (str_eqb g f && ((if d then 10 else 20) <=? n_level e0)); [|destruct I]. destruct I as [<-|[]]. reflexivity.
Qed.

(** ** C155 *)
(** After any number of starts and log calls of any processes, in any order, a log file holds
    what it held and after that the lines of the entries that belong there, in order. *)
Theorem C155_text : forall es fs f, f <> [] -> text_in f (lw_files (fold_left lw_step es (lw_init fs))) = text_in f fs ++ log_text (belong f nobody es).
Proof. intros es fs f Hf. apply (run_text es (lw_init fs) nobody (init_matches fs) f Hf). Qed.
Print Assumptions C155_text.

(** So a restart never loses what was logged before. *)
Theorem C155_kept : forall es es' fs f, f <> [] -> exists t, text_in f (lw_files (fold_left lw_step (es ++ es') (lw_init fs))) = text_in f (lw_files (fold_left lw_step es (lw_init fs))) ++ t.
Proof.
  intros es es' fs f Hf. rewrite fold_left_app. destruct (fold_left lw_step es (lw_init fs)) as [ps gs] eqn:E.
  assert (M : exists st, matches (LWorld ps gs) st).
  { rewrite <- E. clear E ps gs. enough (G : forall l w st, matches w st -> exists st', matches (fold_left lw_step l w) st') by (apply (G _ _ nobody), init_matches).
    induction l as [|v l IH]; intros w st M; [exists st; exact M|]. cbn [fold_left]. destruct v as [p o d|e]; [apply (IH _ _ (proj1 (step_start w st p o d M)))|apply (IH _ _ (proj1 (step_log w st e M)))]. }
  destruct M as (st & M). eexists. rewrite (run_text es' _ st M f Hf). reflexivity.
Qed.
Print Assumptions C155_kept.

(** What one process logged can be picked out by its number, even where several share a file:
    it is what would be there had it run alone. *)
Theorem C155_picked : forall f p es, filter (fun e => n_pid e =? p) (belong f nobody es) = belong f nobody (filter (of_proc p) es).
Proof.
  intros f p es. assert (G : forall es st st', st p = st' p -> filter (fun e => n_pid e =? p) (belong f st es) = belong f st' (filter (of_proc p) es)).
  { clear es. induction es as [|[q o d|e] es IH]; intros st st' H; [reflexivity| |].
    - cbn [belong filter of_proc]. destruct (Z.eqb_spec q p) as [->|N]; cbn [belong]; apply IH; unfold started.
      + rewrite Z.eqb_refl. reflexivity.
      + destruct (Z.eqb_spec p q); [congruence|exact H].
    - cbn [filter of_proc]. rewrite (belong_cons f st e es), filter_app. destruct (Z.eqb_spec (n_pid e) p) as [E|N].
      + rewrite (belong_cons f st' e (filter (of_proc p) es)), (IH st st' H). f_equal. cbn [belong]. rewrite E, H. destruct (st' p) as [[[g|] d]|]; try reflexivity.
        destruct (str_eqb g f && ((if d then 10 else 20) <=? n_level e)); cbn [filter]; [rewrite E, Z.eqb_refl|]; reflexivity.
      + rewrite (IH st st' H). cbn [belong]. destruct (st (n_pid e)) as [[[g|] d]|]; try reflexivity.
        destruct (str_eqb g f && ((if d then 10 else 20) <=? n_level e)); cbn [filter]; [|reflexivity]. destruct (Z.eqb_spec (n_pid e) p); [contradiction|reflexivity]. }
  apply G. reflexivity.
Qed.
Print Assumptions C155_picked.

(** With entries on one line each, a file that was empty tells exactly what was logged. *)
Theorem C155_read : forall es es' fs f, f <> [] -> text_in f fs = [] ->
  (forall e, In (LwLog e) es -> one_line e) -> (forall e, In (LwLog e) es' -> one_line e) ->
  text_in f (lw_files (fold_left lw_step es (lw_init fs))) = text_in f (lw_files (fold_left lw_step es' (lw_init fs))) ->
  belong f nobody es = belong f nobody es'.
Proof.
  intros es es' fs f Hf E0 H H' E. rewrite !C155_text, E0 in E by exact Hf. cbn [app] in E. apply C152_read_partial; [| |exact E]; apply Forall_forall; intros e I; [apply H|apply H']; apply (belong_in f _ nobody), I.
Qed.
Print Assumptions C155_read.

(** Two tasks share a file; one is restarted; a third logs elsewhere. *)
Definition lf_e (t p l : Z) (m : str) : entry := Entry (20000 * DAY + t * US) l p (lit "user") m None.
Definition lf_f : str := lit "all.log".
Definition lf_es : list lwev :=
  [LwStart 7 (Some lf_f) false; LwLog (lf_e 1 7 20 (lit "a")); LwStart 8 (Some lf_f) true; LwLog (lf_e 2 8 10 (lit "b")); LwLog (lf_e 3 7 10 (lit "hidden"));
   LwStart 9 None false; LwLog (lf_e 4 9 40 (lit "elsewhere")); LwStart 10 (Some lf_f) false; LwLog (lf_e 5 10 30 (lit "c"))].
Example C155_demo :
  map n_msg (belong lf_f nobody lf_es) = [lit "a"; lit "b"; lit "c"] /\
  text_in lf_f (lw_files (fold_left lw_step lf_es (lw_init [(lf_f, lit "old" ++ [10%N])]))) =
    lit "old" ++ [10%N] ++ lit "[2024-10-04 00:00:01.000000] [INFO] [7] [user] a" ++ [10%N] ++ lit "[2024-10-04 00:00:02.000000] [DEBUG] [8] [user] b" ++ [10%N] ++
    lit "[2024-10-04 00:00:05.000000] [WARNING] [10] [user] c" ++ [10%N] /\
  map n_msg (filter (fun e => n_pid e =? 8) (belong lf_f nobody lf_es)) = [lit "b"].
Proof. vm_compute. repeat split. Qed.
Example C155_read_demo : (forall e, In (LwLog e) lf_es -> one_line e) /\ text_in lf_f [] = [] /\ lf_f <> [].
Proof.
  split; [|split; [reflexivity|discriminate]]. intros e I. unfold lf_es in I. cbn [In] in I.
  repeat (destruct I as [I|I]; [try discriminate I; injection I as <-; (split; [vm_compute; split; congruence|]); (split; [cbn; tauto|]); (split; [discriminate|]); cbn; intuition discriminate|]).
  destruct I.
Qed.
