(** C71: each file of a task is its own.  C72: the saved orders are where they are looked for. *)
From Verif Require Import PyBase PyStr MTime MDate LStr LDate MFiles SFiles LFiles.
Open Scope list_scope.
Open Scope Z_scope.

(** Proved for task names without a slash, and days in years 1000 to 9999: two files of
    tasks are the same file exactly if they are meant to be, in any working directory. *)
Definition good (f : gfile) : Prop :=
  match f with
  | GData _ t d | GTmp _ t d => has_char 47 t = false /\ date_ok d
  | GCsv _ _ d => date_ok d
  end.
Theorem C71_own_partial :
  forall cwd f g, good f -> good g -> place cwd (path_of f) = place cwd (path_of g) <-> same_file cwd f g.
Proof.
  intros cwd f g Gf Gg. split.
  - destruct f as [r t d|r t d|r k d], g as [r' t' d'|r' t' d'|r' k' d']; cbn [good path_of same_file] in *;
      repeat match goal with H : _ /\ _ |- _ => destruct H end;
      rewrite ?data_place, ?tmp_place, ?csv_place by assumption; intro E.
    1, 5: apply two_eq in E as [E1 E2]; apply name_eq in E2 as [-> ->]; auto.
    1, 3: apply two_eq in E as [_ E]; revert E.
    1: apply (kind_neq t t' d d' (lit ".jso") (lit ".json.tm") 110 112); discriminate.
    1: apply (kind_neq t t' d d' (lit ".json.tm") (lit ".jso") 112 110); discriminate.
    + apply two_one in E. revert E. apply (kind_neq t (csv_prefix k') d d' (lit ".jso") (lit ".cs") 110 118). discriminate.
    + apply two_one in E. revert E. apply (kind_neq t (csv_prefix k') d d' (lit ".json.tm") (lit ".cs") 112 118). discriminate.
    + symmetry in E. apply two_one in E. revert E. apply (kind_neq t' (csv_prefix k) d' d (lit ".jso") (lit ".cs") 110 118). discriminate.
    + symmetry in E. apply two_one in E. revert E. apply (kind_neq t' (csv_prefix k) d' d (lit ".json.tm") (lit ".cs") 112 118). discriminate.
    + apply app_inj_tail in E as [E1 E2]. apply name_eq in E2 as [E2 ->]; try assumption. split; [exact E1|]. split; [|reflexivity].
      destruct k, k'; try reflexivity; discriminate E2.
  - destruct f as [r t d|r t d|r k d], g as [r' t' d'|r' t' d'|r' k' d']; cbn [good path_of same_file] in *; try tauto;
      intros (E & -> & ->); rewrite ?data_place, ?tmp_place, ?csv_place by tauto; rewrite E; reflexivity.
Qed.
Print Assumptions C71_own_partial.
(** The files exchanged with the broker have the names agreed, in the order directory. *)
Theorem C71_broker_names :
  forall cwd dir k d, exists n, In (k, n) broker_names /\ place cwd (csv_file dir k d) = place cwd dir ++ [n ++ lit "_" ++ ymd d ++ lit ".csv"].
Proof. intros cwd dir k d. exists (csv_prefix k). split; [|apply csv_place]. destruct k; cbn; auto 10. Qed.
Print Assumptions C71_broker_names.
(** False for names with a slash: two tasks of different names share their save file, in
    every runtime directory. *)
Theorem C71_slash_refuted :
  forall cwd r t d, has_char 47 t = false ->
    place cwd (data_file r (lit "../data/" ++ t) d) = place cwd (data_file r t d) /\ lit "../data/" ++ t <> t.
Proof.
  intros cwd r t d H. split.
  - rewrite (data_place cwd r t d H). unfold data_file. rewrite <- app_assoc.
    assert (P : plain (t ++ lit "_" ++ ymd d ++ lit ".json")) by (apply data_plain; [exact H|reflexivity|cbn; lia]).
    set (b := t ++ lit "_" ++ ymd d ++ lit ".json") in *. rewrite place_rel by reflexivity. rewrite data_dir_place.
    change (lit "../data/" ++ b) with (lit ".." ++ 47%N :: lit "data" ++ 47%N :: b).
    rewrite !split_on_app by reflexivity. rewrite split_on_none by apply P. cbn [fold_left].
    replace (enter (place cwd r ++ [lit "data"]) (lit "..")) with (place cwd r) by (symmetry; apply removelast_last).
    rewrite enter_plain by exact P. rewrite enter_plain by (repeat split; discriminate). rewrite <- app_assoc. reflexivity.
  - intros E. apply (f_equal (@length N)) in E. rewrite app_length in E. cbn in E. lia.
Qed.
Print Assumptions C71_slash_refuted.
(** And false on file systems that ignore case, where names differing in case only meet. *)
Definition lower (c : N) : N := if ((65 <=? c) && (c <=? 90))%N then (c + 32)%N else c.
Definition place_nocase (cwd : list str) (p : str) : list str := map (map lower) (place cwd p).
Theorem C71_case_refuted :
  forall cwd r t t' d, has_char 47 t = false -> has_char 47 t' = false -> map lower t = map lower t' ->
    place_nocase cwd (data_file r t d) = place_nocase cwd (data_file r t' d).
Proof. intros cwd r t t' d H H' E. unfold place_nocase. rewrite !data_place, !map_app by assumption. cbn [map]. rewrite !map_app, E. reflexivity. Qed.
Print Assumptions C71_case_refuted.
Definition D240102 : Z := 19724.
Example C71_demo :
  ymd D240102 = lit "20240102" /\
  data_file (lit "/home/u/jqtrade") (lit "demo") D240102 = lit "/home/u/jqtrade/data/demo_20240102.json" /\
  good (GData (lit "/home/u/jqtrade") (lit "demo") D240102) /\ good (GData (lit "/home/u/jqtrade") (lit "demo_20240102") (D240102 + 1)) /\
  place [lit "tmp"] (data_file (lit "rt/./x/..//") (lit "a") D240102) = [lit "tmp"; lit "rt"; lit "data"; lit "a_20240102.json"] /\
  same_file [lit "tmp"] (GTmp (lit "rt") (lit "a") D240102) (GTmp (lit "/tmp/rt/") (lit "a") D240102) /\
  map lower (lit "Demo") = map lower (lit "demo").
Proof. split; [reflexivity|]. split; [reflexivity|]. split; [split; [reflexivity|vm_compute; split; discriminate]|]. split; [split; [reflexivity|vm_compute; split; discriminate]|]. repeat split. Qed.

(** ** C72 *)

(** Proved if the option does not begin with a tilde: the saved orders are in the runtime
    directory that set_options creates and logs. *)
Theorem C72_runtime_partial :
  forall cwd home opt default t d, startswith (lit "~") (gate_runtime opt default) = false -> has_char 47 t = false ->
    place cwd (data_file (gate_runtime opt default) t d) =
    place cwd (strategy_runtime home opt default) ++ [lit "data"; t ++ lit "_" ++ ymd d ++ lit ".json"].
Proof.
  intros cwd home opt default t d H Ht. rewrite data_place by exact Ht. unfold strategy_runtime, expanduser.
  destruct (gate_runtime opt default) as [|c r]; [reflexivity|]. change (lit "~") with [126%N] in H. cbn [startswith] in H.
  rewrite andb_true_r, N.eqb_sym in H. rewrite H. reflexivity.
Qed.
Print Assumptions C72_runtime_partial.
(** Proved for absolute directories, so also for the default: a restart finds them from any
    working directory. *)
Theorem C72_anywhere_partial :
  forall cwd cwd' r t d, startswith (lit "/") r = true -> place cwd (data_file r t d) = place cwd' (data_file r t d).
Proof.
  intros cwd cwd' r t d H. assert (Hr : r <> []) by (intros ->; discriminate H).
  assert (H2 : startswith (lit "/") (data_file r t d) = true).
  { assert (J : forall a b, startswith (lit "/") a = true -> startswith (lit "/") (os_join a b) = true).
    { intros a b Ha. unfold os_join. destruct (startswith (lit "/") b) eqn:Eb; [exact Eb|]. assert (a <> []) by (intros ->; discriminate Ha).
      destruct (_ || _); rewrite starts_app by assumption; exact Ha. }
    apply J, J, H. }
  unfold place. rewrite H2. reflexivity.
Qed.
Print Assumptions C72_anywhere_partial.
(** False with "~/...": set_options creates the directory below the home, the gate saves
    below a directory named "~" of the working directory; started from elsewhere, the task
    looks for its orders in another file. *)
Theorem C72_refuted :
  forall cwd cwd' home d t p, has_char 47 t = false -> Forall plain p -> cwd <> cwd' ->
    startswith (lit "/") home = true ->
    let r := lit "~/" ++ join_with 47 p in
    p <> [] ->
    place cwd (data_file r t d) = cwd ++ lit "~" :: p ++ [lit "data"; t ++ lit "_" ++ ymd d ++ lit ".json"] /\
    place cwd (strategy_runtime home (Some r) (lit "/")) = place cwd home ++ p /\
    place cwd (data_file r t d) <> place cwd' (data_file r t d).
Proof.
  intros cwd cwd' home d t p Ht Hp Hc Hh r Np.
  assert (F : forall p l, Forall plain p -> fold_left enter p l = l ++ p).
  { clear. induction p as [|b p IH]; intros l H; [symmetry; apply app_nil_r|]. inversion H; subst. cbn [fold_left].
    rewrite enter_plain by assumption. rewrite IH by assumption. rewrite <- app_assoc. reflexivity. }
  assert (S : split_on 47 (join_with 47 p) = p) by (apply split_join; [exact Np|eapply Forall_impl; [|exact Hp]; intros b Hb; apply Hb]).
  assert (E : forall c, place c (data_file r t d) = c ++ lit "~" :: p ++ [lit "data"; t ++ lit "_" ++ ymd d ++ lit ".json"]).
  { intros c. rewrite data_place by exact Ht. unfold place. change (startswith (lit "/") r) with false.
    change r with (lit "~" ++ 47%N :: join_with 47 p). rewrite split_on_app by reflexivity. rewrite S. cbn [fold_left].
    rewrite enter_plain by (repeat split; discriminate). rewrite F by exact Hp. rewrite <- !app_assoc. reflexivity. }
  split; [apply E|]. split.
  - change (strategy_runtime home (Some r) (lit "/")) with (home ++ 47%N :: join_with 47 p). unfold place.
    rewrite starts_app by (intros ->; discriminate Hh). rewrite Hh. rewrite split_on_cat, fold_left_app, S, F by exact Hp. reflexivity.
  - rewrite !E. intros X. apply app_inv_tail in X. exact (Hc X).
Qed.
Print Assumptions C72_refuted.
Example C72_demo :
  gate_runtime None (lit "/home/u/jqtrade") = lit "/home/u/jqtrade" /\
  startswith (lit "~") (gate_runtime (Some (lit "run")) (lit "/home/u/jqtrade")) = false /\
  place [lit "w"] (strategy_runtime (lit "/home/u") (Some (lit "~/rt")) (lit "/home/u/jqtrade")) = [lit "home"; lit "u"; lit "rt"] /\
  place [lit "w"] (data_file (lit "~/rt") (lit "a") D240102) = [lit "w"; lit "~"; lit "rt"; lit "data"; lit "a_20240102.json"].
Proof. repeat split. Qed.
