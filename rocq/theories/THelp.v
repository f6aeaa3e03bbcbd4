(** C106: asking for help runs nothing. *)
From Verif Require Import PyBase PyStr MTasks PyArgs MMain SMain TMain.
Open Scope list_scope.

Definition help : list str := [lit "-h"; lit "--help"].
(** an option without a value is in the result, wherever it stands *)
Lemma args_flag {K} (reg : list (str * (K * bool))) t s k : class_of reg t = COpt (Some (s, (k, false))) None -> eqb t (lit "--") = false ->
  forall b a l, args reg (a ++ t :: b) = Some l -> In (k, None) l.
Proof.
  intros C D b a. remember (List.length a) as n eqn:En. revert a En. induction n as [n IH] using (well_founded_induction lt_wf). intros a En l.
  destruct a as [|x a]; cbn [app args].
  - rewrite D, C. destruct (args reg b) as [l'|]; [|discriminate]. intro H. injection H as <-. left. reflexivity.
  - destruct (eqb x (lit "--")); [discriminate|]. destruct (class_of reg x) as [|[[s' [k' val]]|] e|]; try discriminate.
    destruct (match e with Some arg => _ | None => _ end) as [[l0 [k2|]]|]; [| |discriminate].
    + destruct a as [|v a]; cbn [app]; [rewrite D, C; discriminate|].
      destruct (eqb v (lit "--")); [discriminate|]. destruct (class_of reg v); try discriminate.
      destruct (args reg (a ++ t :: b)) as [l'|] eqn:E; [|discriminate]. intro H.
      specialize (IH (List.length a) ltac:(subst n; cbn [List.length]; lia) a eq_refl l' E). injection H as <-. apply in_or_app. right. try (right; exact IH); exact IH.
    + destruct (args reg (a ++ t :: b)) as [l'|] eqn:E; [|discriminate]. intro H.
      specialize (IH (List.length a) ltac:(subst n; cbn [List.length]; lia) a eq_refl l' E). injection H as <-. apply in_or_app. right. exact IH.
Qed.
Lemma start_help l : In (OHelp, None) l -> forall s, start_actions l s = None.
Proof.
  induction l as [|[k v] l IH]; intros H s; [destruct H|]. destruct H as [H|H]; [injection H as -> ->; reflexivity|].
  cbn [start_actions]. destruct k, v; try reflexivity; apply IH; exact H.
Qed.
Lemma stop_help l : In (KHelp, None) l -> forall s, stop_actions l s = None.
Proof.
  induction l as [|[k v] l IH]; intros H s; [destruct H|]. destruct H as [H|H]; [injection H as -> ->; reflexivity|].
  cbn [stop_actions]. destruct k, v; try reflexivity; try (apply IH; exact H). destruct (py_int _); [apply IH; exact H|reflexivity].
Qed.
Theorem C106_help : forall h, In h help ->
  (forall vs rest, Forall (fun v => In v [lit "-V"; lit "--version"]) vs -> main (vs ++ h :: rest) = OExit) /\
  (forall name a b, In name [lit "start_task"; lit "get_tasks"; lit "stop_task"] -> main (name :: a ++ h :: b) = OExit).
Proof.
  intros h Hh. split.
  - intros vs rest Hv. unfold main. assert (G : forall b, main_loop (h :: rest) b = OExit) by (intro b; destruct Hh as [<-|[<-|[]]]; reflexivity).
    destruct vs as [|v vs]; [apply G|]. rewrite version_loop; [apply G|exact Hv|discriminate].
  - intros name a b Hn.
    assert (S : exists s, class_of start_reg h = COpt (Some (s, (OHelp, false))) None) by (destruct Hh as [<-|[<-|[]]]; eexists; reflexivity).
    assert (P : exists s, class_of stop_reg h = COpt (Some (s, (KHelp, false))) None) by (destruct Hh as [<-|[<-|[]]]; eexists; reflexivity).
    assert (D : eqb h (lit "--") = false) by (destruct Hh as [<-|[<-|[]]]; reflexivity).
    destruct Hn as [<-|[<-|[<-|[]]]].
    + change (main (lit "start_task" :: a ++ h :: b)) with (match option_map CStart (parse_start (a ++ h :: b)) with Some c => ORun c | None => OExit end).
      unfold parse_start. destruct (args start_reg (a ++ h :: b)) as [l|] eqn:E; [|reflexivity]. destruct S as [s S].
      rewrite start_help; [reflexivity|]. exact (args_flag start_reg h s OHelp S D b a l E).
    + apply (proj2 (C106_tasks (a ++ h :: b))). destruct a; discriminate.
    + change (main (lit "stop_task" :: a ++ h :: b)) with (match option_map CStop (parse_stop (a ++ h :: b)) with Some c => ORun c | None => OExit end).
      unfold parse_stop. destruct (args stop_reg (a ++ h :: b)) as [l|] eqn:E; [|reflexivity]. destruct P as [s P].
      rewrite stop_help; [reflexivity|]. exact (args_flag stop_reg h s KHelp P D b a l E).
Qed.
Print Assumptions C106_help.
(** with nothing, or with a value for the help option *)
Example C106_help_demo : main [lit "-V"; lit "-h"; lit "stop_task"; lit "--all"] = OExit /\ main [lit "stop_task"; lit "--all"; lit "--help"] = OExit /\
  main [lit "stop_task"; lit "-n"; lit "-h"] = OExit /\ main [] = ONoCommand.
Proof. repeat split; vm_compute; reflexivity. Qed.
