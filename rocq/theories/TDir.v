(** C100, C101: tasks that trade in one directory. *)
From Coq Require Import String.
From Verif Require Import PyBase PyStr MTime MOrder MAccount MGate MBalance MCsv MFolio MDir SOfile SDir LDir TGate TOfile.
Open Scope list_scope.
Open Scope Z_scope.

(** What a task is told and what it ends up with depends on its own calls and the broker's
    files only: leave out the calls of all other tasks and put anything into the order and
    cancel files, and it gets the same ids, the same account after every call and the same
    gate and save files, whatever the disk does. *)
Theorem C100_alone :
  forall ptime f3 f4 opts (F : Type) (pnum pyfloat : str -> option F) trunc round4 round3 minus k xs s s',
    s_task s k = s_task s' k ->
    d_results (s_dir s) = d_results (s_dir s') -> d_updates (s_dir s) = d_updates (s_dir s') ->
    d_assets (s_dir s) = d_assets (s_dir s') -> d_positions (s_dir s) = d_positions (s_dir s') ->
    let run := d_run ptime f3 f4 opts pnum pyfloat trunc round4 round3 minus in
    told k (fst (run xs s)) = told k (fst (run (alone k xs) s')) /\
    s_task (snd (run xs s)) k = s_task (snd (run (alone k xs) s')) k.
Proof.
  intros ptime f3 f4 opts F pnum pyfloat trunc round4 round3 minus k xs s s' H1 H2 H3 H4 H5 run.
  destruct (run_alone ptime f3 f4 opts pnum pyfloat trunc round4 round3 minus k xs s s') as [A [B _]]; [split; [exact H1|repeat split; assumption]|].
  split; assumption.
Qed.
Print Assumptions C100_alone.

(** A task that is started again has an empty account, and of the orders those saved under
    its own name for the day, whatever the other tasks did; the shared files stay as they
    are. *)
Theorem C100_restart :
  forall ptime f3 f4 opts (F : Type) (pnum pyfloat : str -> option F) trunc round4 round3 minus k e ok s out s',
    d_step ptime f3 f4 opts pnum pyfloat trunc round4 round3 minus (DTask k e (TStart ok)) s = (out, s') ->
    exists a, out = [(k, (None, a))] /\ t_acct (s_task s' k) = a /\
      a_orders a = [] /\ a_long a = [] /\ a_short a = [] /\ (a_total a, a_cash a, a_locked a) = (0, 0, 0) /\
      t_orders (s_task s' k) = (if ok then match dget (ge_date e) (t_data (s_task s k)) with Some m => m | None => [] end else []) /\
      t_data (s_task s' k) = t_data (s_task s k) /\ (t_uoff (s_task s' k), t_roff (s_task s' k)) = (0, 0)%nat /\
      s_dir s' = s_dir s /\ forall j, j <> k -> s_task s' j = s_task s j.
Proof.
  intros ptime f3 f4 opts F pnum pyfloat trunc round4 round3 minus k e ok s out s' H. cbn [d_step do_call] in H.
  injection H as <- <-. eexists. split; [reflexivity|]. cbn [s_task s_dir]. rewrite Nat.eqb_refl.
  unfold task_of, dir_of, gate_of, with_gate, gate_setup, data_of. cbn. repeat split.
  - destruct (s_dir s). reflexivity.
  - intros j Hj. apply Nat.eqb_neq in Hj. rewrite Hj. reflexivity.
Qed.
Print Assumptions C100_restart.

(** The claim for the files: what a task writes on its own it also writes beside others: every
    line of its own order file is a line of the shared one, if its own writes are whole. *)
Definition own_lines_kept (all : bool) : Prop :=
  forall ptime f3 f4 opts (F : Type) (pnum pyfloat : str -> option F) trunc round4 round3 minus k xs s d l,
    (forall j, go_eol (opts j) = eol_posix) -> s_dir s = bare (s_dir s) ->
    Forall whole_writes (if all then xs else alone k xs) ->
    let run := d_run ptime f3 f4 opts pnum pyfloat trunc round4 round3 minus in
    In l (lines_of (text_of d (d_orders (s_dir (snd (run (alone k xs) s)))))) ->
    In l (lines_of (text_of d (d_orders (s_dir (snd (run xs s)))))).

(** two tasks *)
Definition two_sys : sys := Sys (Dir [] [] [] [] [] []) (fun _ => Task acct_new [] 0 0 19000 []).
Definition two_opts (k : nat) : gopts := GOpts (match k with O => lit "8888" | _ => lit "9999" end) true (lit "UM0") (lit "DMA") true eol_posix.
Definition two_run := @d_run demo_ptime demo_f3 demo_f4 two_opts Z py_int py_int Some (fun z => z) (fun z => z) Z.sub.
Definition buy (k : nat) (id : string) (n : Z) (w : wout) : dstep :=
  DTask k (env_with w (Ok tt)) (TOrder (lit id) (19000 * DAY + 34200 * US) (lit "600000.XSHG") n (Limit (PNum (lit "10.5"))) Long).

(** False: task 0 is cut off within its line, and the order task 1 places next - its own disk
    is fine, its id is returned - has no line of its own. *)
Theorem C101_torn_refuted : ~ own_lines_kept false.
Proof.
  intros Hc.
  pose proof (Hc demo_ptime demo_f3 demo_f4 two_opts Z py_int py_int Some (fun z => z) (fun z => z) Z.sub 1%nat
    [buy 0 "1" 100 (WTorn 140 OSError); buy 1 "2" 200 WDone] two_sys 19000
    (nl "093000.000000,2,UM0,9999,600000.SH,1,200,DMA,AT,0,10.5,10.5") ltac:(intros [|j]; reflexivity) eq_refl) as H. cbv zeta in H.
  assert (E1 : lines_of (text_of 19000 (d_orders (s_dir (snd (two_run (alone 1 [buy 0 "1" 100 (WTorn 140 OSError); buy 1 "2" 200 WDone]) two_sys))))) =
    [order_header ++ [NL]; nl "093000.000000,2,UM0,9999,600000.SH,1,200,DMA,AT,0,10.5,10.5"]) by (vm_compute; reflexivity).
  assert (E2 : lines_of (text_of 19000 (d_orders (s_dir (snd (two_run [buy 0 "1" 100 (WTorn 140 OSError); buy 1 "2" 200 WDone] two_sys))))) =
    [order_header ++ [NL]; nl "093000.000000,1,UM0,8888,60093000.000000,2,UM0,9999,600000.SH,1,200,DMA,AT,0,10.5,10.5"]) by (vm_compute; reflexivity).
  unfold two_run in E1, E2. rewrite E1, E2 in H.
  assert (W : Forall whole_writes (alone 1 [buy 0 "1" 100 (WTorn 140 OSError); buy 1 "2" 200 WDone])).
  { cbn. constructor; [|constructor]. intros (n & x & X). discriminate. }
  specialize (H W (or_intror (or_introl eq_refl))). destruct H as [H|[H|[]]]; vm_compute in H; discriminate.
Qed.
Print Assumptions C101_torn_refuted.

(** What holds when no write stops half way (a disk that refuses a write whole, or a save that
    fails, does not matter): the order file and the cancel file of a date are merges of what
    the tasks would write on their own - one header, and the lines of each task in its order. *)
Theorem C101_files_partial :
  forall ptime f3 f4 opts (F : Type) (pnum pyfloat : str -> option F) trunc round4 round3 minus eol xs s,
    eol <> [] -> (forall k, go_eol (opts k) = eol) -> s_dir s = bare (s_dir s) -> Forall whole_writes xs ->
    let run := d_run ptime f3 f4 opts pnum pyfloat trunc round4 round3 minus in
    forall d,
      merge order_header eol (fun k => text_of d (d_orders (s_dir (snd (run (alone k xs) s))))) (text_of d (d_orders (s_dir (snd (run xs s))))) /\
      merge cancel_header eol (fun k => text_of d (d_cancels (s_dir (snd (run (alone k xs) s))))) (text_of d (d_cancels (s_dir (snd (run xs s))))).
Proof.
  intros ptime f3 f4 opts F pnum pyfloat trunc round4 round3 minus eol xs s He Ho Hb W run d.
  assert (M : forall header (file : dir -> dict Z str), file (s_dir s) = [] -> merged eol header file s (fun _ => s)).
  { intros header file E d'. exists []. split; [constructor|]. rewrite E. split; [|intros k]; reflexivity. }
  destruct (run_files ptime f3 f4 opts pnum pyfloat trunc round4 round3 minus eol Ho He xs s (fun _ => s) W) as [A B].
  - intros k. split; [reflexivity|repeat split].
  - apply M. rewrite Hb. reflexivity.
  - apply M. rewrite Hb. reflexivity.
  - split; [apply A|apply B].
Qed.
Print Assumptions C101_files_partial.

(** So every line a task writes on its own is a line of the shared file. *)
Lemma lines_nl r t : lines_of ((r ++ [NL]) ++ t) = lines_of (r ++ [NL]) ++ lines_of t.
Proof.
  induction r as [|c r IH]; cbn [app lines_of].
  - rewrite N.eqb_refl. reflexivity.
  - destruct (N.eqb c NL); [rewrite IH; reflexivity|]. rewrite IH.
    destruct (lines_of (r ++ [NL])) as [|l ls] eqn:E; [|reflexivity].
    exfalso. destruct r as [|x r]; cbn [app lines_of] in E; [rewrite N.eqb_refl in E; discriminate|].
    destruct (N.eqb x NL); [discriminate|]. destruct (lines_of (r ++ [NL])); discriminate.
Qed.
Lemma lines_concat ls : Forall (fun l => exists row, l = row ++ [NL]) ls -> lines_of (concat ls) = flat_map lines_of ls.
Proof.
  induction ls as [|l ls IH]; intros W; [reflexivity|]. destruct (Forall_inv W) as (row & ->). cbn [concat flat_map].
  rewrite lines_nl, IH by exact (Forall_inv_tail W). reflexivity.
Qed.
Lemma lines_holds header ls t : Forall (fun l => exists row, l = row ++ [NL]) ls -> holds header [NL] ls t ->
  lines_of t = match ls with [] => [] | _ => lines_of (header ++ [NL]) ++ flat_map lines_of ls end.
Proof.
  intros W H. unfold holds in H. subst t. destruct ls as [|l ls]; [reflexivity|].
  rewrite app_assoc, lines_nl, lines_concat by exact W. reflexivity.
Qed.
Theorem C101_lines : own_lines_kept true.
Proof.
  intros ptime f3 f4 opts F pnum pyfloat trunc round4 round3 minus k xs s d l Ho Hb W run Hl.
  destruct (C101_files_partial ptime f3 f4 opts F pnum pyfloat trunc round4 round3 minus eol_posix xs s ltac:(discriminate) Ho Hb W d) as [(ls & FL & H1 & H2) _].
  specialize (H2 k). cbv beta in H2. change eol_posix with [NL] in *.
  assert (F1 : Forall (fun l => exists row, l = row ++ [NL]) (map snd ls)) by (apply Forall_map; exact FL).
  assert (F2 : Forall (fun l => exists row, l = row ++ [NL]) (told k ls)).
  { apply Forall_map. apply Forall_forall. intros x Hx. apply filter_In in Hx as [Hx _]. rewrite Forall_forall in FL. exact (FL x Hx). }
  pose proof (lines_holds _ _ _ F2 H2) as E2. pose proof (lines_holds _ _ _ F1 H1) as E1. fold run in E1, E2, H1, H2. rewrite E2 in Hl. rewrite E1.
  assert (S : forall x, In x (told k ls) -> In x (map snd ls)).
  { intros x Hx. apply in_map_iff in Hx as (y & <- & Hy). apply filter_In in Hy as [Hy _]. apply in_map. exact Hy. }
  destruct (told k ls) as [|t0 tr] eqn:Et; [destruct Hl|].
  assert (G : In l (lines_of (order_header ++ [NL]) ++ flat_map lines_of (map snd ls))).
  { apply in_app_iff. apply in_app_iff in Hl as [Hl|Hl]; [left; exact Hl|right]. apply in_flat_map in Hl as (x & Hx & Hl). apply in_flat_map. exists x. split; [apply S; exact Hx|exact Hl]. }
  destruct (map snd ls) as [|m0 mr]; [exfalso; exact (S t0 (or_introl eq_refl))|exact G].
Qed.
Print Assumptions C101_lines.

(** Two tasks, one day: task 0 and task 1 place orders in turn, task 0 cancels one of its own,
    task 1's second order meets a full disk, and task 1 tries to cancel an order it does not know. *)
Definition two_day : list dstep :=
  [buy 0 "1" 100 WDone; buy 1 "2" 200 WDone; DTask 0 demo_env (TCancel (lit "1")); DTask 1 demo_env (TCancel (lit "1"));
   buy 1 "3" 300 (WFail OSError); buy 0 "4" 400 WDone].
Example C100_demo :
  Forall whole_writes two_day /\ s_dir two_sys = bare (s_dir two_sys) /\ (forall k, go_eol (two_opts k) = eol_posix) /\
  text_of 19000 (d_orders (s_dir (snd (two_run two_day two_sys)))) = order_header ++ [NL] ++
    nl "093000.000000,1,UM0,8888,600000.SH,1,100,DMA,AT,0,10.5,10.5" ++ nl "093000.000000,2,UM0,9999,600000.SH,1,200,DMA,AT,0,10.5,10.5" ++
    nl "093000.000000,4,UM0,8888,600000.SH,1,400,DMA,AT,0,10.5,10.5" /\
  text_of 19000 (d_cancels (s_dir (snd (two_run two_day two_sys)))) = cancel_header ++ [NL] ++ nl "093000.000000,1" /\
  map fst (told 0 (fst (two_run two_day two_sys))) = [Some (lit "1"); None; Some (lit "4")] /\
  map fst (told 1 (fst (two_run two_day two_sys))) = [Some (lit "2"); None; None] /\
  dkeys (t_orders (s_task (snd (two_run two_day two_sys)) 1)) = [lit "2"].
Proof.
  split; [repeat (constructor; [first [exact I|intros (n & x & X); discriminate]|]); constructor|].
  split; [reflexivity|]. split; [intros [|k]; reflexivity|]. repeat split; vm_compute; reflexivity.
Qed.
(** ... then task 0 is started again: its account is empty, its orders are loaded *)
Example C100_restart_demo :
  let s' := snd (two_run (two_day ++ [DTask 0 demo_env (TStart true)]) two_sys) in
  dkeys (a_orders (t_acct (s_task (snd (two_run two_day two_sys)) 0))) = [lit "1"; lit "4"] /\
  a_orders (t_acct (s_task s' 0)) = [] /\ dkeys (t_orders (s_task s' 0)) = [lit "1"; lit "4"] /\
  dkeys (t_orders (s_task s' 1)) = [lit "2"].
Proof. repeat split; vm_compute; reflexivity. Qed.
