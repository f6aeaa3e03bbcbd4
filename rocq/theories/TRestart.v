(** C87: the calls of a run_daily entry over restarts of the task. *)
From Coq Require Import Permutation Sorted String.
From Verif Require Import PyBase PyStr MTime MTimeExpr MEventSource MQueue MLoop MSched MBus MStrategy SEvent SExpr SStrategy
  LSched2 LSched3 LEventSource2 MProcess SProcess LProcess TProcess SRestart LRestart.
Open Scope list_scope.
Open Scope Z_scope.

(** ** one process after another *)

(** What an earlier process called lies before what a later one calls, whatever the two
    strategies are: the later one starts after the last clock the earlier one read. *)
Theorem C87_later_is_later_partial :
  forall fuel cfg sc tz st now calls ns dates s4 s ps st' now' calls' ns' dates' s4' s',
    runs fuel cfg sc tz st None now calls ns dates s4 s ->
    runs fuel cfg sc tz st' None now' calls' ns' dates' s4' s' ->
    cf_hist cfg = false ->
    market_period sc s4 = raw_of ps -> Forall (fun p => tod_ok (fst p) /\ tod_ok (snd p)) ps ->
    Forall (fun p => fst p mod US = 0 /\ snd p mod US = 0) ps -> ps <> [] ->
    (1441 <= fuel)%nat -> (Z.to_nat (cf_count cfg) < fuel)%nat -> tz mod US = 0 ->
    forall k n id t offs k' n' id' t' x o x' o',
      nth_error (asked calls) k = Some (n, id, t) -> owes ps t offs ->
      nth_error (asked calls') k' = Some (n', id', t') ->
      Forall (fun mc => snd mc * 1000 + tz < now' k') (l_log s) ->
      In (x, o) (calls_of k (invoked s4 (l_w s))) -> In (x', o') (calls_of k' (invoked s4' (l_w s'))) -> x < x'.
Proof.
  intros fuel cfg sc tz st now calls ns dates s4 s ps st' now' calls' ns' dates' s4' s' Hr Hr' Hh Hmp Hps Hw Hne Hf1 Hf2 Htz
    k n id t offs k' n' id' t' x o x' o' Hk Ho Hk' Hlog Hx Hx'.
  destruct (process_not_early fuel cfg sc tz st now calls ns dates s4 s ps Hr Hh Hmp Hps Hw Hne Hf1 Hf2 Htz k n id t offs x o Hk Ho Hx) as (m & c & Hc & Hle).
  pose proof (process_since fuel cfg sc tz st' now' calls' ns' dates' s4' s' Hr' Hh Hf1 Hf2 k' n' id' t' x' o' Hk' Hx') as H.
  rewrite Forall_forall in Hlog. specialize (Hlog _ Hc). cbn [snd] in Hlog. lia.
Qed.
Print Assumptions C87_later_is_later_partial.

(** ** any number of processes *)

(** a process of the task, in the state [lf_s] in which it goes to sleep at the clock
    reading [lf_clock] and is stopped *)
Record life := Life { lf_st : Z; lf_now : nat -> Z; lf_dates : list Z; lf_s4 : strat; lf_s : lstate scb sworld; lf_clock : Z }.
Definition called (k : nat) (L : life) : list Z := map fst (calls_of k (invoked (lf_s4 L) (l_w (lf_s L)))).
(** start-up does not cross midnight; clock readings do not go back; the last window of
    days generated at start-up has not run out *)
Definition lived fuel cfg sc tz ps calls ns (k : nat) (n : str) (id : nat) (L : life) : Prop :=
  runs fuel cfg sc tz (lf_st L) None (lf_now L) calls ns (lf_dates L) (lf_s4 L) (lf_s L) /\
  market_period sc (lf_s4 L) = raw_of ps /\ w_hung (l_w (lf_s L)) = false /\
  (exists ex s' m, l_step (sched_handler fuel (loop_cfg cfg sc (lf_s4 L)) tz) (lf_s L) (LTurn (lf_clock L) ex) = Some s' /\ l_mode s' = Arming m) /\
  Forall (fun mc => snd mc <= lf_clock L) (l_log (lf_s L)) /\
  dget n (st_ns (lf_s4 L)) = Some (OUser id) /\
  nth_error (lf_dates L) (List.length (st_srcs (lf_s4 L)) - List.length (asked calls) + k) = Some (dt_date (lf_now L k)) /\
  lf_clock L * 1000 + tz < (dt_date (lf_now L k) + cf_count cfg - 1) * DAY.
Definition span (tz : Z) (k : nat) (L : life) : Z * Z := (lf_now L k, lf_clock L * 1000 + tz).

(** Over all processes of the task, an entry's function is called for exactly the instants
    at which a process was up, once each, in order. *)
Theorem C87_exactly_while_up_partial :
  forall fuel cfg sc tz ps calls ns k n id t offs,
    cf_hist cfg = false -> Forall (fun p => tod_ok (fst p) /\ tod_ok (snd p)) ps ->
    Forall (fun p => fst p mod US = 0 /\ snd p mod US = 0) ps -> ps <> [] ->
    (1441 <= fuel)%nat -> (Z.to_nat (cf_count cfg) < fuel)%nat -> 1 < cf_count cfg -> tz mod US = 0 ->
    nth_error (asked calls) k = Some (n, id, t) -> owes ps t offs -> offs <> [] -> Forall (fun o => 0 <= o < DAY) offs ->
    forall lives, Forall (lived fuel cfg sc tz ps calls ns k n id) lives -> in_turn (map (span tz k) lives) ->
      (forall x, In x (concat (map (called k) lives)) <-> due offs x /\ up (map (span tz k) lives) x) /\
      StronglySorted Z.le (concat (map (called k) lives)) /\
      (NoDup offs -> NoDup (concat (map (called k) lives))).
Proof.
  intros fuel cfg sc tz ps calls ns k n id t offs Hh Hps Hw Hne Hf1 Hf2 Hcnt Htz Hk Ho Hoff Hday lives HL.
  assert (Hone : forall L, lived fuel cfg sc tz ps calls ns k n id L -> exists S,
    owed_on (lf_now L k) offs (dt_date (lf_now L k)) (dt_date (lf_now L k) + cf_count cfg - 1) S /\ called k L = filter (fun y => y <=? lf_clock L * 1000 + tz) S).
  { intros L (Hr & Hmp & Hhu & (ex & s' & m & Hst & Hm) & Hlog & Hn & Hd & Hend).
    destruct (owed_exists (lf_now L k) offs (dt_date (lf_now L k)) (cf_count cfg)) as (S & HS). exists S. split; [exact HS|].
    unfold called. refine (process_life fuel cfg sc tz (lf_st L) (lf_now L) calls ns (lf_dates L) (lf_s4 L) (lf_s L) ps Hr Hh Hmp Hps Hw Hne Hf1 Hf2 Htz
      (lf_clock L) ex s' m k n id t offs (dt_date (lf_now L k)) S Hhu Hst Hm Hlog Hk Ho Hn Hd HS _).
    destruct offs as [|o offs]; [contradiction|]. inversion Hday as [|? ? Ho' _]; subst.
    exists ((dt_date (lf_now L k) + cf_count cfg - 1) * DAY + o). split; [|lia].
    apply (owed_in _ _ _ _ _ HS). unfold dt_date in *.
    assert (E : lf_now L k < (lf_now L k / DAY + 1) * DAY) by (pose proof (Z.mul_succ_div_gt (lf_now L k) DAY ltac:(reflexivity)); lia).
    split; [unfold DAY, US in *; nia|exists (lf_now L k / DAY + cf_count cfg - 1), o; split; [lia|split; [left; reflexivity|reflexivity]]]. }
  pose proof (owes_span ps t offs Hps Ho) as Hspan.
  assert (Hin1 : forall L, lived fuel cfg sc tz ps calls ns k n id L -> forall x, In x (called k L) <-> due offs x /\ lf_now L k <= x <= lf_clock L * 1000 + tz).
  { intros L H x. destruct (Hone L H) as (S & HS & ->). destruct H as (_ & _ & _ & _ & _ & _ & _ & Hend). rewrite filter_In, (owed_in _ _ _ _ _ HS). split.
    - intros ((H1 & d & o & _ & H2 & H3) & H4). split; [exists d, o; auto|lia].
    - intros ((d & o & H2 & H3) & H1 & H4). split; [|lia]. split; [exact H1|]. exists d, o. split; [|auto].
      rewrite Forall_forall in Hday. specialize (Hday o H2). unfold dt_date in *.
      pose proof (Z.mul_div_le (lf_now L k) DAY ltac:(reflexivity)). unfold DAY, US in *. lia. }
  assert (Hso : forall L, lived fuel cfg sc tz ps calls ns k n id L -> StronglySorted Z.le (called k L) /\ (NoDup offs -> NoDup (called k L))).
  { intros L H. destruct (Hone L H) as (S & HS & ->). pose proof (owed_sorted _ _ _ _ S Hspan HS) as Hs. split.
    - destruct (sorted_filter_prefix (fun y => y <=? lf_clock L * 1000 + tz) S ltac:(cbv beta; intros; lia) Hs) as (r & Er). rewrite Er in Hs. apply StronglySorted_app_l in Hs. exact Hs.
    - intros Hnd. apply NoDup_filter. exact (owed_nodup _ _ _ _ S Hspan Hnd HS). }
  clear Hone. induction HL as [|L lives HL HLs IH]; intros Ht; cbn [map concat].
  { split; [|split; [constructor|intros; constructor]]. intros x. split; [intros []|]. intros (_ & a & b & [] & _). }
  inversion Ht as [|? ? Ht' Hlt]; subst. destruct (IH Ht') as (I1 & I2 & I3). clear IH.
  assert (Hcross : forall x y, In x (called k L) -> In y (concat (map (called k) lives)) -> x < y).
  { intros x y Hx Hy. apply (Hin1 L HL) in Hx. apply I1 in Hy. destruct Hx as (_ & Hx), Hy as (_ & a & b & Hab & Hy).
    rewrite Forall_forall in Hlt. specialize (Hlt _ Hab). cbn [span fst snd] in Hlt. lia. }
  split; [|split].
  - intros x. rewrite in_app_iff, I1, (Hin1 L HL). unfold up. cbn [In span]. split.
    + intros [[H1 H2]|[H1 (a & b & H2 & H3)]]; (split; [exact H1|]); [exists (lf_now L k), (lf_clock L * 1000 + tz)|exists a, b]; auto.
    + intros [H1 (a & b & [E|H2] & H3)]; [injection E as <- <-; left; auto|right; eauto].
  - destruct (Hso L HL) as [Hs _]. apply StronglySorted_app_intro; [exact Hs|exact I2|]. intros x y Hx Hy. specialize (Hcross x y Hx Hy). lia.
  - intros Hnd. destruct (Hso L HL) as [_ Hn]. specialize (Hn Hnd). specialize (I3 Hnd). revert Hn Hcross. generalize (called k L). clear - I3.
    intros l. induction l as [|a l IH]; intros Hn Hc; [exact I3|]. inversion Hn; subst. cbn [app]. constructor.
    + rewrite in_app_iff. intros [H|H]; [contradiction|]. specialize (Hc a a (or_introl eq_refl) H). lia.
    + apply IH; [assumption|]. intros x y Hx. apply Hc. right; exact Hx.
Qed.
Print Assumptions C87_exactly_while_up_partial.

(** ** what the restarts of a task should not change, and do *)

Definition no_instant_lost : Prop :=
  forall fuel cfg sc tz ps calls ns k n id t offs,
    cf_hist cfg = false -> Forall (fun p => tod_ok (fst p) /\ tod_ok (snd p)) ps ->
    Forall (fun p => fst p mod US = 0 /\ snd p mod US = 0) ps -> ps <> [] ->
    (1441 <= fuel)%nat -> (Z.to_nat (cf_count cfg) < fuel)%nat -> 1 < cf_count cfg -> tz mod US = 0 ->
    nth_error (asked calls) k = Some (n, id, t) -> owes ps t offs -> offs <> [] -> Forall (fun o => 0 <= o < DAY) offs ->
    forall L1 L2, Forall (lived fuel cfg sc tz ps calls ns k n id) [L1; L2] -> in_turn (map (span tz k) [L1; L2]) ->
      forall x, due offs x -> lf_now L1 k <= x <= lf_clock L2 * 1000 + tz -> In x (called k L1 ++ called k L2).

(** ... and without the clock readings in order *)
Definition once_whatever_the_clock : Prop :=
  forall fuel cfg sc tz ps calls ns k n id t offs,
    cf_hist cfg = false -> Forall (fun p => tod_ok (fst p) /\ tod_ok (snd p)) ps ->
    Forall (fun p => fst p mod US = 0 /\ snd p mod US = 0) ps -> ps <> [] ->
    (1441 <= fuel)%nat -> (Z.to_nat (cf_count cfg) < fuel)%nat -> 1 < cf_count cfg -> tz mod US = 0 ->
    nth_error (asked calls) k = Some (n, id, t) -> owes ps t offs -> offs <> [] -> Forall (fun o => 0 <= o < DAY) offs ->
    forall L1 L2, Forall (lived fuel cfg sc tz ps calls ns k n id) [L1; L2] ->
      NoDup offs -> NoDup (called k L1 ++ called k L2).

(** *** processes of the task of C58_demo; the third entry is due at 9:31 *)
Definition life_start (nw : Z) := start 1500 cfg_default scfg_default demo_tz 0 None (fun _ => nw) demo_calls demo_ns [20000; 20000; 20000].
Definition life_state (nw : Z) (ls : list (label scb sout)) : option (strat * lstate scb sworld) :=
  match life_start nw with
  | Some (s4, s0) => option_map (fun s => (s4, s)) (l_exec (sched_handler 1500 (loop_cfg cfg_default scfg_default s4) demo_tz) s0 ls)
  | None => None
  end.
Definition sleeps_at (clk : Z) (s4 : strat) (s : lstate scb sworld) : bool :=
  match l_step (sched_handler 1500 (loop_cfg cfg_default scfg_default s4) demo_tz) s (LTurn clk false) with
  | Some s' => match l_mode s' with Arming _ => true | _ => false end
  | None => false
  end.
Definition life_facts (nw : Z) (ls : list (label scb sout)) (clk : Z) :=
  option_map (fun x => let '(s4, s) := x in
    (List.length (st_srcs s4), market_period scfg_default s4, w_hung (l_w s), sleeps_at clk s4 s,
     forallb (fun mc => snd mc <=? clk) (l_log s), dget (lit "h") (st_ns s4), map fst (calls_of 2 (invoked s4 (l_w s))))) (life_state nw ls).

Lemma life_is_lived nw ls clk xs : Forall ok_label ls ->
  life_facts nw ls clk = Some (3%nat, raw_of demo_ps, false, true, true, Some (OUser 3), xs) ->
  dt_date nw = 20000 -> clk * 1000 + demo_tz < (dt_date nw + cf_count cfg_default - 1) * DAY ->
  exists L, lived 1500 cfg_default scfg_default demo_tz demo_ps demo_calls demo_ns 2 (lit "h") 3 L /\
    called 2 L = xs /\ lf_now L = (fun _ => nw) /\ lf_clock L = clk.
Proof.
  intros Hok Hf Hd Hend. unfold life_facts, life_state in Hf. destruct (life_start nw) as [[s4 s0]|] eqn:E0; [|discriminate Hf].
  destruct (l_exec (sched_handler 1500 (loop_cfg cfg_default scfg_default s4) demo_tz) s0 ls) as [s|] eqn:E1; [|discriminate Hf].
  cbn [option_map] in Hf.
  assert (G : forall A1 A2 A3 A4 A5 A6 A7 (a1 b1 : A1) (a2 b2 : A2) (a3 b3 : A3) (a4 b4 : A4) (a5 b5 : A5) (a6 b6 : A6) (a7 b7 : A7),
    Some (a1, a2, a3, a4, a5, a6, a7) = Some (b1, b2, b3, b4, b5, b6, b7) -> a1 = b1 /\ a2 = b2 /\ a3 = b3 /\ a4 = b4 /\ a5 = b5 /\ a6 = b6 /\ a7 = b7)
    by (intros; match goal with H : Some _ = Some _ |- _ => injection H; intuition congruence end).
  apply G in Hf as (F1 & F2 & F3 & F4 & F5 & F6 & F7).
  exists (Life 0 (fun _ => nw) [20000; 20000; 20000] s4 s clk). split; [|split; [exact F7|split; reflexivity]].
  unfold lived. cbn [lf_st lf_now lf_dates lf_s4 lf_s lf_clock].
  split; [exists s0, ls; split; [exact E0|split; [rewrite F1; reflexivity|split; [exact Hok|exact E1]]]|].
  split; [exact F2|]. split; [exact F3|]. split.
  { unfold sleeps_at in F4. destruct (l_step (sched_handler 1500 (loop_cfg cfg_default scfg_default s4) demo_tz) s (LTurn clk false)) as [s'|] eqn:Es; [|discriminate F4].
    destruct (l_mode s') as [| |m|m|r] eqn:Em; try discriminate F4. exists false, s', m. auto. }
  split; [apply Forall_forall; intros mc Hmc; rewrite forallb_forall in F5; specialize (F5 _ Hmc); cbv beta in F5; lia|].
  split; [exact F6|]. split; [rewrite F1, Hd; reflexivity|exact Hend].
Qed.

Definition wake := [LAsync : label scb sout].
Definition two_runs (sec : Z) : list (label scb sout) := [LAsync; LTurn (demo_ms sec) false; demo_done; LTurn (demo_ms sec) false; demo_done].
(** up 9:29:30-9:30:00, 9:30:30-9:31:00 and 9:31:30-9:31:30 *)
Definition at_sec (sec : Z) : Z := 20000 * DAY + sec * US.
Lemma life_a : life_facts (at_sec 34170) (two_runs 34200) (demo_ms 34200) = Some (3%nat, raw_of demo_ps, false, true, true, Some (OUser 3), []).
Proof. vm_compute. reflexivity. Qed.
Lemma life_b : life_facts (at_sec 34230) (two_runs 34260) (demo_ms 34260) = Some (3%nat, raw_of demo_ps, false, true, true, Some (OUser 3), [at_sec 34260]).
Proof. vm_compute. reflexivity. Qed.
Lemma life_c : life_facts (at_sec 34290) wake (demo_ms 34290) = Some (3%nat, raw_of demo_ps, false, true, true, Some (OUser 3), []).
Proof. vm_compute. reflexivity. Qed.

Lemma demo_hyps : cf_hist cfg_default = false /\ Forall (fun p => tod_ok (fst p) /\ tod_ok (snd p)) demo_ps /\
  Forall (fun p => fst p mod US = 0 /\ snd p mod US = 0) demo_ps /\ demo_ps <> [] /\ (1441 <= 1500)%nat /\
  (Z.to_nat (cf_count cfg_default) < 1500)%nat /\ 1 < cf_count cfg_default /\ demo_tz mod US = 0 /\
  nth_error (asked demo_calls) 2 = Some (lit "h", 3%nat, lit "9:31") /\ owes demo_ps (lit "9:31") [34260 * US] /\
  [34260 * US] <> [] /\ Forall (fun o => 0 <= o < DAY) [34260 * US].
Proof.
  split; [reflexivity|]. split; [repeat constructor; discriminate|]. split; [repeat constructor|]. split; [discriminate|].
  split; [apply Nat.leb_le; reflexivity|]. split; [apply Nat.ltb_lt; reflexivity|]. split; [reflexivity|]. split; [reflexivity|].
  split; [reflexivity|]. split; [apply C58_demo_owes|]. split; [discriminate|]. repeat constructor; discriminate.
Qed.

Lemma lives_of : exists A B C,
  Forall (lived 1500 cfg_default scfg_default demo_tz demo_ps demo_calls demo_ns 2 (lit "h") 3) [A; B; C] /\
  called 2 A = [] /\ called 2 B = [at_sec 34260] /\ called 2 C = [] /\
  map (span demo_tz 2) [A; B; C] = [(at_sec 34170, at_sec 34200); (at_sec 34230, at_sec 34260); (at_sec 34290, at_sec 34290)].
Proof.
  destruct (life_is_lived (at_sec 34170) (two_runs 34200) (demo_ms 34200) [] ltac:(repeat constructor) life_a eq_refl ltac:(reflexivity)) as (A & A1 & A2 & A3 & A4).
  destruct (life_is_lived (at_sec 34230) (two_runs 34260) (demo_ms 34260) [at_sec 34260] ltac:(repeat constructor) life_b eq_refl ltac:(reflexivity)) as (B & B1 & B2 & B3 & B4).
  destruct (life_is_lived (at_sec 34290) wake (demo_ms 34290) [] ltac:(repeat constructor) life_c eq_refl ltac:(reflexivity)) as (C & C1 & C2 & C3 & C4).
  exists A, B, C. split; [apply Forall_cons; [exact A1|apply Forall_cons; [exact B1|apply Forall_cons; [exact C1|apply Forall_nil]]]|].
  split; [exact A2|]. split; [exact B2|]. split; [exact C2|]. unfold span. cbn [map]. rewrite A3, A4, B3, B4, C3, C4. reflexivity.
Qed.

(** Three processes in turn: the 9:31 call is made once, by the one that was up. *)
Example C87_demo : exists lives, List.length lives = 3%nat /\
  Forall (lived 1500 cfg_default scfg_default demo_tz demo_ps demo_calls demo_ns 2 (lit "h") 3) lives /\
  in_turn (map (span demo_tz 2) lives) /\ concat (map (called 2) lives) = [at_sec 34260].
Proof.
  destruct lives_of as (A & B & C & HL & EA & EB & EC & Es). exists [A; B; C]. split; [reflexivity|]. split; [exact HL|]. split.
  - rewrite Es. unfold in_turn. repeat constructor.
  - cbn [map concat]. rewrite EA, EB, EC. reflexivity.
Qed.
(** Down at 9:31 the call is made by neither process. *)
Theorem C87_no_instant_lost_refuted : ~ no_instant_lost.
Proof.
  intros H. destruct lives_of as (A & B & C & HL & EA & _ & EC & Es). destruct demo_hyps as (h1 & h2 & h3 & h4 & h5 & h6 & h7 & h8 & h9 & h10 & h11 & h12).
  inversion HL as [|? ? HA HL1]; subst. inversion HL1 as [|? ? _ HL2]; subst. inversion HL2 as [|? ? HC _]; subst.
  unfold span in Es. cbn [map] in Es. injection Es as A1 A2 _ _ C1 C2.
  specialize (H 1500%nat cfg_default scfg_default demo_tz demo_ps demo_calls demo_ns 2%nat (lit "h") 3%nat (lit "9:31") [34260 * US] h1 h2 h3 h4 h5 h6 h7 h8 h9 h10 h11 h12 A C).
  assert (G : In (at_sec 34260) (called 2 A ++ called 2 C)).
  { apply H.
    - apply Forall_cons; [exact HA|apply Forall_cons; [exact HC|apply Forall_nil]].
    - unfold in_turn, span. cbn [map]. rewrite A2, C1. constructor; [constructor; constructor|]. constructor; [cbn [fst snd]; reflexivity|constructor].
    - exists 20000, (34260 * US). split; [left; reflexivity|reflexivity].
    - rewrite A1, C2. split; unfold at_sec, DAY, US; lia. }
  rewrite EA, EC in G. destruct G.
Qed.
Print Assumptions C87_no_instant_lost_refuted.

(** A process started again after the clock was set back repeats the call. *)
Theorem C87_once_refuted : ~ once_whatever_the_clock.
Proof.
  intros H. destruct lives_of as (A & B & C & HL & _ & EB & _ & _). destruct demo_hyps as (h1 & h2 & h3 & h4 & h5 & h6 & h7 & h8 & h9 & h10 & h11 & h12).
  inversion HL as [|? ? _ HL1]; subst. inversion HL1 as [|? ? HB _]; subst.
  specialize (H 1500%nat cfg_default scfg_default demo_tz demo_ps demo_calls demo_ns 2%nat (lit "h") 3%nat (lit "9:31") [34260 * US] h1 h2 h3 h4 h5 h6 h7 h8 h9 h10 h11 h12 B B).
  rewrite EB in H. cbn [app] in H.
  assert (G : NoDup [at_sec 34260; at_sec 34260]).
  { apply H; [apply Forall_cons; [exact HB|apply Forall_cons; [exact HB|apply Forall_nil]]|]. constructor; [intros []|constructor]. }
  inversion G as [|? ? Hn _]; subst. apply Hn. left; reflexivity.
Qed.
Print Assumptions C87_once_refuted.
