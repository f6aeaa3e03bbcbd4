(** C46, with everything that can be raised. *)
From Coq Require Import String.
From Verif Require Import PyBase PyStr MUtils MRetry.
Open Scope list_scope.
Open Scope Z_scope.

(** ** what is meant *)
Section Meant.
  Context {A W : Type} (on : option (exn -> W -> outcome bool * W)) (sleep : W -> outcome unit * W) (f : W -> outcome A * W).
  (** on_exception is asked about [e]; without one nothing happens and the answer is yes *)
  Definition asked (e : exn) (w : W) (r : outcome bool) (w' : W) : Prop := match on with None => r = Ret true /\ w' = w | Some q => q e w = (r, w') end.
  (** one failed attempt: a call, the question, the wait *)
  Definition attempt (w w' : W) : Prop := exists e w1 w2, f w = (Raise (RExc e), w1) /\ asked e w1 (Ret true) w2 /\ sleep w2 = (Ret tt, w').
  Inductive attempts : nat -> W -> W -> Prop :=
  | at_none w : attempts 0 w w
  | at_more n w w1 w2 : attempt w w1 -> attempts n w1 w2 -> attempts (S n) w w2.
  (** how it ends after n failed attempts *)
  Inductive ends (max : option Z) (n : nat) (w : W) : outcome A -> W -> Prop :=
  | en_value v w' : f w = (Ret v, w') -> ends max n w (Ret v) w'
  | en_base b w' : f w = (Raise (RBase b), w') -> ends max n w (Raise (RBase b)) w'
  | en_no e w1 w' : f w = (Raise (RExc e), w1) -> asked e w1 (Ret false) w' -> ends max n w (Raise (RExc e)) w'
  | en_ask e w1 x w' : f w = (Raise (RExc e), w1) -> asked e w1 (Raise x) w' -> ends max n w (Raise x) w'
  | en_last e w1 m w' : f w = (Raise (RExc e), w1) -> asked e w1 (Ret true) w' -> max = Some m -> m <= Z.of_nat n -> ends max n w (Raise (RExc e)) w'
  | en_sleep e w1 w2 x w' : f w = (Raise (RExc e), w1) -> asked e w1 (Ret true) w2 -> (forall m, max = Some m -> Z.of_nat n < m) -> sleep w2 = (Raise x, w') -> ends max n w (Raise x) w'.

  Lemma asked_eq e w : exists r w', asked e w r w' /\ match on with None => (Ret true, w) | Some q => q e w end = (r, w').
  Proof. unfold asked. destruct on as [q|]; [destruct (q e w) as [r w']; eauto|eauto]. Qed.
  Lemma asked_fun e w r w' : asked e w r w' -> match on with None => (Ret true, w) | Some q => q e w end = (r, w').
  Proof. unfold asked. destruct on; [auto|intros [-> ->]; reflexivity]. Qed.
  Lemma retry_ends : forall fuel max n w r w', retry on sleep f fuel max (Z.of_nat n) w = Some (r, w') ->
    exists k wk, attempts k w wk /\ ends max (n + k) wk r w' /\ (forall m, max = Some m -> k <> O -> Z.of_nat (n + k) <= m).
  Proof.
    induction fuel as [|fuel IH]; intros max n w r w' H; [discriminate H|]. cbn [retry] in H. destruct (f w) as [[v|[e|b]] w1] eqn:E.
    - injection H as <- <-. exists O, w. split; [constructor|]. split; [econstructor; exact E|congruence].
    - destruct (asked_eq e w1) as (q & w2 & Q & Eq). rewrite Eq in H. destruct q as [[|]|x].
      + destruct (match max with Some m => m <=? Z.of_nat n | None => false end) eqn:M.
        * injection H as <- <-. destruct max as [m|]; [|discriminate M]. apply Z.leb_le in M. exists O, w. split; [constructor|]. split; [|congruence].
          eapply en_last; [exact E|exact Q|reflexivity|]. rewrite Nat.add_0_r. exact M.
        * assert (M' : forall m, max = Some m -> Z.of_nat n < m) by (intros m ->; apply Z.leb_gt; exact M).
          destruct (sleep w2) as [[[]|x] w3] eqn:S.
          -- replace (Z.of_nat n + 1) with (Z.of_nat (Datatypes.S n)) in H by lia. destruct (IH _ _ _ _ _ H) as (k & wk & K1 & K2 & K3). exists (Datatypes.S k), wk.
             split; [apply (at_more k w w3 wk); [exists e, w1, w2; split; [exact E|split; [exact Q|exact S]]|exact K1]|]. replace (n + Datatypes.S k)%nat with (Datatypes.S n + k)%nat by lia. split; [exact K2|].
             intros m Em _. destruct k; [specialize (M' m Em); lia|apply K3; [exact Em|discriminate]].
          -- injection H as <- <-. exists O, w. split; [constructor|]. split; [|congruence]. eapply en_sleep; [exact E|exact Q|rewrite Nat.add_0_r; exact M'|exact S].
      + injection H as <- <-. exists O, w. split; [constructor|]. split; [eapply en_no; [exact E|exact Q]|congruence].
      + injection H as <- <-. exists O, w. split; [constructor|]. split; [eapply en_ask; [exact E|exact Q]|congruence].
    - injection H as <- <-. exists O, w. split; [constructor|]. split; [econstructor; exact E|congruence].
  Qed.
  Lemma ends_retry : forall k w wk, attempts k w wk -> forall max n r w', ends max (n + k) wk r w' -> (forall m, max = Some m -> k <> O -> Z.of_nat (n + k) <= m) ->
    forall fuel, (k < fuel)%nat -> retry on sleep f fuel max (Z.of_nat n) w = Some (r, w').
  Proof.
    induction 1 as [w|k w w1 wk (e & x1 & x2 & E & Q & S) At IH]; intros max n r w' N B [|fuel] F; try lia; cbn [retry].
    - rewrite Nat.add_0_r in N. destruct N as [v w' E|b w' E|e w1 w' E Q|e w1 x w' E Q|e w1 m w' E Q -> L|e w1 w2 x w' E Q L S]; rewrite E; try reflexivity; apply asked_fun in Q; rewrite Q; try reflexivity.
      + apply Z.leb_le in L. rewrite L. reflexivity.
      + destruct max as [m|]; [specialize (L m eq_refl); apply Z.leb_gt in L; rewrite L|]; rewrite S; reflexivity.
    - rewrite E. apply asked_fun in Q. rewrite Q. assert (M : match max with Some m => m <=? Z.of_nat n | None => false end = false).
      { destruct max as [m|]; [|reflexivity]. apply Z.leb_gt. specialize (B m eq_refl). lia. }
      rewrite M, S. replace (Z.of_nat n + 1) with (Z.of_nat (Datatypes.S n)) by lia. replace (n + Datatypes.S k)%nat with (Datatypes.S n + k)%nat in * by lia. apply IH; [exact N| |lia].
      intros m Em _. apply B; [exact Em|discriminate].
  Qed.
End Meant.

(** ** C46 *)
(** The retrying function ends exactly so: after some failed attempts, each a call that
    raised an Exception, on_exception agreeing, and a wait, no more than max_attempts of them, with a value, with an error that is
    no Exception (never retried), with an Exception on_exception does not agree to or that is one too many, or
    with what on_exception or the wait raises. *)
Theorem C46_anything : forall A W on sleep (f : W -> outcome A * W) max w r w',
  (exists fuel, retry on sleep f fuel max 0 w = Some (r, w')) <->
  (exists k wk, attempts on sleep f k w wk /\ ends on sleep f max k wk r w' /\ (forall m, max = Some m -> k <> O -> Z.of_nat k <= m)).
Proof.
  intros. split.
  - intros (fuel & H). exact (retry_ends on sleep f fuel max 0 w r w' H).
  - intros (k & wk & K1 & K2 & K3). exists (S k). exact (ends_retry on sleep f k w wk K1 max 0 r w' K2 K3 (S k) (Nat.lt_succ_diag_r k)).
Qed.
Print Assumptions C46_anything.
(** With a max_attempts that is a number it always ends. *)
Theorem C46_ends : forall A W on sleep (f : W -> outcome A * W) m w, exists r, retry on sleep f (S (Z.to_nat m)) (Some m) 0 w = Some r.
Proof.
  intros A W on sleep f m w. assert (G : forall fuel n w, (Z.to_nat (m - n) < fuel)%nat -> exists r, retry on sleep f fuel (Some m) n w = Some r).
  { induction fuel as [|fuel IH]; intros n v H; [lia|]. cbn [retry]. destruct (f v) as [[x|[e|b]] w1]; eauto. destruct (match on with Some q => q e w1 | None => (Ret true, w1) end) as [[[|]|x] w2]; eauto.
    destruct (Z.leb_spec m n); eauto. destruct (sleep w2) as [[]  w3]; eauto. apply IH. lia. }
  apply G. rewrite Z.sub_0_r. lia.
Qed.
Print Assumptions C46_ends.
(** Without such errors this is the retry of the other theorems. *)
Definition plain {A W} (f : W -> res A * W) (w : W) : outcome A * W := match f w with (Ok v, w') => (Ret v, w') | (Err e, w') => (Raise (RExc e), w') end.
Theorem C46_plain : forall A W (p : option (exn -> bool)) sleep (f : W -> res A * W) m w,
  retry (option_map (fun q e w => (Ret (q e), w)) p) (fun w => (Ret tt, sleep w)) (plain f) (S (Z.to_nat m)) (Some m) 0 w =
  Some (match simple_retry p m sleep f w with (Ok v, w') => (Ret v, w') | (Err e, w') => (Raise (RExc e), w') end).
Proof.
  intros A W p sleep f m w. unfold simple_retry. assert (G : forall left n w, 0 <= n -> Z.to_nat (m - n) = left ->
    retry (option_map (fun q e w => (Ret (q e), w)) p) (fun w => (Ret tt, sleep w)) (plain f) (S left) (Some m) n w =
    Some (match retry_loop p sleep f left w with (Ok v, w') => (Ret v, w') | (Err e, w') => (Raise (RExc e), w') end)).
  { induction left as [|left IH]; intros n v Hn Hl; cbn [retry retry_loop]; unfold plain at 1; destruct (f v) as [[x|e] w1]; try reflexivity;
      destruct p as [q|]; cbn [option_map accepts]; try (destruct (q e); [|reflexivity]); destruct (Z.leb_spec m n); try lia; try reflexivity; apply IH; lia. }
  apply G; [lia|]. rewrite Z.sub_0_r. reflexivity.
Qed.
Print Assumptions C46_plain.
(** Ctrl-C in the second call, and a wait of negative length *)
Example C46_anything_demo :
  retry None (fun n : nat => (Ret tt, n)) (fun n => (if Nat.eqb n 1 then Raise (RBase 0) else Raise (RExc ValueError) : outcome nat, S n)) 9 (Some 3) 0 O = Some (Raise (RBase 0), 2%nat) /\
  retry None (fun n : nat => (Raise (RExc TypeError), n)) (fun n => (Raise (RExc ValueError) : outcome nat, S n)) 9 None 0 O = Some (Raise (RExc TypeError), 1%nat) /\
  retry None (fun n : nat => (Ret tt, n)) (fun n => (Raise (RExc ValueError) : outcome nat, S n)) 9 (Some 3) 0 O = Some (Raise (RExc ValueError), 4%nat).
Proof. repeat split. Qed.
