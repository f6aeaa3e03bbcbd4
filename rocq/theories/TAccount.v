(** C20, C21, C23 (account part), C24-C33, C53, C54: orders, the account and the trading
    API, for every trade gate [gt] and every gate state. *)
From Coq Require Import String.
From Verif Require Import PyBase PyStr MTime MDate LDate MOrder MAccount MApi SAccount
  LAccount LAccount2 LAccount3 LApi MBus MEventSource MStrategy.
Open Scope list_scope.
Open Scope Z_scope.

(** A small gate for the examples: it remembers the orders it accepted, refuses code
    600001.XSHG, and reports what its state says. *)
Record dgate := DGate { dg_got : list order; dg_rep : list oinfo; dg_bal : binfo }.
Definition demo : gate dgate :=
  Gate dgate
    (fun o g => if str_eqb (o_code o) (lit "600001.XSHG") then (Err OSError, g)
                else (Ok tt, DGate (dg_got g ++ [o]) (dg_rep g) (dg_bal g)))
    (fun _ g => (Err TimeOut, g))
    (fun g => (Ok (dg_rep g), g))
    (fun g => (Ok (dg_bal g), g)).
Definition no_udigit (_ : N) : bool := false.
Definition lim (p : string) : starg := StStyle (Limit (PNum (lit p))).
Definition demo_pinfo : pinfo :=
  PInfo (Some (lit "long")) (Some (lit "600000.XSHG")) (Some 1000) (Some 900) (Some 11110) None (Some 7).
Definition demo_bal : binfo := BInfo (Some (Cash (Some 50) (Some 20) (Some 3))) (Some [demo_pinfo]).
Definition demo_w0 : world dgate := World true (Some acct_new) (DGate [] [] demo_bal).
Definition demo_ops : list (call (G := dgate)) :=
  [ KSyncBal;
    KOrder (lit "1") (63_000_000_000_000_000) (CStr (lit "600000.XSHG")) (AInt (-300)) (lim "10.5") SdFalsy;
    KOrder (lit "2") (63_000_000_000_000_000) (CStr (lit "000001.XSHE")) (AInt 200) StFalsy (SdStr (lit "short"));
    KOrder (lit "3") (63_000_000_000_000_000) (CStr (lit "600001.XSHG")) (AInt 100) StFalsy SdFalsy ].
Definition demo_w : world dgate := do_calls no_udigit demo demo_ops demo_w0.

(** ** C20 *)

(** Arguments of the right form reach the gate exactly once, as the order they denote. *)
Theorem C20_accepted_partial :
  forall udigit G (gt : gate G) sep id now c n st sd code z sty s w a,
    order_args udigit sep c n st sd code z sty s -> ready w a ->
    exists o r a' g',
      api_order udigit gt id now c n st sd w = (Ok r, World true (Some a') g') /\
      order_for id now code z sty o /\
      a_log a' = a_log a ++ [EvOrder o] /\ g' = snd (g_order gt o (w_gate w)).
Proof.
  intros. destruct (order_accepted udigit gt sep id now c n st sd code z sty s w a H H0)
    as (o & r & a' & g' & A & B & _ & C & D & _).
  exists o, r, a', g'. repeat split; try assumption; try apply B. rewrite D. reflexivity.
Qed.
Print Assumptions C20_accepted_partial.
(** All other arguments raise, with no effect at all. *)
Theorem C20_rejected_partial :
  forall udigit G (gt : gate G) id now c n st sd w,
    (forall sep code z sty s, ~ order_args udigit sep c n st sd code z sty s) ->
    exists e, api_order udigit gt id now c n st sd w = (Err e, w) /\
      (e = InvalidParam \/ (e = TypeError /\ (c = CAny \/ sd = SdUnhash))).
Proof. exact order_rejected. Qed.
Print Assumptions C20_rejected_partial.
(** C20 asks for <digits>.XSHE/.XSHG.  False: the separator is not looked at, so every
    code with any other character in its place is accepted and sent to the gate. *)
Theorem C20_separator_refuted :
  forall udigit G (gt : gate G) sep id now d e w a,
    sep <> 46%N -> d <> [] -> Forall (digit_char udigit) d -> exchange e -> ready w a ->
    exists o r a' g',
      api_order udigit gt id now (CStr (d ++ sep :: e)) (AInt 100) StFalsy SdFalsy w = (Ok r, World true (Some a') g') /\
      o_code o = d ++ sep :: e /\ a_log a' = a_log a ++ [EvOrder o].
Proof.
  intros udigit G gt sep id now d e w a _ Hd Hf He Hw.
  destruct (order_accepted udigit gt sep id now (CStr (d ++ sep :: e)) (AInt 100) StFalsy SdFalsy
              (d ++ sep :: e) 100 (Market (PNum (lit "0"))) Long w a) as (o & r & a' & g' & A & B & _ & C & _).
  - unfold order_args, code_form, amount_form, style_form, side_form. repeat split; auto.
    + exists d, e. auto.
    + left; split; [reflexivity|lia].
  - exact Hw.
  - exists o, r, a', g'. split; [exact A|split; [apply B|exact C]].
Qed.
Print Assumptions C20_separator_refuted.
(** C20 asks for InvalidParam.  False: a code that is not a sequence raises TypeError. *)
Theorem C20_type_error_refuted :
  forall udigit G (gt : gate G) id now n st sd w, api_order udigit gt id now CAny n st sd w = (Err TypeError, w).
Proof. reflexivity. Qed.
Print Assumptions C20_type_error_refuted.
Example C20_demo :
  order_args no_udigit 46 (CStr (lit "600000.XSHG")) (AInt (-300)) (lim "10.5") SdFalsy
    (lit "600000.XSHG") (-300) (Limit (PNum (lit "10.5"))) Long /\
  ready demo_w0 acct_new /\
  fst (api_order no_udigit demo (lit "1") 5 (CStr (lit "600000.XSHG")) (AInt (-300)) (lim "10.5") SdFalsy demo_w0) = Ok (Some (lit "1")) /\
  fst (api_order no_udigit demo (lit "1") 5 (CStr (lit "600000#XSHG")) (AInt 100) StFalsy SdFalsy demo_w0) = Ok (Some (lit "1")) /\
  fst (api_order no_udigit demo (lit "1") 5 (CStr (lit "60x000.XSHG")) (AInt 100) StFalsy SdFalsy demo_w0) = Err InvalidParam /\
  fst (api_order no_udigit demo (lit "1") 5 (CStr (lit ".XSHG")) (AInt 100) StFalsy SdFalsy demo_w0) = Err InvalidParam /\
  fst (api_order no_udigit demo (lit "1") 5 (CStr (lit "600000.XSHG")) (ABool false) StFalsy SdFalsy demo_w0) = Err InvalidParam.
Proof.
  split.
  - unfold order_args, code_form, amount_form, style_form, side_form, exchange. repeat split; auto.
    + exists (lit "600000"), (lit "XSHG"). repeat split; auto; [discriminate|].
      repeat constructor; cbn; lia.
    + left; split; [reflexivity|lia].
  - split; [split; reflexivity|]. vm_compute. repeat split.
Qed.

(** ** C21 *)

(** Orders for the long side are submitted for the long side. *)
Theorem C21_long_partial :
  forall udigit G (gt : gate G) sep id now c n st sd code z sty w a,
    order_args udigit sep c n st sd code z sty Long -> ready w a ->
    exists o r w', api_order udigit gt id now c n st sd w = (Ok r, w') /\
      (exists a', w_acc w' = Some a' /\ a_log a' = a_log a ++ [EvOrder o]) /\ o_side o = Long.
Proof.
  intros. destruct (order_accepted udigit gt sep id now c n st sd code z sty Long w a H H0)
    as (o & r & a' & g' & A & B & S & C & D & _). exists o, r, (World true (Some a') g'). cbn. eauto.
Qed.
Print Assumptions C21_long_partial.
(** C21 is false for every order with side 'short': it is submitted as a long order. *)
Theorem C21_short_refuted :
  forall udigit G (gt : gate G) sep id now c n st sd code z sty w a,
    order_args udigit sep c n st sd code z sty Short -> ready w a ->
    exists o r w', api_order udigit gt id now c n st sd w = (Ok r, w') /\
      (exists a', w_acc w' = Some a' /\ a_log a' = a_log a ++ [EvOrder o]) /\ o_side o = Long.
Proof.
  intros. destruct (order_accepted udigit gt sep id now c n st sd code z sty Short w a H H0)
    as (o & r & a' & g' & A & B & S & C & D & _). exists o, r, (World true (Some a') g'). cbn. eauto.
Qed.
Print Assumptions C21_short_refuted.
Example C21_demo :
  fst (api_order no_udigit demo (lit "2") 5 (CStr (lit "000001.XSHE")) (AInt 200) StFalsy (SdStr (lit "short")) demo_w0) = Ok (Some (lit "2")) /\
  map o_side (dg_got (w_gate (snd (api_order no_udigit demo (lit "2") 5 (CStr (lit "000001.XSHE")) (AInt 200) StFalsy (SdStr (lit "short")) demo_w0)))) = [Long].
Proof. vm_compute. repeat split. Qed.

(** ** C23, account part *)

(** order() returns its id exactly when the gate accepted the order, None exactly when the
    gate raised; the order is then in the book in both cases. *)
Theorem C23_return_value_partial :
  forall udigit G (gt : gate G) sep id now c n st sd code z sty s w a,
    order_args udigit sep c n st sd code z sty s -> ready w a ->
    exists o r a' g',
      api_order udigit gt id now c n st sd w = (Ok r, World true (Some a') g') /\ order_for id now code z sty o /\
      (r = Some id <-> exists u, fst (g_order gt o (w_gate w)) = Ok u) /\
      (r = None <-> exists e, fst (g_order gt o (w_gate w)) = Err e) /\
      (r = Some id -> recorded a' id o).
Proof.
  intros. destruct (order_accepted udigit gt sep id now c n st sd code z sty s w a H H0)
    as (o & r & a' & g' & A & B & S & C & D & E & F & R). exists o, r, a', g'. auto 10.
Qed.
Print Assumptions C23_return_value_partial.
(** C23: "if it returns None, get_orders does not show it".  False for every order the gate
    refuses: it stays in the book as a new order. *)
Theorem C23_none_refuted :
  forall udigit G (gt : gate G) sep id now c n st sd code z sty s w a w',
    order_args udigit sep c n st sd code z sty s -> ready w a ->
    api_order udigit gt id now c n st sd w = (Ok None, w') ->
    exists a' o, w_acc w' = Some a' /\ recorded a' id o /\ o_status o = Snew /\ o_code o = code.
Proof.
  intros. destruct (order_accepted udigit gt sep id now c n st sd code z sty s w a H H0)
    as (o & r & a' & g' & A & B & S & C & D & E & F & R).
  rewrite H1 in A. injection A as _ ->. exists a', o. cbn. split; [reflexivity|]. split; [exact R|].
  unfold order_for in B. intuition congruence.
Qed.
Print Assumptions C23_none_refuted.
Example C23_demo :
  fst (api_order no_udigit demo (lit "3") 5 (CStr (lit "600001.XSHG")) (AInt 100) StFalsy SdFalsy demo_w0) = Ok None /\
  api_get_orders no_udigit None None FsFalsy
    (snd (api_order no_udigit demo (lit "3") 5 (CStr (lit "600001.XSHG")) (AInt 100) StFalsy SdFalsy demo_w0)) = Ok [(lit "3", 0%nat)].
Proof. vm_compute. repeat split. Qed.

(** ** C24 *)

Theorem C24_one_entry_per_request :
  forall udigit G (gt : gate G) qs w, List.length (fst (batch_submit udigit gt qs w)) = List.length qs.
Proof. exact batch_length. Qed.
Print Assumptions C24_one_entry_per_request.
(** The entry of a request is what order() returns in the state after the requests before
    it, None if that raises (or if code or amount is missing). *)
Theorem C24_entry :
  forall udigit G (gt : gate G) pre id now q post w,
    let w1 := snd (batch_submit udigit gt pre w) in
    nth_error (fst (batch_submit udigit gt (pre ++ (id, now, q) :: post) w)) (List.length pre) =
    Some (match r_code q, r_amount q with
          | Some c, Some n => match fst (api_order udigit gt id now c n (r_style q) (r_side q) w1) with
                              | Ok r => r | Err _ => None end
          | _, _ => None
          end).
Proof. exact batch_nth. Qed.
Print Assumptions C24_entry.
(** ... and its effect is that of order(). *)
Theorem C24_effect :
  forall udigit G (gt : gate G) pre id now c n st sd w,
    snd (batch_submit udigit gt (pre ++ [(id, now, Req (Some c) (Some n) st sd)]) w) =
    snd (api_order udigit gt id now c n st sd (snd (batch_submit udigit gt pre w))).
Proof. exact batch_snoc. Qed.
Print Assumptions C24_effect.
Example C24_demo :
  fst (batch_submit no_udigit demo
    [(lit "7", 1, Req (Some (CStr (lit "600000.XSHG"))) (Some (AInt 100)) StFalsy SdFalsy);
     (lit "8", 2, Req None (Some (AInt 100)) StFalsy SdFalsy);
     (lit "9", 3, Req (Some (CStr (lit "600001.XSHG"))) (Some (AInt 100)) StFalsy SdFalsy);
     (lit "10", 4, Req (Some (CStr (lit "000002.XSHE"))) (Some AOther) StFalsy SdFalsy);
     (lit "11", 5, Req (Some (CStr (lit "000002.XSHE"))) (Some (AInt (-5))) (lim "2") SdFalsy)] demo_w0)
  = [Some (lit "7"); None; None; None; Some (lit "11")].
Proof. vm_compute. reflexivity. Qed.

(** ** C25, account part *)

(** A cancel never raises, whatever the gate does; it calls the gate once if the id is
    known and not at all otherwise; nothing else changes. *)
Theorem C25_cancel :
  forall G (gt : gate G) id w a, ready w a -> book_ok a ->
    exists a' g', api_cancel gt id w = (Ok tt, World true (Some a') g') /\
      (known a id -> a_log a' = a_log a ++ [EvCancel id] /\ g' = snd (g_cancel gt id (w_gate w))) /\
      (~ known a id -> a_log a' = a_log a /\ g' = w_gate w) /\
      a_orders a' = a_orders a /\ a_heap a' = a_heap a /\ a_long a' = a_long a /\ a_short a' = a_short a /\
      (a_total a', a_cash a', a_locked a') = (a_total a, a_cash a, a_locked a).
Proof.
  intros G gt id w a Hw HB. pose proof (api_cancel_spec gt id w a Hw) as X. cbn zeta in X.
  assert (K : known a id <-> dmem id (a_orders a) = true).
  { unfold dmem. destruct (dget id (a_orders a)) as [r|] eqn:E; split; intro H; try discriminate; auto.
    - destruct HB as [_ HB]. destruct (HB _ _ E) as (o & Ho & _). exists o, r. auto.
    - destruct H as (o & r & Hr & _). congruence. }
  rewrite X. destruct (dmem id (a_orders a)).
  - eexists _, _. split; [reflexivity|]. split; [intros _; split; reflexivity|]. split; [tauto|]. repeat split.
  - eexists _, _. split; [reflexivity|]. split; [intro H; apply K in H; discriminate|]. split; [intros _; split; reflexivity|]. repeat split.
Qed.
Print Assumptions C25_cancel.
(** A batch cancels its known ids, in order; nothing else changes. *)
Theorem C25_batch :
  forall G (gt : gate G) ids w a, ready w a ->
    exists a', batch_cancel gt ids w =
      (Ok tt, World true (Some a') (fold_left (fun g id => snd (g_cancel gt id g)) (known_ids a ids) (w_gate w))) /\
      a' = Acct (a_heap a) (a_orders a) (a_long a) (a_short a) (a_total a) (a_cash a) (a_locked a) (a_synced a)
             (a_log a ++ map EvCancel (known_ids a ids)).
Proof. exact @batch_cancel_spec. Qed.
Print Assumptions C25_batch.
Example C25_demo :
  option_map (fun a => skipn 3 (a_log a)) (w_acc (snd (batch_cancel demo [lit "2"; lit "99"; lit "1"; lit "2"] demo_w)))
  = Some [EvCancel (lit "2"); EvCancel (lit "1"); EvCancel (lit "2")].
Proof. vm_compute. reflexivity. Qed.

(** ** C26 *)

(** For any reachable book: exactly the recorded orders that pass all given filters, under
    their ids, each once.  (get_orders returns no new state: it changes nothing.) *)
Theorem C26_get_orders :
  forall udigit G (gt : gate G) fid fcode fs (w : world G) a,
    ready w a -> reachable udigit gt a ->
    (forall c, fcode = Some c -> c = CStr [] \/ exists s sep, c = CStr s /\ code_form udigit sep s) ->
    (match fs with FsStr [] => True | FsStr s => exists x, status_name x s | FsHash | FsUnhash => False | _ => True end) ->
    exists d, api_get_orders udigit fid fcode fs w = Ok d /\ NoDup (dkeys d) /\
      forall k r, dget k d = Some r <->
        exists o, dget k (a_orders a) = Some r /\ deref a r = Some o /\
          filter_id fid k /\ filter_code fcode o /\ filter_status fs o.
Proof.
  intros. apply get_orders_spec; try assumption. apply (reachable_ok udigit gt a H0).
Qed.
Print Assumptions C26_get_orders.
(** Any other text as status is refused, as is any text as a status, side or action that is
    not one of the names. *)
Theorem C26_bad_status :
  forall udigit G fid fcode s (w : world G),
    (forall c, fcode = Some c -> c = CStr [] \/ exists s sep, c = CStr s /\ code_form udigit sep s) ->
    s <> [] -> (forall x, ~ status_name x s) -> api_get_orders udigit fid fcode (FsStr s) w = Err InvalidParam.
Proof.
  intros udigit G fid fcode s w Hc Hs Hn. unfold api_get_orders.
  assert (E : exists oc, (match fcode with None | Some (CStr []) => Ok None | Some c => do s <- check_code udigit c; Ok (Some s) end) = Ok oc).
  { destruct fcode as [c|]; [|eauto]. destruct (Hc c eq_refl) as [->|(t & sep & -> & Ht)]; [eauto|]. destruct t as [|c t]; [eauto|].
    rewrite (proj2 (check_code_iff udigit (CStr (c :: t)) (c :: t))); [cbn [rbind]; eauto|]. split; [reflexivity|exists sep; exact Ht]. }
  destruct E as [oc ->]. cbn [rbind check_fstatus]. destruct s as [|c s]; [congruence|].
  destruct (get_status (c :: s)) as [x|e] eqn:E; [|reflexivity]. apply get_status_inv in E. exfalso. apply (Hn x). apply status_name_iff. symmetry. exact E.
Qed.
Print Assumptions C26_bad_status.
Theorem C26_names :
  forall s, (forall x, get_status s = Ok x <-> status_name x s) /\ (forall e, get_status s = Err e -> e = ValueError) /\
    (forall x, get_side s = Ok x <-> (x, s) = (Long, lit "long") \/ (x, s) = (Short, lit "short")) /\ (forall e, get_side s = Err e -> e = ValueError) /\
    (forall x, get_action s = Ok x <-> (x, s) = (Open, lit "open") \/ (x, s) = (Close, lit "close")) /\ (forall e, get_action s = Err e -> e = ValueError).
Proof.
  intros s.
  assert (V : forall A (f : A -> str) l e, find_name f l s = Err e -> e = ValueError) by (intros A f l e; unfold find_name; destruct (find _ _); intro H; [discriminate|injection H; auto]).
  split; [|split; [exact (V _ _ _)|split; [|split; [exact (V _ _ _)|split; [|exact (V _ _ _)]]]]].
  - intro x. rewrite status_name_iff. split; [intro H; apply get_status_inv in H; congruence|intros <-; apply get_status_str].
  - intro x. split.
    + intro H. apply get_side_inv in H as ->. destruct x; [left|right]; reflexivity.
    + intros [H|H]; injection H as -> ->; reflexivity.
  - intro x. split.
    + intro H. apply get_action_inv in H as ->. destruct x; [left|right]; reflexivity.
    + intros [H|H]; injection H as -> ->; reflexivity.
Qed.
Print Assumptions C26_names.
Example C26_demo :
  api_get_orders no_udigit None None FsFalsy demo_w = Ok [(lit "1", 0%nat); (lit "2", 1%nat); (lit "3", 2%nat)] /\
  api_get_orders no_udigit None (Some (CStr (lit "000001.XSHE"))) (FsStr (lit "new")) demo_w = Ok [(lit "2", 1%nat)] /\
  api_get_orders no_udigit (Some (lit "1")) (Some (CStr (lit "000001.XSHE"))) FsFalsy demo_w = Ok [] /\
  api_get_orders no_udigit (Some (lit "1")) None (FsMember Snew) demo_w = Ok [(lit "1", 0%nat)] /\
  api_get_orders no_udigit None None (FsStr (lit "done")) demo_w = Err InvalidParam.
Proof. vm_compute. repeat split. Qed.

(** ** C27 *)

(** The object behind a UserOrder keeps all its fields over every later history. *)
Theorem C27_snapshots :
  forall udigit G (gt : gate G) fid fcode fs w a d id r o ks,
    ready w a -> reachable udigit gt a ->
    api_get_orders udigit fid fcode fs w = Ok d -> dget id d = Some r -> deref a r = Some o ->
    exists a', w_acc (do_calls udigit gt ks w) = Some a' /\ deref a' r = Some o.
Proof.
  intros udigit G gt fid fcode fs w a d id r o ks [_ Hw] Hr _ _ Hd.
  apply (snapshot udigit gt ks w a r o Hw); [apply (reachable_ok udigit gt a Hr)|exact Hd].
Qed.
Print Assumptions C27_snapshots.
Definition demo_report : oinfo :=
  OInfo (lit "600000.XSHG") (PNum (lit "10.5")) 300 (lit "close") (lit "1") (lit "filled") (lit "limit")
    (lit "2023-11-06 10:30:33.000000") None (Some (lit "long")) (Some (lit "B7")) (Some 300) (Some 0)
    (Some 31500000) (Some 10500) None None.
Definition demo_synced : world dgate :=
  do_calls no_udigit demo [KEnv (DGate [] [demo_report] demo_bal); KSyncOrd] demo_w.
Example C27_demo :
  match w_acc demo_w, w_acc demo_synced with
  | Some a, Some a' =>
      option_map o_status (deref a' 0) = Some Snew /\ deref a' 0 = deref a 0 /\
      option_map o_status (local_order (lit "1") a') = Some Sfilled
  | _, _ => False
  end.
Proof. vm_compute. repeat split. Qed.

(** ** C28 *)

(** If every report can be loaded, the sync completes and each reported order is in the
    book with the last reported values. *)
Theorem C28_agrees_partial :
  forall G (gt : gate G) a g l g', book_ok a -> g_sync_orders gt g = (Ok l, g') -> Forall loadable l ->
    a_synced (fst (acc_sync_orders gt a g)) = true /\
    forall pre i post, l = pre ++ i :: post -> ~ In (i_id i) (map i_id post) ->
      exists o, recorded (fst (acc_sync_orders gt a g)) (i_id i) o /\ agrees i o.
Proof.
  intros G gt a g l g' HB Hg HL. unfold acc_sync_orders. rewrite Hg; cbn [fst].
  split; [apply sync_all_completes, HL|]. intros pre i post -> Hn.
  destruct (sync_all_agrees pre i post a HB HL Hn) as (o & Ho & Ha). exists o. split; [apply local_recorded, Ho|exact Ha].
Qed.
Print Assumptions C28_agrees_partial.
(** Orders that are not reported are untouched, also by a sync that fails. *)
Theorem C107_others_untouched :
  forall G (gt : gate G) a g id, book_ok a ->
    (forall l g', g_sync_orders gt g = (Ok l, g') -> ~ In id (map i_id l)) ->
    forall o, recorded (fst (acc_sync_orders gt a g)) id o <-> recorded a id o.
Proof.
  intros G gt a g id HB Hn o. unfold acc_sync_orders. destruct (g_sync_orders gt g) as [[l|] g'] eqn:E; cbn [fst]; [|reflexivity].
  rewrite <- !local_recorded, sync_all_other; [reflexivity|exact HB|eapply Hn; reflexivity].
Qed.
Print Assumptions C107_others_untouched.
(** No order ever disappears from the book, over any history. *)
Theorem C107_never_lost :
  forall udigit G (gt : gate G) ks w a id, w_acc w = Some a -> book_ok a -> known a id ->
    exists a', w_acc (do_calls udigit gt ks w) = Some a' /\ known a' id.
Proof. exact never_lost. Qed.
Print Assumptions C107_never_lost.
(** Books of running strategies meet the hypothesis above. *)
Theorem C107_books : forall udigit G (gt : gate G) a, reachable udigit gt a -> book_ok a.
Proof. intros. apply (reachable_ok udigit gt a H). Qed.
Print Assumptions C107_books.
(** C28 includes the error message.  False: a report that differs only there is ignored. *)
Theorem C28_err_msg_refuted :
  forall G (gt : gate G) a g i rem o g',
    g_sync_orders gt g = (Ok [i], g') -> denotes i rem -> recorded a (i_id i) o -> ~ changed rem o ->
    recorded (fst (acc_sync_orders gt a g)) (i_id i) o.
Proof.
  intros G gt a g i rem o g' Hg Hl Hr Hc. apply load_iff in Hl. unfold acc_sync_orders. rewrite Hg. cbn [fst sync_all].
  unfold sync_one. rewrite Hl; cbn [rbind]. rewrite (proj2 (local_recorded a (i_id i) o) Hr).
  rewrite (proj2 (same_iff rem o) Hc). exact Hr.
Qed.
Print Assumptions C28_err_msg_refuted.
Definition with_err (e : string) (i : oinfo) : oinfo :=
  OInfo (i_code i) (i_price i) (i_amount i) (i_action i) (i_id i) (i_status i) (i_style i) (i_create i) (i_entrust i)
    (i_side i) (i_confirm i) (i_filled i) (i_canceled i) (i_deal i) (i_avg i) (i_comm i) (Some (lit e)).
Example C28_demo :
  match w_acc demo_synced with
  | Some a => loadable demo_report /\ option_map o_filled (local_order (lit "1") a) = Some 300 /\
      option_map o_err (local_order (lit "1") (sync_all [with_err "no funds" demo_report] a)) = Some (lit "")
  | None => False
  end.
Proof.
  assert (L : loadable demo_report) by (apply loadable_iff; vm_compute; eexists; reflexivity).
  revert L. vm_compute. intro L. split; [exact L|split; reflexivity].
Qed.

(** ** C29 *)

(** A sync adds to the log at most one notice per report; a notice is about the reported
    order, whose local version (after the earlier reports) was not finished and differed
    from it, and has the kind of the reported status. *)
Theorem C29_notices :
  forall G (gt : gate G) g l g' a, g_sync_orders gt g = (Ok l, g') ->
    exists ns : list (list aevent),
      a_log (fst (acc_sync_orders gt a g)) = a_log a ++ concat ns /\ (List.length ns <= List.length l)%nat /\
      forall k evs, nth_error ns k = Some evs ->
        evs = [] \/
        exists i kd loc rem, evs = [EvNotice kd rem] /\ nth_error l k = Some i /\ denotes i rem /\
          recorded (sync_all (firstn k l) a) (i_id i) loc /\
          changed loc rem /\ ~ final_status (o_status loc) /\ kind_of kd (o_status rem).
Proof. intros G gt g l g' a Hg. unfold acc_sync_orders. rewrite Hg.
  destruct (sync_all_notes l a) as (ns & A & B & C). exists ns. split; [exact A|]. split; [exact B|]. intros k evs Hk.
  destruct (C k evs Hk) as [->|(i & kd & loc & rem & H1 & H2 & H3 & H4)]; [left; reflexivity|]. right.
  exists i, kd, loc, rem. apply load_iff in H3. auto 10.
Qed.
Print Assumptions C29_notices.
(** ... and a notice is given for each deal, cancel or rejection of an unfinished order,
    and for the confirmation of a new one. *)
Theorem C29_not_missing :
  forall G (gt : gate G) g g' a i loc rem, g_sync_orders gt g = (Ok [i], g') ->
    denotes i rem -> recorded a (i_id i) loc -> changed loc rem -> ~ final_status (o_status loc) ->
    (o_status rem = Sfilling \/
     (o_status loc <> o_status rem /\ In (o_status rem) [Sfilled; Scanceling; Spartly_canceled; Scanceled; Srejected]) \/
     (o_status loc = Snew /\ o_status rem = Sopen)) ->
    exists kd, a_log (fst (acc_sync_orders gt a g)) = a_log a ++ [EvNotice kd rem] /\ kind_of kd (o_status rem).
Proof. intros G gt g g' a i loc rem Hg. unfold acc_sync_orders. rewrite Hg, <- load_iff. apply sync_notice_needed. Qed.
Print Assumptions C29_not_missing.
Example C29_demo :
  match w_acc demo_synced with
  | Some a => map (fun e => match e with EvNotice k o => Some (k, o_id o) | _ => None end) (skipn 3 (a_log a))
                = [Some (NFilled, lit "1")] /\
              a_log (sync_all [demo_report; with_err "x" demo_report] a) = a_log a
  | None => False
  end.
Proof. vm_compute. repeat split. Qed.

(** ** C30 *)

(** After a sync with a complete report: both position maps are exactly the reported ones,
    and each cash value that is reported and not zero is taken over. *)
Theorem C30_as_reported_partial :
  forall G (gt : gate G) a g b g' c l,
    g_sync_balance gt g = (Ok b, g') -> b_cash b = Some c -> b_pos b = Some l -> Forall pos_complete l ->
    let a' := fst (acc_sync_balance gt a g) in
    (nonzero (c_total c) -> c_total c = Some (a_total a')) /\
    (nonzero (c_avail c) -> c_avail c = Some (a_cash a')) /\
    (nonzero (c_locked c) -> c_locked c = Some (a_locked a')) /\
    map_as Long l (a_long a') /\ map_as Short l (a_short a').
Proof. exact @sync_balance_exact. Qed.
Print Assumptions C30_as_reported_partial.
(** A sync that fails in the gate or lacks cash or positions changes nothing. *)
Theorem C30_failed_unchanged_partial :
  forall G (gt : gate G) a g r g',
    g_sync_balance gt g = (r, g') -> (forall b, r = Ok b -> b_cash b = None \/ b_pos b = None) ->
    fst (acc_sync_balance gt a g) = a.
Proof. exact @sync_balance_failed. Qed.
Print Assumptions C30_failed_unchanged_partial.
(** C30 is false for reported zeros: the old value stays. *)
Theorem C30_zero_refuted :
  forall G (gt : gate G) a g b g' c l,
    g_sync_balance gt g = (Ok b, g') -> b_cash b = Some c -> b_pos b = Some l ->
    (c_avail c = Some 0 -> a_cash (fst (acc_sync_balance gt a g)) = a_cash a) /\
    (c_total c = Some 0 -> a_total (fst (acc_sync_balance gt a g)) = a_total a) /\
    (c_locked c = Some 0 -> a_locked (fst (acc_sync_balance gt a g)) = a_locked a).
Proof. exact @sync_balance_zero. Qed.
Print Assumptions C30_zero_refuted.
(** C30 is false for a sync that fails on one position: the previous positions are gone
    and only those before the bad one are present. *)
Theorem C30_midway_refuted :
  forall G (gt : gate G) a g b g' c pre bad post,
    g_sync_balance gt g = (Ok b, g') -> b_cash b = Some c -> b_pos b = Some (pre ++ bad :: post) ->
    Forall pos_complete pre -> ~ pos_complete bad ->
    map_as Long pre (a_long (fst (acc_sync_balance gt a g))) /\ map_as Short pre (a_short (fst (acc_sync_balance gt a g))).
Proof. exact @sync_balance_midway. Qed.
Print Assumptions C30_midway_refuted.
Definition demo_bad : pinfo := PInfo None (Some (lit "000001.XSHE")) (Some 1) (Some 1) (Some 1) None None.
Example C30_demo :
  match w_acc demo_w with
  | Some a =>
      (a_total a, a_cash a, a_locked a) = (50, 20, 3) /\ pos_complete demo_pinfo /\
      a_cash (fst (acc_sync_balance demo a (DGate [] [] (BInfo (Some (Cash (Some 60) (Some 0) (Some 4))) (Some []))))) = 20 /\
      a_long (fst (acc_sync_balance demo a (DGate [] [] (BInfo (Some (Cash (Some 60) (Some 1) (Some 4))) (Some [demo_bad; demo_pinfo]))))) = []
  | None => False
  end.
Proof. vm_compute. repeat split; auto; discriminate. Qed.

(** ** C31 *)

(** Between balance syncs: reported minus sold, never below zero; the rest of the position
    is unchanged. *)
Theorem C31_closeable :
  forall G (gt : gate G) ops a g rs a' g' code p,
    no_balance_sync ops -> a_run gt ops (a, g) = (rs, (a', g')) ->
    dget code (a_long a) = Some p -> 0 <= ps_avail p ->
    dget code (a_long a') = Some (set_avail (Z.max (ps_avail p - sold code ops rs) 0) p).
Proof. exact @a_run_avail. Qed.
Print Assumptions C31_closeable.
(** Between balance syncs the amount stays and what was sold is locked, up to what was
    available. *)
Theorem C31_locked :
  forall G (gt : gate G) ops a g rs a' g' code p,
    no_balance_sync ops -> a_run gt ops (a, g) = (rs, (a', g')) ->
    dget code (a_long a) = Some p -> 0 <= ps_avail p ->
    exists q, dget code (a_long a') = Some q /\ ps_amount q = ps_amount p /\
      pos_locked q = pos_locked p + Z.min (sold code ops rs) (ps_avail p).
Proof.
  intros G gt ops a g rs a' g' code p Hn Hr Hp H0. eexists. split; [exact (C31_closeable G gt ops a g rs a' g' code p Hn Hr Hp H0)|].
  split; [reflexivity|]. unfold pos_locked. cbn [set_avail ps_amount ps_avail]. lia.
Qed.
Print Assumptions C31_locked.
(** Selling at most closeable_amount each time never sells more than was available. *)
Theorem C31_never_oversold :
  forall G (gt : gate G) ops a g rs a' g' code p,
    no_balance_sync ops -> a_run gt ops (a, g) = (rs, (a', g')) ->
    dget code (a_long a) = Some p -> 0 <= ps_avail p ->
    (forall pre id now z st sd post, ops = pre ++ AOrder id now code z st sd :: post -> z < 0 ->
       forall q, dget code (a_long (fst (snd (a_run gt pre (a, g))))) = Some q -> - z <= ps_avail q) ->
    sold code ops rs <= ps_avail p.
Proof. exact @never_oversold. Qed.
Print Assumptions C31_never_oversold.
Definition demo_sells : list (aop (G := dgate)) :=
  [ AOrder (lit "1") 0 (lit "600000.XSHG") (-300) (Market (PNum (lit "0"))) Long; ACancel (lit "1"); ASyncOrd;
    AOrder (lit "2") 0 (lit "600000.XSHG") 400 (Market (PNum (lit "0"))) Long;
    AOrder (lit "3") 0 (lit "600001.XSHG") (-200) (Market (PNum (lit "0"))) Long;
    AOrder (lit "4") 0 (lit "600000.XSHG") (-500) (Market (PNum (lit "0"))) Short ].
Example C31_demo :
  let a0 := fst (acc_sync_balance demo acct_new (DGate [] [] demo_bal)) in
  let r := a_run demo demo_sells (a0, DGate [] [] demo_bal) in
  no_balance_sync demo_sells /\ sold (lit "600000.XSHG") demo_sells (fst r) = 800 /\
  map (fun kv => ps_avail (snd kv)) (a_long (fst (snd r))) = [100] /\
  map (fun kv => pos_locked (snd kv)) (a_long a0) = [100] /\ map (fun kv => pos_locked (snd kv)) (a_long (fst (snd r))) = [900].
Proof. split; [repeat constructor; discriminate|vm_compute; repeat split]. Qed.

(** ** C32 *)

(** The portfolio's position dicts are the account's; indexing an absent code gives an
    all-zero position and inserts nothing. *)
Theorem C32_views_partial :
  forall udigit G (gt : gate G) a, reachable udigit gt a ->
    long_view a = a_long a /\ short_view a = a_short a /\
    forall sd code v, snd (view_get sd code v) = v /\
      (forall p, dget code v = Some p -> fst (view_get sd code v) = p) /\
      (dget code v = None -> fst (view_get sd code v) = Pos code 0 0 0 sd (Some 0) (Some 0)).
Proof.
  intros udigit G gt a H. destruct (reachable_ok udigit gt a H) as [_ [P1 P2]].
  split; [apply view_same, P1|]. split; [apply view_same, P2|]. intros sd code v. unfold view_get.
  destruct (dget code v); cbn; repeat split; intros; congruence.
Qed.
Print Assumptions C32_views_partial.
(** C32: position_value is the sum over the long positions.  False as soon as there is
    one: reading it raises. *)
Theorem C32_position_value_refuted :
  forall udigit G (gt : gate G) a, reachable udigit gt a ->
    (a_long a = [] -> position_value a = Ok 0) /\ (a_long a <> [] -> position_value a = Err AttributeError).
Proof.
  intros udigit G gt a H. destruct (reachable_ok udigit gt a H) as [_ [P1 _]]. unfold position_value.
  unfold long_view. rewrite (view_same _ P1). destruct (a_long a); split; congruence.
Qed.
Print Assumptions C32_position_value_refuted.
Example C32_demo :
  reachable no_udigit demo (match w_acc demo_w with Some a => a | None => acct_new end) /\
  match w_acc demo_w with Some a => dkeys (long_view a) = [lit "600000.XSHG"] /\ position_value a = Err AttributeError | None => False end.
Proof. split; [exists true, (DGate [] [] demo_bal), demo_ops; reflexivity|vm_compute; repeat split]. Qed.

(** ** C33 *)

(** An order with a fresh id overwrites nothing. *)
Theorem C33_fresh_id_partial :
  forall udigit G (gt : gate G) sep id now c n st sd code z sty s w a,
    order_args udigit sep c n st sd code z sty s -> ready w a -> book_ok a -> ~ known a id ->
    exists r a' g', api_order udigit gt id now c n st sd w = (Ok r, World true (Some a') g') /\
      (forall id' o, recorded a id' o -> recorded a' id' o).
Proof. exact order_keeps_others. Qed.
Print Assumptions C33_fresh_id_partial.
(** C33 is false: ids are unchecked random numbers, and when one is drawn again the new
    order replaces the one recorded under it. *)
Theorem C33_repeated_id_refuted :
  forall udigit G (gt : gate G) sep id now c n st sd code z sty s w a old,
    order_args udigit sep c n st sd code z sty s -> ready w a -> recorded a id old ->
    exists o r a' g', api_order udigit gt id now c n st sd w = (Ok r, World true (Some a') g') /\
      order_for id now code z sty o /\ recorded a' id o /\ (o <> old -> ~ recorded a' id old).
Proof.
  intros. destruct (order_accepted udigit gt sep id now c n st sd code z sty s w a H H0)
    as (o & r & a' & g' & A & B & S & C & D & E & F & R). exists o, r, a', g'. split; [exact A|]. split; [exact B|]. split; [exact R|].
  intros Hn (r1 & R1 & R2). destruct R as (r2 & R3 & R4). congruence.
Qed.
Print Assumptions C33_repeated_id_refuted.
Example C33_demo :
  let w := do_calls no_udigit demo
    [ KOrder (lit "5") 0 (CStr (lit "600000.XSHG")) (AInt 100) StFalsy SdFalsy;
      KOrder (lit "5") 0 (CStr (lit "000001.XSHE")) (AInt 200) StFalsy SdFalsy ] demo_w0 in
  api_get_orders no_udigit None None FsFalsy w = Ok [(lit "5", 1%nat)] /\
  map o_code (dg_got (w_gate w)) = [lit "600000.XSHG"; lit "000001.XSHE"].
Proof. vm_compute. repeat split. Qed.

(** ** C53 *)

(** For every order of a running strategy, whose times lie in the years 1000 to 9999. *)
Theorem C53_round_trip_partial :
  forall udigit G (gt : gate G) a id o, reachable udigit gt a -> recorded a id o ->
    date_ok (dt_date (o_create o)) -> (forall t, o_entrust o = Some t -> date_ok (dt_date t)) ->
    load (json o) = Ok o.
Proof.
  intros udigit G gt a id o Hr (r & H1 & H2) Hc He.
  destruct (reachable_ok udigit gt a Hr) as [[_ B] _]. destruct (B _ _ H1) as (o' & Ho & _ & Hp).
  assert (o' = o) by congruence. subst o'. apply load_json; assumption.
Qed.
Print Assumptions C53_round_trip_partial.
(** For an order object built with a price different from its style's price (the
    constructor allows it) C53 is false: the style's price is replaced. *)
Theorem C53_style_price_refuted :
  forall o, date_ok (dt_date (o_create o)) -> (forall t, o_entrust o = Some t -> date_ok (dt_date t)) ->
    style_price (o_style o) <> o_price o -> load (json o) <> Ok o.
Proof.
  intros o _ _ Hp H. apply load_inv in H. destruct H as (_ & _ & H & _). apply Hp, H.
Qed.
Print Assumptions C53_style_price_refuted.
Example C53_demo :
  match w_acc demo_w with
  | Some a => match local_order (lit "1") a with
              | Some o => date_ok (dt_date (o_create o)) /\ load (json o) = Ok o
              | None => False end
  | None => False
  end.
Proof. vm_compute. split; [split; discriminate|reflexivity]. Qed.

(** ** C54 *)

(** While use_account is off (also before any set_options), every API that needs the
    account raises without effect -- InvalidCall, unless order() or get_orders already
    refuse their arguments. *)
Theorem C54_disabled_partial :
  forall udigit G (gt : gate G) w, w_use w = false ->
    (forall id now c n st sd, exists e, api_order udigit gt id now c n st sd w = (Err e, w) /\
       ((exists sep code z sty s, order_args udigit sep c n st sd code z sty s) -> e = InvalidCall)) /\
    (forall id, api_cancel gt id w = (Err InvalidCall, w)) /\
    (forall id ids, batch_cancel gt (id :: ids) w = (Err InvalidCall, w)) /\
    api_sync_balance gt w = (Err InvalidCall, w) /\ api_sync_orders gt w = (Err InvalidCall, w) /\
    (forall fid fs, (exists os, check_fstatus fs = Ok os) -> api_get_orders udigit fid None fs w = Err InvalidCall) /\
    (forall A (view : acct -> res A), api_portfolio view w = Err InvalidCall).
Proof.
  intros udigit G gt w Hu.
  assert (T : the_account w = Err InvalidCall) by (unfold the_account; rewrite Hu; reflexivity).
  split; [intros; apply disabled_order, Hu|].
  assert (C : forall id, api_cancel gt id w = (Err InvalidCall, w)) by (intro; unfold api_cancel; rewrite T; reflexivity).
  split; [exact C|]. split; [intros; cbn [batch_cancel]; rewrite C; reflexivity|].
  split; [unfold api_sync_balance; rewrite T; reflexivity|].
  split; [unfold api_sync_orders; rewrite T; reflexivity|].
  split.
  - intros fid fs [os Hs]. unfold api_get_orders. cbn [rbind]. rewrite Hs. cbn [rbind]. rewrite T. reflexivity.
  - intros. unfold api_portfolio. rewrite T. reflexivity.
Qed.
Print Assumptions C54_disabled_partial.
(** A completed set_options decides availability by use_account (default SETUP_ACCOUNT). *)
Theorem C54_enabled_partial :
  forall fuel sc ctx_start ctx_end k e s s' G accs (g : G),
    MStrategy.set_options fuel sc ctx_start ctx_end k e s = (GOk tt, s') ->
    let b := match so_use k with Some b => b | None => sc_setup sc end in
    (b = true -> exists a, the_account (ctx_world s' accs g) = Ok a) /\
    (b = false -> the_account (ctx_world s' accs g) = Err InvalidCall).
Proof.
  intros. destruct (set_options_ok _ _ _ _ _ _ _ _ H) as (b' & U & A & Hb). subst b'. fold b in U, A.
  unfold the_account, ctx_world. rewrite U. cbn [w_use w_acc]. split; intro Hb.
  - rewrite Hb. specialize (A Hb). destruct (st_acc s') as [i|]; [eauto|congruence].
  - rewrite Hb. reflexivity.
Qed.
Print Assumptions C54_enabled_partial.
(** C54 is false for batch_submit_orders: it raises nothing and returns Nones. *)
Theorem C54_batch_refuted :
  forall udigit G (gt : gate G) qs w, w_use w = false ->
    batch_submit udigit gt qs w = (map (fun _ => None) qs, w).
Proof. exact disabled_batch. Qed.
Print Assumptions C54_batch_refuted.
(** C54 is false after a set_options(use_account=True) that failed for lack of account_no:
    use_account is on but there is no account, so the API fails with AttributeError. *)
Theorem C54_failed_set_options_refuted :
  forall fuel sc ctx_start ctx_end k e s o,
    st_allowed s = true -> parse_opts k = Ok o -> so_use k = Some true -> so_acct k = false -> st_acc s = None ->
    e_dir e = Ok tt ->
    exists s', MStrategy.set_options fuel sc ctx_start ctx_end k e s = (GErr InvalidParam, s') /\
      forall G accs (g : G), the_account (ctx_world s' accs g) = Err AttributeError.
Proof.
  intros fuel sc cs ce k e s o Ha Hp Hu Hno Hacc Hd.
  assert (U : so_use o = Some true /\ so_acct o = false).
  { unfold parse_opts, rbind in Hp. destruct (parse_opt (so_mp k)); [|discriminate].
    destruct (match so_interval k with Some (Err e0) => _ | _ => _ end); [|discriminate].
    destruct (parse_opt (so_period k)); [|discriminate]. apply Ok_inj in Hp. subst o. auto. }
  destruct U as [U1 U2]. unfold MStrategy.set_options. rewrite Ha, Hp, Hd, U1. cbn [negb].
  unfold setup_account. rewrite U2. cbn [negb]. eexists. split; [reflexivity|].
  intros. unfold the_account, ctx_world. cbn. rewrite Hacc. reflexivity.
Qed.
Print Assumptions C54_failed_set_options_refuted.
Definition demo_strat : strat := Strat [] true 0 opts_empty [] None None 0 [] [].
Definition demo_env : senv := SEnv (Ok tt) (Ok tt) (Ok tt) 63_000_000_000_000_000.
Example C54_demo :
  let on acct := SOpts None (Some true) acct (Some false) (Some false) None None in
  st_use (snd (MStrategy.set_options 10 scfg_default 0 None (on true) demo_env demo_strat)) = Some true /\
  st_acc (snd (MStrategy.set_options 10 scfg_default 0 None (on true) demo_env demo_strat)) = Some 0%nat /\
  fst (MStrategy.set_options 10 scfg_default 0 None (on false) demo_env demo_strat) = GErr InvalidParam /\
  st_use (snd (MStrategy.set_options 10 scfg_default 0 None (on false) demo_env demo_strat)) = Some true.
Proof. vm_compute. repeat split. Qed.
