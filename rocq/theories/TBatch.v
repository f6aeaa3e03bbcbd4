(** C127: batches with elements that are no orders. *)
From Coq Require Import String.
From Verif Require Import PyBase PyStr MTime MOrder MAccount MApi MBatch SAccount TAccount.
Open Scope list_scope.
Open Scope Z_scope.

(** [places rs w ids w']: the requests [rs], one after the other, each placed as order()
    places it, with the ids returned; None for one that fails or lacks code or amount *)
Inductive places (udigit : N -> bool) {G} (gt : gate G) : list (str * Z * req) -> world G -> list (option str) -> world G -> Prop :=
| pl_none w : places udigit gt [] w [] w
| pl_ok id now c n st sd rs w r w1 ids w2 : api_order udigit gt id now c n st sd w = (Ok r, w1) -> places udigit gt rs w1 ids w2 ->
    places udigit gt ((id, now, Req (Some c) (Some n) st sd) :: rs) w (r :: ids) w2
| pl_fail id now c n st sd rs w x w1 ids w2 : api_order udigit gt id now c n st sd w = (Err x, w1) -> places udigit gt rs w1 ids w2 ->
    places udigit gt ((id, now, Req (Some c) (Some n) st sd) :: rs) w (None :: ids) w2
| pl_lacks id now q rs w ids w2 : r_code q = None \/ r_amount q = None -> places udigit gt rs w ids w2 ->
    places udigit gt ((id, now, q) :: rs) w (None :: ids) w2.

(** the elements of these requests *)
Definition dicts (rs : list (str * Z * req)) : list (str * Z * element) := map (fun r => (fst r, EDict (snd r))) rs.

Section Proofs.
  Context (udigit : N -> bool) {G : Type} (gt : gate G).

  Lemma one_places id now q rs w ids w2 :
    (let '(r, w1) := batch_one udigit gt id now q w in places udigit gt rs w1 ids w2) ->
    places udigit gt ((id, now, q) :: rs) w (fst (batch_one udigit gt id now q w) :: ids) w2.
  Proof.
    destruct q as [c n st sd]. unfold batch_one. cbn [r_code r_amount r_style r_side].
    destruct c as [c|]; [|intros H; apply pl_lacks; [left; reflexivity|exact H]].
    destruct n as [n|]; [|intros H; apply pl_lacks; [right; reflexivity|exact H]].
    destruct (api_order udigit gt id now c n st sd w) as [[r|x] w1] eqn:E; cbn [fst]; intros H; [eapply pl_ok|eapply pl_fail]; eassumption.
  Qed.

  Lemma places_one id now q rs w ids w2 : places udigit gt ((id, now, q) :: rs) w ids w2 ->
    exists ids', ids = fst (batch_one udigit gt id now q w) :: ids' /\ places udigit gt rs (snd (batch_one udigit gt id now q w)) ids' w2.
  Proof.
    intros H. inversion H as [|? ? c n st sd ? ? r w1 ids' ? Ho Hr|? ? c n st sd ? ? x w1 ids' ? Ho Hr|? ? ? ? ? ids' ? Hn Hr]; subst; unfold batch_one; cbn [r_code r_amount r_style r_side].
    - rewrite Ho. cbn [fst snd]. eauto.
    - rewrite Ho. cbn [fst snd]. eauto.
    - exists ids'. destruct Hn as [Hn|Hn]; rewrite Hn; [|destruct (r_code q)]; cbn [fst snd]; auto.
  Qed.

  Lemma places_loop rs : forall w ids w1 es stop acc, places udigit gt rs w ids w1 ->
    batch_loop udigit gt (dicts rs ++ es) stop acc w = batch_loop udigit gt es stop (acc ++ ids) w1.
  Proof.
    induction rs as [|[[id now] q] rs IH]; intros w ids w1 es stop acc H.
    - inversion H; subst. rewrite app_nil_r. reflexivity.
    - apply places_one in H as (ids' & -> & H). cbn [dicts map app batch_loop fst snd].
      destruct (batch_one udigit gt id now q w) as [r w']. cbn [fst snd] in *. fold (dicts rs). rewrite (IH _ _ _ es stop (acc ++ [r]) H), <- app_assoc. reflexivity.
  Qed.

  Lemma loop_places es : forall stop acc w, exists rs ids w1, places udigit gt rs w ids w1 /\
    ((es = dicts rs /\ batch_loop udigit gt es stop acc w = (match stop with None => Ok (acc ++ ids) | Some x => Err x end, w1)) \/
     (exists id now x rest, es = dicts rs ++ (id, now, ENone x) :: rest /\ batch_loop udigit gt es stop acc w = (Err x, w1))).
  Proof.
    induction es as [|[[id now] [q|x]] es IH]; intros stop acc w.
    - exists [], [], w. split; [constructor|]. left. split; [reflexivity|]. cbn [batch_loop]. rewrite app_nil_r. destruct stop; reflexivity.
    - cbn [batch_loop]. destruct (batch_one udigit gt id now q w) as [r w0] eqn:E.
      destruct (IH stop (acc ++ [r]) w0) as (rs & ids & w1 & H & D).
      exists ((id, now, q) :: rs), (r :: ids), w1. split.
      + replace r with (fst (batch_one udigit gt id now q w)) by (rewrite E; reflexivity). apply one_places. rewrite E. exact H.
      + destruct D as [[-> D]|(id' & now' & x & rest & -> & D)].
        * left. split; [reflexivity|]. rewrite D, <- app_assoc. reflexivity.
        * right. exists id', now', x, rest. split; [reflexivity|exact D].
    - exists [], [], w. split; [constructor|]. right. exists id, now, x, es. split; reflexivity.
  Qed.
End Proofs.

(** It returns exactly if the argument can be iterated to its end and all elements are
    dicts: then the ids of the orders placed, request by request. *)
Theorem C127_returns :
  forall udigit G (gt : gate G) a w ids w',
    batch_any udigit gt a w = (Ok ids, w') <-> exists rs, a = BIter (dicts rs) None /\ places udigit gt rs w ids w'.
Proof.
  intros udigit G gt a w ids w'. split.
  - destruct a as [es stop|]; cbn [batch_any]; [|discriminate]. intros H.
    destruct (loop_places udigit gt es stop [] w) as (rs & ids1 & w1 & Hp & [[-> D]|(id & now & x & rest & -> & D)]); rewrite D in H; [|discriminate].
    destruct stop; [discriminate|]. cbn [app] in H. injection H as -> ->. exists rs. auto.
  - intros (rs & -> & Hp). cbn [batch_any]. pose proof (places_loop udigit gt rs w ids w' [] None [] Hp) as E. rewrite app_nil_r in E. rewrite E. reflexivity.
Qed.
Print Assumptions C127_returns.

(** Otherwise it raises what the iteration or the element's get() raised.  The requests
    before that were placed, as they always are; those after it were not. *)
Theorem C127_raises :
  forall udigit G (gt : gate G) a w x w',
    batch_any udigit gt a w = (Err x, w') <->
    (a = BNot /\ x = TypeError /\ w' = w) \/
    exists rs ids, places udigit gt rs w ids w' /\
      (a = BIter (dicts rs) (Some x) \/ exists id now rest stop, a = BIter (dicts rs ++ (id, now, ENone x) :: rest) stop).
Proof.
  intros udigit G gt a w x w'. split.
  - destruct a as [es stop|]; cbn [batch_any]; intros H; [right|left; injection H as <- <-; auto].
    destruct (loop_places udigit gt es stop [] w) as (rs & ids1 & w1 & Hp & [[-> D]|(id & now & y & rest & -> & D)]); rewrite D in H.
    + destruct stop as [y|]; [|discriminate]. injection H as -> ->. exists rs, ids1. auto.
    + injection H as -> ->. exists rs, ids1. split; [exact Hp|]. right. eauto.
  - intros [(-> & -> & ->)|(rs & ids & Hp & [->|(id & now & rest & stop & ->)])]; cbn [batch_any]; [reflexivity| |].
    + pose proof (places_loop udigit gt rs w ids w' [] (Some x) [] Hp) as E. rewrite app_nil_r in E. rewrite E. reflexivity.
    + rewrite (places_loop udigit gt rs w ids w' _ stop [] Hp). reflexivity.
Qed.
Print Assumptions C127_raises.

(** On dicts alone this is the batch of C24. *)
Theorem C127_dicts :
  forall udigit G (gt : gate G) rs w,
    batch_any udigit gt (BIter (dicts rs) None) w = (Ok (fst (batch_submit udigit gt rs w)), snd (batch_submit udigit gt rs w)).
Proof.
  intros udigit G gt rs w. cbn [batch_any].
  assert (H : forall rs w acc, batch_loop udigit gt (dicts rs) None acc w = (Ok (acc ++ fst (batch_submit udigit gt rs w)), snd (batch_submit udigit gt rs w))).
  { induction rs0 as [|[[id now] q] rs0 IH]; intros w0 acc; cbn [dicts map batch_loop batch_submit fst snd]; [rewrite app_nil_r; reflexivity|].
    destruct (batch_one udigit gt id now q w0) as [r w1]. fold (dicts rs0). rewrite IH. destruct (batch_submit udigit gt rs0 w1) as [l w2]. cbn [fst snd]. rewrite <- app_assoc. reflexivity. }
  apply H.
Qed.
Print Assumptions C127_dicts.

(** a dict of orders instead of a list (its keys are strings); and a list with None in the
    middle: the order before it is placed, but its id is not returned *)
Definition b_req (c : string) : req := Req (Some (CStr (lit c))) (Some (AInt 100)) StFalsy SdFalsy.
Example C127_demo :
  batch_any no_udigit demo (BIter [(lit "7", 1, ENone AttributeError)] None) demo_w0 = (Err AttributeError, demo_w0) /\
  (let '(r, w) := batch_any no_udigit demo (BIter [(lit "7", 1, EDict (b_req "600000.XSHG")); (lit "8", 2, ENone AttributeError); (lit "9", 3, EDict (b_req "000002.XSHE"))] None) demo_w0 in
   (r, map o_id (dg_got (w_gate w)), option_map (fun a => dkeys (a_orders a)) (w_acc w))) = (Err AttributeError, [lit "7"], Some [lit "7"]) /\
  places no_udigit demo [(lit "7", 1, b_req "600000.XSHG"); (lit "8", 2, Req None (Some (AInt 1)) StFalsy SdFalsy)] demo_w0 [Some (lit "7"); None]
    (snd (batch_any no_udigit demo (BIter [(lit "7", 1, EDict (b_req "600000.XSHG"))] None) demo_w0)).
Proof.
  split; [reflexivity|]. split; [vm_compute; reflexivity|].
  eapply pl_ok; [vm_compute; reflexivity|]. apply pl_lacks; [left; reflexivity|]. vm_compute. constructor.
Qed.
