(** What C65 and C66 say about order syncs, independent of [sync_one] and [notice_for]. *)
From Verif Require Import PyBase PyStr MOrder MAccount SAccount.
Open Scope Z_scope.

(** ** C65 *)

(** the report says nothing the book does not say *)
Definition no_news (a : acct) (i : oinfo) : Prop :=
  loadable i /\ exists o, recorded a (i_id i) o /\ agrees i o.
(** same book and log: no order object replaced, no notice given, nothing else touched *)
Definition unchanged (a b : acct) : Prop :=
  a_heap b = a_heap a /\ a_orders b = a_orders a /\ a_log b = a_log a /\
  a_long b = a_long a /\ a_short b = a_short a /\
  a_total b = a_total a /\ a_cash b = a_cash a /\ a_locked b = a_locked a.

(** ** C66 *)

(** order is done: nothing more will happen to it *)
Definition final_text (s : str) : bool :=
  existsb (str_eqb s) [lit "filled"; lit "partly_canceled"; lit "canceled"; lit "rejected"].
(** the notices that tell the end of an order, by its reported status *)
Definition final_notes (id : str) (log : list aevent) : list str :=
  flat_map (fun e => match e with
                     | EvNotice NFilled o | EvNotice NCanceled o | EvNotice NRejected o =>
                         if str_eqb (o_id o) id then [status_str (o_status o)] else []
                     | _ => []
                     end) log.
(** the statuses at which a sequence of statuses turns final, starting at [cur] *)
Fixpoint finishes (cur : str) (l : list str) : list str :=
  match l with
  | [] => []
  | x :: l' => (if final_text x && negb (final_text cur) then [x] else []) ++ finishes x l'
  end.
(** final once, final ever after *)
Definition never_back (l : list str) : Prop :=
  forall pre x post, l = pre ++ x :: post -> final_text x = true -> Forall (fun y => final_text y = true) post.

Section Run.
  Context {G : Type} (gt : gate G).
  (** the order reports of a history, one list per successful report *)
  Fixpoint reports (ops : list (aop (G := G))) (s : acct * G) : list (list oinfo) :=
    match ops with
    | [] => []
    | op :: ops' =>
        match op, fst (g_sync_orders gt (snd s)) with
        | ASyncOrd, Ok l => [l]
        | _, _ => []
        end ++ reports ops' (snd (a_step gt op s))
    end.
  (** the statuses reported for an order *)
  Definition heard (id : str) (ops : list (aop (G := G))) (s : acct * G) : list str :=
    map i_status (filter (fun i => str_eqb (i_id i) id) (concat (reports ops s))).
End Run.
(** no order is placed under this id *)
Definition not_placed {G} (id : str) (ops : list (aop (G := G))) : Prop :=
  Forall (fun op => match op with AOrder i _ _ _ _ _ => i <> id | _ => True end) ops.
