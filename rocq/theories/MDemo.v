(** Model of the functions of the example strategies that cancel orders
    (tests/demo/demo_order.py, tests/demo/demo_batch_order.py). *)
From Verif Require Import PyBase PyStr MTime MOrder MAccount MApi.
Open Scope Z_scope.

Section Demo.
  Context (udigit : N -> bool) {G : Type} (gt : gate G).

  (** demo_order.py:109 and demo_batch_order.py:57: [_order.status in ("new", "open")]; the
      status is read from the Order object at that moment (jqtrade/account/api.py:192-194) *)
  Definition waits (a : acct) (r : nat) : bool :=
    match deref a r with
    | Some o => let s := status_str (o_status o) in str_eqb s (lit "new") || str_eqb s (lit "open")
    | None => false
    end.
  Definition now_waits (w : world G) (r : nat) : bool := match w_acc w with Some a => waits a r | None => false end.

  (** demo_order.py:108-110: the loop over the orders; [_order.order_id] is the id kept in the
      Order object *)
  Fixpoint cancel_loop (refs : list nat) (w : world G) : res unit * world G :=
    match refs with
    | [] => (Ok tt, w)
    | r :: refs' =>
        if now_waits w r then
          match w_acc w with
          | Some a => match deref a r with
                      | Some o => match api_cancel gt (o_id o) w with
                                  | (Ok _, w') => cancel_loop refs' w'
                                  | (Err e, w') => (Err e, w')
                                  end
                      | None => cancel_loop refs' w
                      end
          | None => cancel_loop refs' w
          end
        else cancel_loop refs' w
    end.
  (** demo_order.py:106-110 [cancel_open_orders] *)
  Definition cancel_open_orders (w : world G) : res unit * world G :=
    match api_get_orders udigit None None FsFalsy w with
    | Err e => (Err e, w)
    | Ok d => cancel_loop (dvals d) w
    end.

  (** demo_batch_order.py:52-60 [do_cancel] *)
  Definition batch_do_cancel (w : world G) : res unit * world G :=
    match api_get_orders udigit None None FsFalsy w with
    | Err e => (Err e, w)
    | Ok d => batch_cancel gt (map fst (filter (fun kr => now_waits w (snd kr)) d)) w
    end.

  (** demo_order.py:47-60 [do_order], then [do_cancel]: [cancel_order] gets what [order]
      returned, and [str(None)] is "None" *)
  Definition order_then_cancel (id : str) (now : Z) (c : carg) (n : aarg) (st : starg) (sd : sdarg) (w : world G) : res unit * world G :=
    match api_order udigit gt id now c n st sd w with
    | (Err e, w1) => (Err e, w1)
    | (Ok r, w1) => api_cancel gt (match r with Some i => i | None => lit "None" end) w1
    end.
End Demo.
