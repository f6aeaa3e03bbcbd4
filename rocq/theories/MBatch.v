(** Model of batch_submit_orders for any argument (jqtrade/account/api.py). *)
From Verif Require Import PyBase PyStr MTime MOrder MAccount MApi.
Open Scope Z_scope.

(** one element of the argument: a dict; or an object whose [get] is missing or raises
    (a string, a number, None: AttributeError) *)
Inductive element := EDict (q : req) | ENone (x : exn).

(** the argument: an iterable, which may raise after its last element; or an object that
    cannot be iterated *)
Inductive batch_arg := BIter (es : list (str * Z * element)) (stop : option exn) | BNot.

Section Batch.
  Context (udigit : N -> bool) {G : Type} (gt : gate G).

  (** lines 137-157: the loop; lines 139-142 are outside the try statement *)
  Fixpoint batch_loop (es : list (str * Z * element)) (stop : option exn) (ids : list (option str)) (w : world G)
    : res (list (option str)) * world G :=
    match es with
    | [] => match stop with None => (Ok ids, w) | Some x => (Err x, w) end
    | (id, now, EDict q) :: es' =>
        let '(r, w1) := batch_one udigit gt id now q w in
        batch_loop es' stop (ids ++ [r]) w1
    | (_, _, ENone x) :: _ => (Err x, w)
    end.

  (** lines 124-157 [batch_submit_orders] *)
  Definition batch_any (a : batch_arg) (w : world G) : res (list (option str)) * world G :=
    match a with
    | BIter es stop => batch_loop es stop [] w
    | BNot => (Err TypeError, w)
    end.
End Batch.
