(** Model of the task [do_order] of the strategy with which README.md introduces the package
    (README.md:49-86). *)
From Verif Require Import PyBase PyStr MOrder MAccount MApi MDemo.
Open Scope Z_scope.

(** README.md:75-80: the two codes and the two entries of the dict [g] *)
Definition code1 : str := lit "000001.XSHE".
Definition code2 : str := lit "000002.XSHE".
Definition key1 : str := lit "order_id_000001".
Definition key2 : str := lit "order_id_000002".

Section Readme.
  Context (udigit : N -> bool) {G : Type} (gt : gate G).

  (** README.md:82-86: the loop over the items; the key is passed to [cancel_order] *)
  Fixpoint items_loop (items : dict str nat) (w : world G) : res unit * world G :=
    match items with
    | [] => (Ok tt, w)
    | (k, r) :: items' =>
        if now_waits w r then
          match api_cancel gt k w with
          | (Ok _, w') => items_loop items' w'
          | (Err e, w') => (Err e, w')
          end
        else items_loop items' w
    end.

  (** README.md:75-77: the value of [g] and the world after the first part *)
  Definition sell_part (id : str) (now : Z) (g : dict str (option str)) (w : world G) : res (dict str (option str)) * world G :=
    match api_portfolio (fun a => Ok (fst (view_get Long code1 (long_view a)))) w with
    | Err e => (Err e, w)
    | Ok pos =>
        if 0 <? ps_avail pos then
          match api_order udigit gt id now (CStr code1) (AInt (- ps_avail pos)) (StStyle (Limit (PNum (lit "10")))) (SdStr (lit "long")) w with
          | (Ok r, w') => (Ok (dset key1 r g), w')
          | (Err e, w') => (Err e, w')
          end
        else (Ok g, w)
    end.
  (** README.md:79-80 *)
  Definition buy_part (id : str) (now : Z) (g : dict str (option str)) (w : world G) : res (dict str (option str)) * world G :=
    match api_portfolio (fun a => Ok (dmem code2 (long_view a))) w with
    | Err e => (Err e, w)
    | Ok true => (Ok g, w)
    | Ok false =>
        match api_order udigit gt id now (CStr code2) (AInt 100) (StStyle (Market (PNum (lit "0")))) (SdStr (lit "long")) w with
        | (Ok r, w') => (Ok (dset key2 r g), w')
        | (Err e, w') => (Err e, w')
        end
    end.
  (** README.md:72-86 [do_order]; [i1], [i2]: the ids drawn for its two orders, [n1], [n2] the
      times.  The log lines are left out (C74). *)
  Definition do_order (i1 i2 : str) (n1 n2 : Z) (g : dict str (option str)) (w : world G) : res (dict str (option str)) * world G :=
    match sell_part i1 n1 g w with
    | (Err e, w1) => (Err e, w1)
    | (Ok g1, w1) =>
        match buy_part i2 n2 g1 w1 with
        | (Err e, w2) => (Err e, w2)
        | (Ok g2, w2) =>
            match api_get_orders udigit None None FsFalsy w2 with
            | Err e => (Err e, w2)
            | Ok d => match items_loop d w2 with
                      | (Ok _, w3) => (Ok g2, w3)
                      | (Err e, w3) => (Err e, w3)
                      end
            end
        end
    end.
  (** one run after another, each with its ids and times *)
  Fixpoint minutes (l : list (str * str * Z * Z)) (g : dict str (option str)) (w : world G) : res (dict str (option str)) * world G :=
    match l with
    | [] => (Ok g, w)
    | (i1, i2, n1, n2) :: l' =>
        match do_order i1 i2 n1 n2 g w with
        | (Ok g', w') => minutes l' g' w'
        | (Err e, w') => (Err e, w')
        end
    end.
End Readme.
