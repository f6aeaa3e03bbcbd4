(** C30 over whole histories: what an account shows as money and positions. *)
From Verif Require Import PyBase PyStr MOrder MAccount SAccount.
Open Scope Z_scope.

Section Lived.
  Context {G : Type} (gt : gate G).
  (** a report with cash and positions *)
  Definition full (r : res binfo) (x : cash * list pinfo) : Prop :=
    exists b, r = Ok b /\ b_cash b = Some (fst x) /\ b_pos b = Some (snd x).
  (** the histories of an account, with its full reports, oldest first *)
  Inductive lived : acct -> list (cash * list pinfo) -> Prop :=
  | lv_new : lived acct_new []
  | lv_order a hs id now code n st sd g : lived a hs -> lived (snd (fst (acc_order gt id now code n st sd a g))) hs
  | lv_cancel a hs id g : lived a hs -> lived (fst (acc_cancel gt id a g)) hs
  | lv_orders a hs g : lived a hs -> lived (fst (acc_sync_orders gt a g)) hs
  | lv_full a hs g x : lived a hs -> full (fst (g_sync_balance gt g)) x -> lived (fst (acc_sync_balance gt a g)) (hs ++ [x])
  | lv_none a hs g : lived a hs -> (forall x, ~ full (fst (g_sync_balance gt g)) x) -> lived (fst (acc_sync_balance gt a g)) hs.
End Lived.

(** the last figure that was not zero; 0 if there was none *)
Definition quiet (fig : cash -> option Z) (x : cash * list pinfo) : Prop := fig (fst x) = None \/ fig (fst x) = Some 0.
Definition latest (fig : cash -> option Z) (hs : list (cash * list pinfo)) (z : Z) : Prop :=
  (z = 0 /\ Forall (quiet fig) hs) \/
  (exists h1 x h2, hs = h1 ++ x :: h2 /\ fig (fst x) = Some z /\ z <> 0 /\ Forall (quiet fig) h2).

(** a position as reported, apart from what is left to sell *)
Definition pos_like (p : pinfo) (q : position) : Prop :=
  p_side p = Some (side_str (ps_side q)) /\ p_code p = Some (ps_code q) /\ p_amount p = Some (ps_amount q) /\
  p_avg p = Some (ps_avg q) /\ p_last p = ps_last q /\ p_value p = ps_value q.
Definition map_like (sd : side) (l : list pinfo) (d : dict str position) : Prop :=
  forall code, match last_pos sd code l with
               | None => dget code d = None
               | Some p => exists q, dget code d = Some q /\ pos_like p q
               end.
(** the positions of a report before the first incomplete one *)
Definition good_part (l pre : list pinfo) : Prop :=
  Forall pos_complete pre /\ (l = pre \/ exists bad post, l = pre ++ bad :: post /\ ~ pos_complete bad).
