(** Specification of a priority queue (property C01): a bag of (key, item)
    pairs, no data structure. *)
From Coq Require Import Permutation.
From Verif Require Import PyBase MQueue.

(** the order on keys, spelled out: earlier time, else higher priority (smaller
    negated priority), else older *)
Definition key_lt (a b : skey) : Prop :=
  (k_time a < k_time b)%Z \/
  (k_time a = k_time b /\ (k_nprio a < k_nprio b)%Z) \/
  (k_time a = k_time b /\ k_nprio a = k_nprio b /\ (k_seq a < k_seq b)%Z).

Section S.
  Context {I : Type}.
  Definition bag := list (skey * I).

  Definition minimal (k : skey) (b : bag) : Prop :=
    forall k' x', In (k', x') b -> ~ key_lt k' k.

  (** [spec_step b op out b']: the bag changes from b to b' (as multisets) and
      the call answers [out]. *)
  Inductive spec_step : bag -> qop I -> qout I -> bag -> Prop :=
  | sp_push b b' x k : Permutation b' ((k, x) :: b) -> spec_step b (QPush x k) OUnit b'
  | sp_pop b b' x k :
      In (k, x) b -> minimal k b -> Permutation b ((k, x) :: b') ->
      spec_step b QPop (OItem (Ok x)) b'
  | sp_pop_empty : spec_step [] QPop (OItem (Err QueueEmptyError)) []
  | sp_top b b' x k :
      In (k, x) b -> minimal k b -> Permutation b b' ->
      spec_step b QTop (OItem (Ok x)) b'
  | sp_top_empty : spec_step [] QTop (OItem (Err QueueEmptyError)) []
  | sp_empty b b' : Permutation b b' -> spec_step b QEmpty (OBool (Nat.eqb (length b) 0)) b'.

  (** a whole history of calls *)
  Inductive spec_run : bag -> list (qop I) -> list (qout I) -> bag -> Prop :=
  | sr_nil b : spec_run b [] [] b
  | sr_cons b1 b2 b3 op out ops outs :
      spec_step b1 op out b2 -> spec_run b2 ops outs b3 ->
      spec_run b1 (op :: ops) (out :: outs) b3.
End S.
