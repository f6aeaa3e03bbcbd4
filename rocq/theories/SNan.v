(** What C113 means by its words: the cash figures that the balance files gave. *)
From Verif Require Import PyBase PyStr MOrder MAccount MGate MBalance MCsv MFolio MNan.
Open Scope Z_scope.

Section Said.
  Context {F : Type} (pnum pyfloat : str -> option F) (trunc : F -> option Z) (round4 round3 : F -> Z) (minus : F -> F -> F) (acct : str).
  (** a pair of files that could be read gave the figure [x] (None: left blank) *)
  Definition gave (get : bcash -> option Z) (files : option str * option str) (x : option Z) : Prop :=
    exists c ps, sync_balance_q pnum pyfloat trunc round4 round3 minus acct (fst files) (snd files) = Ok (Some c, ps) /\ get c = x.
  (** what is shown after the files [fs]: the figure given last, where a given 0 does not count;
      0 if there is none *)
  Inductive shown_cash (get : bcash -> option Z) : list (option str * option str) -> fig -> Prop :=
  | sc_none fs : (forall f x, In f fs -> gave get f x -> x = Some 0) -> shown_cash get fs (Num 0)
  | sc_number before f after z : gave get f (Some z) -> z <> 0 -> (forall g x, In g after -> gave get g x -> x = Some 0) ->
      shown_cash get (before ++ f :: after) (Num z)
  | sc_blank before f after : gave get f None -> (forall g x, In g after -> gave get g x -> x = Some 0) ->
      shown_cash get (before ++ f :: after) NaN.
End Said.
