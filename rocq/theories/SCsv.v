(** Specification of written csv files (C89). *)
From Verif Require Import PyBase PyStr MGate MBalance.
Open Scope N_scope.

(** a field that may be written as it is *)
Definition plain (f : str) : Prop :=
  Forall (fun c => c <> 10 /\ c <> 13 /\ c <> 44) f /\ hd_error f <> Some 34.
(** ... or between quotes, with its quotes doubled *)
Fixpoint doubled (f : str) : str :=
  match f with [] => [] | c :: f' => if c =? 34 then 34 :: 34 :: doubled f' else c :: doubled f' end.
Inductive field_text : str -> str -> Prop :=
| text_plain f : plain f -> field_text f f
| text_quoted f : field_text f (34 :: doubled f ++ [34]).

Fixpoint commas (ws : list str) : str :=
  match ws with [] => [] | [w] => w | w :: ws' => w ++ 44 :: commas ws' end.
(** a record: its fields with commas between them and an end of line; not a blank line *)
Inductive record_text : list str -> str -> Prop :=
| rec_text fs ws eol : fs <> [] -> Forall2 field_text fs ws -> (eol = [10] \/ eol = [13; 10]) ->
    blank_line (commas ws) = false -> record_text fs (commas ws ++ eol).
