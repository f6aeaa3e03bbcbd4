(** C160: texts and numbers that a JSON file can hold. *)
From Verif Require Import PyBase PyStr MOrder.

(** a str of code points in which no high surrogate stands before a low one *)
Definition apart (s : str) : Prop :=
  forall a c c' b, s = a ++ c :: c' :: b -> ~ (55296 <= c <= 56319 /\ 56320 <= c' <= 57343)%N.
Definition text (s : str) : Prop := Forall (fun c => (c <= 1114111)%N) s /\ apart s.

(** the numbers of JSON *)
Definition dig (c : N) : Prop := (48 <= c <= 57)%N.
Definition int_part (s : str) : Prop := s = [48%N] \/ exists d ds, s = d :: ds /\ (49 <= d <= 57)%N /\ Forall dig ds.
Definition frac_part (s : str) : Prop := s = [] \/ exists ds, s = 46%N :: ds /\ ds <> [] /\ Forall dig ds.
Definition exp_part (s : str) : Prop :=
  s = [] \/ exists e sg ds, s = e :: sg ++ ds /\ (e = 101 \/ e = 69)%N /\ (sg = [] \/ sg = [45%N] \/ sg = [43%N]) /\ ds <> [] /\ Forall dig ds.
Definition number (s : str) : Prop :=
  exists sg i f e, s = sg ++ i ++ f ++ e /\ (sg = [] \/ sg = [45%N]) /\ int_part i /\ frac_part f /\ exp_part e.

Definition opt {A} (P : A -> Prop) (x : option A) : Prop := match x with Some a => P a | None => True end.
(** an order's texts are texts, its price is one json.dump can write *)
Record fine (i : oinfo) : Prop := Fine {
  f_code : text (i_code i); f_action : text (i_action i); f_id : text (i_id i); f_status : text (i_status i);
  f_style : text (i_style i); f_create : text (i_create i); f_entrust : opt text (i_entrust i); f_side : opt text (i_side i);
  f_confirm : opt text (i_confirm i); f_err : opt text (i_err i);
  f_price : match i_price i with PNum s => number s | PTxt s => text s | PBad _ => False end
}.
