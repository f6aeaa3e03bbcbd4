(** C122 for files with quoted fields: when a written file is accepted. *)
From Coq Require Import String.
From Verif Require Import PyBase PyStr MOrder MAccount MGate MBalance PyCsv MCsv SCsv TCsv.
Open Scope list_scope.

(** a record as it is read: missing fields are None, and absent ones too *)
Definition read_as (n : nat) (r : list str) : list (option str) :=
  map (fun f => if is_na f then None else Some f) r ++ repeat None (n - List.length r).
Lemma rows_iff n ls : forall rs, trows n ls = Ok rs <-> Forall (fun r => (List.length r <= n)%nat) ls /\ rs = map (read_as n) ls.
Proof.
  induction ls as [|l ls IH]; intro rs; cbn [trows map].
  - split; [intro H; apply Ok_inj in H; subst; split; [constructor|reflexivity]|intros [_ ->]; reflexivity].
  - unfold trow. destruct (Nat.ltb_spec n (List.length l)) as [W|W]; cbn [rbind].
    + split; [discriminate|]. intros [F _]. inversion F; subst. exfalso. lia.
    + split.
      * destruct (trows n ls) as [rs'|]; [|discriminate]. cbn [rbind]. intro H. apply Ok_inj in H. subst rs.
        destruct (proj1 (IH rs') eq_refl) as [F ->]. split; [constructor; assumption|reflexivity].
      * intros [F ->]. inversion F; subst. rewrite (proj2 (IH _) (conj H2 eq_refl)). reflexivity.
Qed.
Lemma none_iff n r : forallb is_none (read_as n r) = true <-> Forall (fun f => is_na f = true) r.
Proof.
  unfold read_as. rewrite forallb_app, andb_true_iff. assert (R : forall k, forallb is_none (repeat (@None str) k) = true) by (induction k; [reflexivity|exact IHk]).
  rewrite R. clear R. induction r as [|f r IH]; cbn [map forallb]; [split; auto|]. rewrite andb_true_iff. split.
  - intros [[H1 H2] _]. constructor; [destruct (is_na f); [reflexivity|discriminate]|]. apply IH. auto.
  - intro H. inversion H as [|? ? H1 H2]; subst. rewrite H1. apply IH in H2. tauto.
Qed.
(** A written file is accepted exactly if it has a header, no record is wider than it and the
    fields of the last record are all missing; what is read are the records, each filled up to
    the width of the header. *)
Theorem C122_written : forall all ts df, Forall2 record_text all ts ->
  (read_csv_q (Some (concat ts)) = Ok df <->
   exists head rows last, all = head :: rows ++ [last] /\ Forall (fun r => (List.length r <= List.length head)%nat) (rows ++ [last]) /\
     Forall (fun f => is_na f = true) last /\ df = Frame head (map (read_as (List.length head)) (rows ++ [last]))).
Proof.
  intros all ts df HF. unfold read_csv_q, pd_read. rewrite (C116_roundtrip all ts HF). cbn [rbind]. destruct all as [|head ls].
  - cbn [rbind]. split; [discriminate|]. intros (h & rows & last & E & _). discriminate.
  - destruct (trows (List.length head) ls) as [rs|x] eqn:Er; cbn [rbind fr_rows].
    + apply rows_iff in Er as [W ->]. destruct ls as [|last rows _] using rev_ind; cbn [map rev].
      * split; [discriminate|]. intros (h & rows & last & E & _). injection E as _ E. destruct rows; discriminate.
      * rewrite map_app, rev_app_distr. cbn [map rev app]. destruct (forallb is_none (read_as (List.length head) last)) eqn:En.
        -- apply none_iff in En. split.
           ++ intro H. apply Ok_inj in H. subst df. exists head, rows, last. rewrite map_app. repeat split; assumption.
           ++ intros (h & rows' & last' & E & _ & _ & ->). injection E as <- E. apply app_inj_tail in E as [<- <-]. rewrite map_app. reflexivity.
        -- split; [discriminate|]. intros (h & rows' & last' & E & _ & N & _). injection E as <- E. apply app_inj_tail in E as [<- <-].
           apply (none_iff (List.length head)) in N. congruence.
    + split; [discriminate|]. intros (h & rows & last & E & W & _). injection E as -> ->. rewrite (proj2 (rows_iff _ _ _) (conj W eq_refl)) in Er. discriminate.
Qed.
Print Assumptions C122_written.

(** a name with a comma between quotes, a short last record; and the same file without it *)
Definition csv_head : str := lit "acct,name" ++ [13; 10]%N.
Definition csv_row1 : str := lit "8888," ++ [34%N] ++ lit "A,B" ++ [34; 10]%N.
Definition csv_last : str := lit "nan" ++ [10%N].
Example C122_written_demo :
  Forall2 record_text [[lit "acct"; lit "name"]; [lit "8888"; lit "A,B"]; [lit "nan"]] [csv_head; csv_row1; csv_last] /\
  read_csv_q (Some (csv_head ++ csv_row1 ++ csv_last)) = Ok (Frame [lit "acct"; lit "name"] [[Some (lit "8888"); Some (lit "A,B")]; [None; None]]) /\
  read_csv_q (Some (csv_head ++ csv_row1)) = Err OSError.
Proof.
  assert (P : forall f, Forall (fun c => c <> 10 /\ c <> 13 /\ c <> 44)%N f -> hd_error f <> Some 34%N -> field_text f f) by (intros f A B; constructor; split; assumption).
  split; [|split; vm_compute; reflexivity]. constructor; [|constructor; [|constructor; [|constructor]]].
  - apply (rec_text [lit "acct"; lit "name"] [lit "acct"; lit "name"] [13; 10]%N); [discriminate| |right; reflexivity|vm_compute; reflexivity].
    constructor; [|constructor; [|constructor]]; apply P; try discriminate; vm_compute; repeat constructor; discriminate.
  - apply (rec_text [lit "8888"; lit "A,B"] [lit "8888"; [34%N] ++ lit "A,B" ++ [34%N]] [10%N]); [discriminate| |left; reflexivity|vm_compute; reflexivity].
    constructor; [|constructor; [|constructor]]; [apply P; try discriminate; vm_compute; repeat constructor; discriminate|apply (text_quoted (lit "A,B"))].
  - apply (rec_text [lit "nan"] [lit "nan"] [10%N]); [discriminate| |left; reflexivity|vm_compute; reflexivity].
    constructor; [|constructor]. apply P; try discriminate; vm_compute; repeat constructor; discriminate.
Qed.
