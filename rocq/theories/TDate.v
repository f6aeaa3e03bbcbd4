(** C67: the timestamps of reports and save files.  As statements about the code these are
    limited to ASCII texts whose only white space is one blank: [parse_dt] simplifies what
    strptime does with others (MDate.v). *)
From Coq Require Import String.
From Verif Require Import PyBase PyStr MTime MDate SDate LDate LDate2.
Open Scope list_scope.
Open Scope Z_scope.

(** A text is read as the time it denotes; a text that denotes none raises ValueError. *)
Theorem C67_read : forall s t, parse_dt s = Ok t <-> dt_text s t.
Proof. exact parse_dt_iff. Qed.
Print Assumptions C67_read.
Theorem C67_error : forall s e, parse_dt s = Err e <-> (forall t, ~ dt_text s t) /\ e = ValueError.
Proof.
  intros s e. split.
  - intro H. split; [intros t D; apply parse_dt_iff in D; congruence|eapply parse_dt_err, H].
  - intros [H ->]. destruct (parse_dt s) as [t|e] eqn:E; [apply parse_dt_iff in E; destruct (H t E)|].
    f_equal. eapply parse_dt_err, E.
Qed.
Print Assumptions C67_error.
(** The meaning is unique. *)
Theorem C67_unique : forall s t t', dt_text s t -> dt_text s t' -> t = t'.
Proof. intros s t t' H H'. apply parse_dt_iff in H, H'. congruence. Qed.
Print Assumptions C67_unique.
(** What the code writes denotes the written time, to the microsecond. *)
Theorem C67_written : forall t, date_ok (dt_date t) -> dt_text (fmt_dt t) t.
Proof. intros t H. apply parse_dt_iff, parse_fmt_dt, H. Qed.
Print Assumptions C67_written.
Example C67_demo :
  parse_dt (lit "2024-02-29 9:05:07.25") = Ok 1709197507250000 /\
  parse_dt (lit "2023-02-29 09:05:07") = Err ValueError /\
  parse_dt (lit "2024-02-29T09:05:07") = Err ValueError /\
  fmt_dt 1709197507250000 = lit "2024-02-29 09:05:07.250000" /\
  date_ok (dt_date 1709197507250000) /\ dt_text (lit "2024-02-29 9:05:07.25") 1709197507250000.
Proof.
  split; [reflexivity|]. split; [reflexivity|]. split; [reflexivity|]. split; [reflexivity|].
  split; [vm_compute; split; discriminate|]. apply parse_dt_iff. reflexivity.
Qed.
