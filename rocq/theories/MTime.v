(** Time representation and jqtrade/common/utils.py:57-62.
    A naive local datetime is the number of microseconds since 1970-01-01 00:00
    local time; a date is the number of days since then; a time of day is in
    microseconds since midnight.  The zone has one fixed UTC offset [tz] (in
    microseconds), MZone.v treats offsets that change; the year range 1..9999 is not
    modelled. *)
From Verif Require Import PyBase.
Open Scope Z_scope.

Definition US : Z := 1000000.              (* microseconds per second *)
Definition DAY : Z := 86400000000.         (* microseconds per day *)

(** datetime.date() / datetime.combine(day, time) *)
Definition dt_date (dt : Z) : Z := dt / DAY.
Definition dt_time (dt : Z) : Z := dt mod DAY.
Definition combine (day tod : Z) : Z := day * DAY + tod.

(** datetime.time(h, m, s): ValueError outside the ranges *)
Definition mk_time (h m s : Z) : res Z :=
  if (0 <=? h) && (h <? 24) && (0 <=? m) && (m <? 60) && (0 <=? s) && (s <? 60)
  then Ok ((h * 3600 + m * 60 + s) * US) else Err ValueError.

(** utils.py:57-58  [int(dt.timestamp() * 1000 + dt.microsecond / 1000)].
    Simplification: the float arithmetic is exact; int() truncates toward zero. *)
Definition dt_to_milliseconds (tz dt : Z) : Z :=
  Z.quot ((dt - tz) + (dt mod US)) 1000.

(** utils.py:61-62  [datetime.fromtimestamp(milliseconds / 1000.)], exact *)
Definition milliseconds_to_dt (tz ms : Z) : Z := ms * 1000 + tz.
