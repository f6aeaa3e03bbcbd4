(** jqtrade/common/utils.py:57-62 with float arithmetic as Python does it; MTime.v has the
    same functions in exact arithmetic. *)
From Verif Require Import PyBase PyFloat MTime.
Open Scope Z_scope.

(** datetime.timestamp() of a naive datetime: the seconds (an int) plus microsecond / 1e6 *)
Definition f_timestamp (tz dt : Z) : float :=
  f_add (f_of_int ((dt - tz) / US)) (f_div_int (dt mod US) US).

(** utils.py:57-58  [int(dt.timestamp() * 1000 + dt.microsecond / 1000)] *)
Definition f_dt_to_milliseconds (tz dt : Z) : Z :=
  f_int (f_add (f_mul (f_timestamp tz dt) (f_of_int 1000)) (f_div_int (dt mod US) 1000)).

(** datetime.fromtimestamp(t) (CPython, _PyTime_DoubleToDenominator): the fractional part in
    microseconds, rounded half to even.  A carry of a whole second is the same number of
    microseconds. *)
Definition f_fromtimestamp (tz : Z) (t : float) : Z :=
  f_int t * US + f_round (f_mul (f_frac t) (f_of_int US)) + tz.

(** utils.py:61-62  [datetime.datetime.fromtimestamp(milliseconds / 1000.)]; the int is below
    2^53, so that it is itself a float *)
Definition f_milliseconds_to_dt (tz ms : Z) : Z := f_fromtimestamp tz (f_div_int ms 1000).
