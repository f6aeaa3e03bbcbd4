(** jqtrade/common/utils.py:57-62 in a zone whose UTC offset changes (daylight saving time);
    MTime.v has one fixed offset.  Times as there: a naive local datetime is the number of
    microseconds since 1970-01-01 00:00 local time.
    Simplifications: float arithmetic is exact; offsets in whole seconds. *)
From Verif Require Import PyBase MTime.
Open Scope Z_scope.

Section Zone.
  (** the zone: what time.localtime adds to each UTC second *)
  Context (off : Z -> Z).

  Definition localtime (u : Z) : Z := u + off u.

  (** 24 * 3600, CPython's max_fold_seconds *)
  Definition MAX_FOLD : Z := 86400.

  (** CPython, datetime._mktime / local_to_seconds: the UTC second of a naive local second
      with fold = 0 *)
  Definition mktime (t : Z) : Z :=
    let a := localtime t - t in
    let u1 := t - a in
    let t1 := localtime u1 in
    let b := if t1 =? t then localtime (u1 - MAX_FOLD) - (u1 - MAX_FOLD) else t1 - u1 in
    if (t1 =? t) && (a =? b) then u1
    else
      let u2 := t - b in
      if localtime u2 =? t then u2
      else if t1 =? t then u1
      else Z.max u1 u2.

  (** datetime.timestamp() in microseconds *)
  Definition z_timestamp (dt : Z) : Z := mktime (dt / US) * US + dt mod US.
  (** utils.py:57-58 *)
  Definition z_dt_to_ms (dt : Z) : Z := Z.quot (z_timestamp dt + dt mod US) 1000.
  (** datetime.fromtimestamp() and datetime.now() at [us] microseconds since the epoch *)
  Definition z_clock (us : Z) : Z := localtime (us / US) * US + us mod US.
  (** utils.py:61-62 *)
  Definition z_ms_to_dt (ms : Z) : Z := z_clock (ms * 1000).
End Zone.
