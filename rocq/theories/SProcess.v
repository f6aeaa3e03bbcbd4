(** Specification of task processes (C58-C60): when the functions given to run_daily are
    owed a call. *)
From Coq Require Import Permutation Sorted.
From Verif Require Import PyBase PyStr MTime MStrategy SEvent SExpr SWhen SStrategy.
Open Scope Z_scope.

(** "h:m" and "h:m:s", one or two digits each *)
Definition num2 (s : str) : Prop :=
  (length s = 1 \/ length s = 2)%nat /\ Forall (fun c => is_digit c = true) s.
Inductive clock_text : str -> Z -> Prop :=
| clock_hm h m : num2 h -> num2 m -> decimal h < 24 -> decimal m < 60 ->
    clock_text (h ++ lit ":" ++ m) ((decimal h * 3600 + decimal m * 60) * US)
| clock_hms h m s : num2 h -> num2 m -> num2 s -> decimal h < 24 -> decimal m < 60 -> decimal s < 60 ->
    clock_text (h ++ lit ":" ++ m ++ lit ":" ++ s) ((decimal h * 3600 + decimal m * 60 + decimal s) * US).

(** [owes ps t offs]: run_daily(f, t) asks for calls at these times of day (microseconds
    after midnight) when the market periods are [ps] *)
Inductive owes (ps : list (Z * Z)) : str -> list Z -> Prop :=
| owes_minutes ls : Forall2 (fun p l => steps MINUTE (fst p) (snd p) l) ps ls -> owes ps (lit "every_minute") (concat ls)
| owes_before : owes ps (lit "before_open") [opening ps - 30 * MINUTE]
| owes_after : owes ps (lit "after_close") [closing ps + 30 * MINUTE]
| owes_text t v : means (opening ps) (closing ps) t v -> owes ps t [v].

(** the instants owed on the days lo..hi, from [now] on: day after day, in order *)
Definition owed_on (now : Z) (offs : list Z) (lo hi : Z) (S : list Z) : Prop :=
  exists days ls, consecutive lo hi days /\
    Forall2 (fun d l => Permutation l (filter (fun t => now <=? t) (map (fun o => d * DAY + o) offs)) /\ StronglySorted Z.le l) days ls /\
    S = concat ls.

(** one list is a beginning of the other *)
Definition agree {A} (l S : list A) : Prop := exists t, S = l ++ t \/ l = S ++ t.

(** the calls of the k-th run_daily entry among the calls made *)
Definition calls_of (k : nat) (inv : list (Z * cb)) : list (Z * option obj) :=
  flat_map (fun x => match snd x with CbUser j o => if Nat.eqb j k then [(fst x, o)] else [] | _ => [] end) inv.

(** [sync_owes step ps now offs]: account sync every [step] asks for syncs at these times
    of day, all day from start-up at [now] on, or within the sync periods [ps] if given;
    fractions of a second are dropped *)
Definition whole (t : Z) : Z := t / US * US.
Inductive sync_owes (step : Z) : list (Z * Z) -> Z -> list Z -> Prop :=
| sync_all_day now l : steps step (whole (dt_time now) + step) (86399 * US) l -> sync_owes step [] now (map whole l)
| sync_periods p ps now ls : Forall2 (fun p l => steps step (fst p) (snd p) l) (p :: ps) ls ->
    sync_owes step (p :: ps) now (map whole (concat ls)).

(** the account calls among the calls made *)
Definition syncs_of (inv : list (Z * cb)) : list (Z * cb) :=
  filter (fun x => match snd x with CbUser _ _ => false | _ => true end) inv.
