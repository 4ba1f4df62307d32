(** The local clock of a machine whose zone changes its offset from UTC: what
    [datetime.fromtimestamp] and [time.mktime] do with the offsets of the zone.

    Library behaviour (CPython 3.11: Modules/_datetimemodule.c), not code of the package. *)
From Coq Require Import NArith ZArith List Bool.
From Verif Require Import Base.PyBase Base.PyDate Base.PyClock.
Import ListNotations.
Local Open Scope Z_scope.

(** [off t]: the offset in seconds at [t] seconds since 1970 in UTC. *)
Definition reading (off : Z -> Z) (t : Z) : Z := t + off t.

Definition day_of (off : Z -> Z) (t : Z) : Z := (reading off t + epoch_day * 86400) / 86400.

(** [fromtimestamp] asks for the clock at the instant, a day before, and, if the offset has
    decreased since then, at the instant the change would be the other way; ValueError if one of
    them is outside of the years 1 to 9999.  (It does so to find the [fold] of the date-time,
    which is left out: neither [timetuple] nor comparisons of naive date-times look at it.) *)
Definition probes (off : Z -> Z) (s : Z) : list Z :=
  let change := off s - off (s - 86400) in
  [s; s - 86400] ++ (if change <? 0 then [s + change] else []).

(** [datetime.fromtimestamp] of the double next to [a / b]. *)
Definition zone_of (off : Z -> Z) (a b : Z) : res datetime :=
  let '(s, u) := seconds_of (double_of a b) in
  if forallb (fun t => (1 <=? day_of off t) && (day_of off t <=? last_day)) (probes off s) then
    let '(y, m, d) := ord2ymd (day_of off s) in
    let r := (reading off s + epoch_day * 86400) mod 86400 in
    Ok (mk_dt y m d (r / 3600) (r / 60 mod 60) (r mod 60) u None)
  else Raise ValueError.

(** [time.mktime(d.timetuple())] in milliseconds, where [mk] is [mktime] of the C library: it gets the
    seconds on the clock. *)
Definition ms_of_zone (mk : Z -> Z) (d : datetime) : Z :=
  mk (wall_us d / 1000000 - epoch_day * 86400) * 1000.
