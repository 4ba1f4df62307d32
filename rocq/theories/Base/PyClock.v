(** The local clock of a machine whose zone has one fixed offset from UTC: the parts of
    Python's [time] and [datetime] modules behind time stamps in milliseconds.

    Library behaviour (CPython 3.11: Lib/datetime.py), not code of the package. *)
From Coq Require Import NArith ZArith List Bool SpecFloat.
From Verif Require Import Base.PyBase Base.PyDate Base.PyVal Base.PyFloat.
Import ListNotations.
Local Open Scope Z_scope.

(** [_ord2ymd]: year, month and day of a proleptic Gregorian ordinal. *)
Definition ord2ymd (ord : Z) : Z * Z * Z :=
  let n := ord - 1 in
  let n400 := n / 146097 in
  let n := n mod 146097 in
  let n100 := n / 36524 in
  let n := n mod 36524 in
  let n4 := n / 1461 in
  let n := n mod 1461 in
  let n1 := n / 365 in
  let n := n mod 365 in
  let year := n400 * 400 + 1 + n100 * 100 + n4 * 4 + n1 in
  if (n1 =? 4) || (n100 =? 4) then (year - 1, 12, 31)
  else
    let leap := (n1 =? 3) && (negb (n4 =? 24) || (n100 =? 3)) in
    let month := (n + 50) / 32 in
    let before m := nth (Z.to_nat (m - 1)) [0; 31; 59; 90; 120; 151; 181; 212; 243; 273; 304; 334] 0
                    + (if (2 <? m) && leap then 1 else 0) in
    let month := if before month >? n then month - 1 else month in
    (year, month, n - before month + 1).

(** Ordinals of 1970-01-01 and of 9999-12-31. *)
Definition epoch_day : Z := 719163.
Definition last_day : Z := 3652059.

(** The naive date-time with [w] seconds on the clock since the day with ordinal 0, and [u]
    microseconds; ValueError for years that do not exist.  [fromtimestamp] also looks at the
    clock of the day before, so that it fails on the first day of the year 1, too. *)
Definition clock_date (w u : Z) : res datetime :=
  let n := w / 86400 in
  let r := w mod 86400 in
  if (2 <=? n) && (n <=? last_day) then
    let '(y, m, d) := ord2ymd n in
    Ok (mk_dt y m d (r / 3600) (r / 60 mod 60) (r mod 60) u None)
  else Raise ValueError.

(** ** Doubles *)

(** The integer next to [a / b], for [0 < b]; the even one of two. *)
Definition round_even (a b : Z) : Z :=
  let q := a / b in
  let r := 2 * (a mod b) in
  if r <? b then q else if b <? r then q + 1 else if Z.even q then q else q + 1.

(** The double next to [a / b], for [0 < b] and a quotient below [2 ^ 53] that is not subnormal:
    [(m, k)] stands for [m / 2 ^ k], where [m] has 53 bits. *)
Definition double_of (a b : Z) : Z * Z :=
  let k := 52 - (Z.log2 (Z.abs a * 2 ^ 1074 / b) - 1074) in
  (round_even (a * 2 ^ k) b, k).

(** Seconds and microseconds of a double (_PyTime_DoubleToDenominator with ROUND_HALF_EVEN):
    [modf], and the product of its fraction with a million, which is rounded to a double and
    then to a whole number. *)
Definition seconds_of (d : Z * Z) : Z * Z :=
  let '(m, k) := d in
  let s := Z.quot m (2 ^ k) in
  let '(p, j) := double_of (Z.rem m (2 ^ k) * 1000000) (2 ^ k) in
  let u := round_even p (2 ^ j) in
  if 1000000 <=? u then (s + 1, u - 1000000)
  else if u <? 0 then (s - 1, u + 1000000)
  else (s, u).

(** [datetime.fromtimestamp] of the double next to [a / b], at [off] seconds from UTC. *)
Definition local_of (off a b : Z) : res datetime :=
  let '(s, u) := seconds_of (double_of a b) in
  clock_date (s + off + epoch_day * 86400) u.

(** [datetime.fromtimestamp(v / 1000.0)], where [clock a b] is [fromtimestamp] of the double next
    to [a / b]; larger numbers, and anything but numbers, are left open ([other]). *)
Definition from_thousandths (clock : Z -> Z -> res datetime) (other : pyval -> res datetime) (v : pyval) : res datetime :=
  match v with
  | PInt z => if Z.abs z <? 2 ^ 53 then clock z 1000 else other v
  | PBool b => clock (if b then 1 else 0) 1000
  | PFloat S754_nan => Raise ValueError
  | PFloat (S754_infinity _) => Raise OverflowError
  | PFloat (S754_zero _) => clock 0 1000
  | PFloat (S754_finite s m e) =>
      let a := (if s then Zneg m else Zpos m) * 2 ^ Z.max e 0 in
      let b := 1000 * 2 ^ Z.max (- e) 0 in
      if Z.abs a <? 2 ^ 53 * b then clock a b else other v
  | _ => other v
  end.

(** [time.mktime(d.timetuple())] in milliseconds: the time tuple has no microseconds, and
    [mktime] takes it for local time. *)
Definition ms_of_local (off : Z) (d : datetime) : Z :=
  (wall_us d / 1000000 - off - epoch_day * 86400) * 1000.
(** [t * 1000] for a float [t], given as a whole number of milliseconds; it is below [2 ^ 53]. *)
Definition ms_float (z : Z) : pyval := PFloat (f_norm z 0).
