(** Date-times: the parts of Python's [datetime] module that the package uses.

    Library behaviour (CPython 3.11: Lib/datetime.py, Lib/_strptime.py), not code
    of the package. *)
From Coq Require Import String NArith ZArith List Bool.
From Verif Require Import Base.Unicode Base.PyBase.
Import ListNotations.
Local Open Scope Z_scope.

(** A [tzinfo] as far as it matters for one date-time: its UTC offset in
    microseconds and, for zones with an explicit name, the result of [tzname()].
    [datetime.timezone(delta)] has no explicit name. *)
Record tzone : Type := mk_tz { tz_off : Z; tz_given_name : option pystr }.

(** [datetime.datetime]; [tz = None] is a naive date-time. *)
Record datetime : Type := mk_dt {
  yr : Z; mo : Z; dy : Z; hh : Z; mi : Z; ss : Z; us : Z;
  tz : option tzone
}.

Definition is_leap (y : Z) : bool :=
  (y mod 4 =? 0) && (negb (y mod 100 =? 0) || (y mod 400 =? 0)).

Definition days_in_month (y m : Z) : Z :=
  if m =? 2 then (if is_leap y then 29 else 28)
  else if (m =? 4) || (m =? 6) || (m =? 9) || (m =? 11) then 30
  else 31.

(** The range checks of the [datetime] constructor. *)
Definition valid_fields (y m d h mi_ s u : Z) : bool :=
  (1 <=? y) && (y <=? 9999) && (1 <=? m) && (m <=? 12)
  && (1 <=? d) && (d <=? days_in_month y m)
  && (0 <=? h) && (h <=? 23) && (0 <=? mi_) && (mi_ <=? 59)
  && (0 <=? s) && (s <=? 59) && (0 <=? u) && (u <=? 999999).

Definition day_us : Z := 86400000000.
Definition minute_us : Z := 60000000.

Definition valid_tz (z : tzone) : bool :=
  (- day_us <? tz_off z) && (tz_off z <? day_us).

Definition valid_dt (d : datetime) : bool :=
  valid_fields (yr d) (mo d) (dy d) (hh d) (mi d) (ss d) (us d)
  && match tz d with None => true | Some z => valid_tz z end.

(** Proleptic Gregorian ordinal ([date.toordinal]). *)
Definition days_before_year (y : Z) : Z :=
  let p := y - 1 in p * 365 + p / 4 - p / 100 + p / 400.

Definition days_before_month (y m : Z) : Z :=
  let base := nth (Z.to_nat (m - 1))
    [0; 31; 59; 90; 120; 151; 181; 212; 243; 273; 304; 334] 0 in
  base + (if (2 <? m) && is_leap y then 1 else 0).

Definition ordinal (y m d : Z) : Z := days_before_year y + days_before_month y m + d.

(** Microseconds of the wall-clock reading. *)
Definition wall_us (d : datetime) : Z :=
  ((((ordinal (yr d) (mo d) (dy d)) * 24 + hh d) * 60 + mi d) * 60 + ss d) * 1000000 + us d.

(** The instant denoted by an aware date-time (UTC); for a naive one, its wall-clock
    reading. *)
Definition instant (d : datetime) : Z :=
  match tz d with
  | None => wall_us d
  | Some z => wall_us d - tz_off z
  end.

Definition is_aware (d : datetime) : bool :=
  match tz d with None => false | Some _ => true end.

(** [a == b]: an aware and a naive date-time are never equal.  (Python compares
    naive date-times field by field; on valid dates this is comparison of [wall_us].) *)
Definition dt_eqb (a b : datetime) : bool :=
  Bool.eqb (is_aware a) (is_aware b) && (instant a =? instant b).

(** [a < b], [a > b], ...: TypeError for an aware and a naive date-time. *)
Definition dt_cmp (a b : datetime) : res comparison :=
  if Bool.eqb (is_aware a) (is_aware b) then Ok (instant a ?= instant b)
  else Raise TypeError.

(** [tzname()] of [datetime.timezone]: "UTC" for offset zero, otherwise
    "UTC+hh:mm[:ss[.ffffff]]". *)
Definition p2 (z : Z) : pystr := pad0 2 (print_Z z).
Definition tz_name (z : tzone) : pystr :=
  match tz_given_name z with
  | Some n => n
  | None =>
      if tz_off z =? 0 then py "UTC"
      else
        let a := Z.abs (tz_off z) in
        let h := a / 3600000000 in
        let m := (a / minute_us) mod 60 in
        let s := (a / 1000000) mod 60 in
        let u := a mod 1000000 in
        py "UTC" ++ (if tz_off z <? 0 then py "-" else py "+")
          ++ p2 h ++ py ":" ++ p2 m
          ++ (if (s =? 0) && (u =? 0) then []
              else py ":" ++ p2 s
                   ++ (if u =? 0 then [] else py "." ++ pad0 6 (print_Z u)))
  end.

(** ** [datetime.strptime] for the two formats used by the package *)

(** Regular-expression matching with backtracking: all matches, in the order in
    which the regular-expression engine tries them. *)
Definition matcher (A : Type) : Type := pystr -> list (A * pystr).

Definition m_ret {A} (a : A) : matcher A := fun s => [(a, s)].
Definition m_bind {A B} (p : matcher A) (k : A -> matcher B) : matcher B :=
  fun s => flat_map (fun '(a, r) => k a r) (p s).
Definition m_alt {A} (p q : matcher A) : matcher A := fun s => p s ++ q s.
Definition m_char (f : N -> bool) : matcher N := fun s =>
  match s with
  | c :: t => if f c then [(c, t)] else []
  | [] => []
  end.

Definition in_range (a b c : N) : bool := ((a <=? c) && (c <=? b))%N.
(** [\d]: any Unicode decimal digit. *)
Definition is_decimal (c : N) : bool :=
  match decimal_value c with Some _ => true | None => false end.
Definition dval (c : N) : Z :=
  match decimal_value c with Some d => Z.of_N d | None => 0 end.

Definition m_one (f : N -> bool) : matcher Z :=
  m_bind (m_char f) (fun a => m_ret (dval a)).
Definition m_two (f g : N -> bool) : matcher Z :=
  m_bind (m_char f) (fun a => m_bind (m_char g) (fun b => m_ret (10 * dval a + dval b))).

(** %Y  \d\d\d\d *)
Definition m_year : matcher Z :=
  m_bind (m_two is_decimal is_decimal) (fun a =>
  m_bind (m_two is_decimal is_decimal) (fun b => m_ret (100 * a + b))).
(** %m  1[0-2]|0[1-9]|[1-9] *)
Definition m_month : matcher Z :=
  m_alt (m_two (N.eqb 49) (in_range 48 50))
  (m_alt (m_two (N.eqb 48) (in_range 49 57)) (m_one (in_range 49 57))).
(** %d  3[0-1]|[1-2]\d|0[1-9]|[1-9]| [1-9] *)
Definition m_day : matcher Z :=
  m_alt (m_two (N.eqb 51) (in_range 48 49))
  (m_alt (m_two (in_range 49 50) is_decimal)
  (m_alt (m_two (N.eqb 48) (in_range 49 57))
  (m_alt (m_one (in_range 49 57))
         (m_bind (m_char (N.eqb 32)) (fun _ => m_one (in_range 49 57)))))).
(** %H  2[0-3]|[0-1]\d|\d *)
Definition m_hour : matcher Z :=
  m_alt (m_two (N.eqb 50) (in_range 48 51))
  (m_alt (m_two (in_range 48 49) is_decimal) (m_one is_decimal)).
(** %M  [0-5]\d|\d *)
Definition m_minute : matcher Z :=
  m_alt (m_two (in_range 48 53) is_decimal) (m_one is_decimal).
(** %S  6[0-1]|[0-5]\d|\d *)
Definition m_second : matcher Z :=
  m_alt (m_two (N.eqb 54) (in_range 48 49))
  (m_alt (m_two (in_range 48 53) is_decimal) (m_one is_decimal)).
(** %f  [0-9]{1,6}, greedy; the digits are padded on the right to six. *)
Fixpoint m_digits (n : nat) (acc : Z) : matcher Z :=
  match n with
  | O => m_ret acc
  | S k => m_alt
      (m_bind (m_char (in_range 48 57)) (fun c => m_digits k (acc * 10 + dval c)))
      (m_ret (acc * 10 ^ Z.of_nat n))
  end.
Definition m_fraction : matcher Z :=
  m_bind (m_char (in_range 48 57)) (fun c => m_digits 5 (dval c)).

Definition m_lit (c : N) : matcher N := m_char (N.eqb c).
(** The letter T, matched case-insensitively. *)
Definition m_T : matcher N := m_char (fun c => (c =? 84) || (c =? 116))%N.

Definition m_date : matcher (Z * Z * Z * Z * Z * Z) :=
  m_bind m_year (fun y => m_bind (m_lit 45) (fun _ =>
  m_bind m_month (fun m => m_bind (m_lit 45) (fun _ =>
  m_bind m_day (fun d => m_bind m_T (fun _ =>
  m_bind m_hour (fun h => m_bind (m_lit 58) (fun _ =>
  m_bind m_minute (fun i => m_bind (m_lit 58) (fun _ =>
  m_bind m_second (fun s => m_ret (y, m, d, h, i, s)))))))))))).

(** "%Y-%m-%dT%H:%M:%S" *)
Definition m_fmt_plain : matcher (Z * Z * Z * Z * Z * Z * Z) :=
  m_bind m_date (fun '(y, m, d, h, i, s) => m_ret (y, m, d, h, i, s, 0)).
(** "%Y-%m-%dT%H:%M:%S.%f" *)
Definition m_fmt_frac : matcher (Z * Z * Z * Z * Z * Z * Z) :=
  m_bind m_date (fun '(y, m, d, h, i, s) =>
  m_bind (m_lit 46) (fun _ => m_bind m_fraction (fun f => m_ret (y, m, d, h, i, s, f)))).

(** [datetime.strptime(s, fmt)]: the first match must consume the whole text and
    the fields must be in range; [None] stands for ValueError. *)
Definition strptime (fmt : matcher (Z * Z * Z * Z * Z * Z * Z)) (s : pystr) : option datetime :=
  match fmt s with
  | ((y, m, d, h, i, sec, u), []) :: _ =>
      if valid_fields y m d h i sec u then Some (mk_dt y m d h i sec u None) else None
  | _ => None
  end.

(** [timezone(timedelta(minutes=m, hours=h))] *)
Definition mk_timezone (h m : Z) : res tzone :=
  let total := h * 60 + m in
  let days := total / 1440 in
  if (days <? -999999999) || (999999999 <? days) then Raise OverflowError
  else if (- 1440 <? total) && (total <? 1440) then Ok (mk_tz (total * minute_us) None)
  else Raise ValueError.
