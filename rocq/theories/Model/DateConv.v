(** Parsing of XES time stamps: /repo/src/opyenxes/utils/XsDateTimeConversion.py. *)
From Coq Require Import String NArith ZArith List Bool.
From Verif Require Import Base.PyBase Base.PyDate.
Import ListNotations.
Local Open Scope Z_scope.

(** Separation of the zone suffix: XsDateTimeConversion.py:14-28.  The result is
    [(value, relative_zone)]. *)
Definition split_zone (s : pystr) : pystr * pystr :=
  if mem_char 90 s then                                     (* "Z" in value *)
    (replace (py "Z") [] s, py "Z")
  else if mem_char 43 s then                                (* "+" in value *)
    (before_char 43 s, from_char 43 s)
  else
    let r := rev s in
    if mem_char 45 (firstn 7 r) then                        (* "-" in value[::-1][:7] *)
      (* relative_zone = r[:r.index("-")+1]; value = r[r.index("-")+1:], both reversed *)
      (rev (skipn 1 (from_char 45 r)), rev (before_char 45 r ++ py "-"))
    else (s, []).

(** Hours and minutes of the zone: XsDateTimeConversion.py:30-36 and the [int] calls of
    line 43.  [None] stands for ValueError.  [minute] is negated when the hours carry a
    minus sign.  (int(minute) is evaluated at line 33 for a negative zone and at line
    43 otherwise; both give ValueError, which is caught.) *)
Definition zone_numbers (z : pystr) : option (Z * Z) :=
  if str_eqb z (py "Z") || str_eqb z [] then Some (0, 0)
  else match split (py ":") z with
       | [hours; minute] =>
           match py_int 10 minute, py_int 10 hours with
           | Some m, Some h => Some (h, if mem_char 45 hours then m * -1 else m)
           | _, _ => None
           end
       | _ => None
       end.

(** parse_date_time: XsDateTimeConversion.py:4-47.  [Ok None] is the result None (after
    a caught ValueError); OverflowError of [timedelta] is not caught. *)
Definition parse_date_time (s : pystr) : res (option datetime) :=
  let (value, zone) := split_zone s in
  match zone_numbers zone with
  | None => Ok None
  | Some (h, m) =>
      let fmt := if mem_char 46 value then m_fmt_frac else m_fmt_plain in
      match strptime fmt value with
      | None => Ok None
      | Some t =>
          match mk_timezone h m with
          | Ok z => Ok (Some (mk_dt (yr t) (mo t) (dy t) (hh t) (mi t) (ss t) (us t) (Some z)))
          | Raise ValueError => Ok None
          | Raise e => Raise e
          end
      end
  end.
