(** The XES date grammar, written down independently of the parser and the printer. *)
From Coq Require Import String NArith ZArith List Bool.
From Verif Require Import Base.PyBase Base.PyDate.
Import ListNotations.
Local Open Scope Z_scope.

Definition digit (n : Z) : N := Z.to_N (48 + n).
(** Two and four digits with leading zeros. *)
Definition two (n : Z) : pystr := [digit (n / 10); digit (n mod 10)].
Definition four (n : Z) : pystr := two (n / 100) ++ two (n mod 100).

(** Zone designators. *)
Inductive zone_text : Type :=
| ZNone                (* no designator *)
| ZZulu                (* Z *)
| ZPlus (h m : Z)      (* +hh:mm *)
| ZMinus (h m : Z).    (* -hh:mm *)

Definition zone_ok (z : zone_text) : Prop :=
  match z with
  | ZNone | ZZulu => True
  | ZPlus h m | ZMinus h m => 0 <= h <= 23 /\ 0 <= m <= 59
  end.

Definition write_zone (z : zone_text) : pystr :=
  match z with
  | ZNone => []
  | ZZulu => py "Z"
  | ZPlus h m => py "+" ++ two h ++ py ":" ++ two m
  | ZMinus h m => py "-" ++ two h ++ py ":" ++ two m
  end.

(** Offset from UTC in minutes. *)
Definition zone_minutes (z : zone_text) : Z :=
  match z with
  | ZNone | ZZulu => 0
  | ZPlus h m => 60 * h + m
  | ZMinus h m => - (60 * h + m)
  end.

(** A fraction of a second: no digits at all, or a point and one to six digits. *)
Definition frac_ok (ds : list Z) : Prop :=
  (length ds <= 6)%nat /\ Forall (fun d => 0 <= d <= 9) ds.
Definition write_frac (ds : list Z) : pystr :=
  match ds with [] => [] | _ => py "." ++ map digit ds end.
(** Its value in microseconds. *)
Fixpoint frac_us (w : Z) (ds : list Z) : Z :=
  match ds with [] => 0 | d :: t => d * w + frac_us (w / 10) t end.
Definition frac_micros (ds : list Z) : Z := frac_us 100000 ds.

(** YYYY-MM-DDThh:mm:ss[.f][zone] *)
Definition write_date (y m d h i s : Z) (frac : list Z) (z : zone_text) : pystr :=
  four y ++ py "-" ++ two m ++ py "-" ++ two d ++ py "T"
  ++ two h ++ py ":" ++ two i ++ py ":" ++ two s ++ write_frac frac ++ write_zone z.

(** Truncation to milliseconds, with a naive date-time read as UTC. *)
Definition to_millis (d : datetime) : datetime :=
  mk_dt (yr d) (mo d) (dy d) (hh d) (mi d) (ss d) (us d / 1000 * 1000)
    (Some (match tz d with Some z => z | None => mk_tz 0 None end)).

(** Date-times whose zone is absent or an unnamed whole-minute offset. *)
Definition minute_zone (d : datetime) : Prop :=
  match tz d with
  | None => True
  | Some z => tz_given_name z = None /\ exists k, tz_off z = k * 60000000
  end.
