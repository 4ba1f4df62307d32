(** Vocabulary for statements about milliseconds. *)
From Coq Require Import ZArith List Bool.
From Verif Require Import Base.PyBase Base.PyVal Base.PyDate Base.PyClock Spec.Duration.
Local Open Scope Z_scope.

(** Less than a day. *)
Definition offset_ok (off : Z) : Prop := -86400 < off < 86400.

(** The local date of the instant exists, from the year 1 to the year 9999, and that of the day
    before, too. *)
Definition in_years (off z : Z) : Prop :=
  2 * 86400 <= z / 1000 + off + epoch_day * 86400 < (last_day + 1) * 86400.

Definition on_first_day (d : datetime) : Prop := yr d = 1 /\ mo d = 1 /\ dy d = 1.

(** The instant of a date-time in milliseconds since 1970 in UTC, rounded down to a second; a
    naive one is on the local clock. *)
Definition instant_ms (off : Z) (d : datetime) : Z :=
  match tz d with
  | None => (instant d / 1000000 - off - epoch_day * 86400) * 1000
  | Some _ => (instant d / 1000000 - epoch_day * 86400) * 1000
  end.

(** A float whose value is the whole number [z]. *)
Definition whole_float (v : pyval) (z : Z) : Prop := exists f, v = PFloat f /\ amount f (z * smallest).
