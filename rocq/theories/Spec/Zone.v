(** Vocabulary for clocks that change. *)
From Coq Require Import ZArith List Bool.
From Verif Require Import Base.PyBase Base.PyDate Base.PyClock.
Local Open Scope Z_scope.

(** Less than a day from UTC at every instant. *)
Definition zone_ok (off : Z -> Z) : Prop := forall t, -86400 < off t < 86400.

(** The C library finds an instant with the reading of the clock, if there is one. *)
Definition inverts (off mk : Z -> Z) : Prop :=
  forall t w, t + off t = w -> mk w + off (mk w) = w.

(** The reading [w] of the clock is some days away from the ends of the years 1 to 9999. *)
Definition within_years (w : Z) : Prop :=
  5 * 86400 <= w + epoch_day * 86400 < (last_day - 3) * 86400.

(** The clock shows the date-time, to the second, at some instant. *)
Definition shown (off : Z -> Z) (d : datetime) : Prop :=
  exists t, t + off t = wall_us d / 1000000 - epoch_day * 86400.
