(** Property C83: time stamps as milliseconds. *)
From Coq Require Import String NArith ZArith List Bool SpecFloat.
From Verif Require Import Base.PyBase Base.PyDate Base.PyClock Base.PyVal Model.Attr Model.StdExt Model.RandomLog Model.Millis
  Spec.Setters Spec.Duration Spec.Millis Proofs.LifecycleFacts Proofs.ClockFacts Proofs.FloatStamps.
Import ListNotations.
Local Open Scope Z_scope.

(** C83.  The value set is the naive local date-time of the number, exact for whole seconds and
    up to the year 2242, and else at most 15 microseconds off; the number read from it has lost
    its milliseconds. *)
Theorem C83_set_get : forall off other z, offset_ok off -> in_years off z ->
  exists d e v, @stamp_set_millis (fixed_clock off other) (PInt z) = Ok (Some d) /\ valid_dt d = true /\ tz d = None
    /\ wall_us d = (z + (off + epoch_day * 86400) * 1000) * 1000 + e /\ -15 <= e <= 15
    /\ (z mod 1000 = 0 \/ Z.abs z < 1000 * 2 ^ 33 -> e = 0)
    /\ @stamp_millis (fixed_clock off other) (Some d) = Ok v /\ whole_float v (z - z mod 1000).
Proof. exact set_millis_value. Qed.
Print Assumptions C83_set_get.
(** C83.  Outside of the years 1 to 9999, and on the first day of the year 1, ValueError is
    raised. *)
Theorem C83_outside : forall off other, offset_ok off ->
  (forall z, Z.abs z < 2 ^ 53 -> ~ in_years off z -> @stamp_set_millis (fixed_clock off other) (PInt z) = Raise ValueError)
  /\ (forall f a, amount f a -> 1000 * 2 ^ 38 * smallest <= Z.abs a < 1000 * 2 ^ 53 * smallest ->
       @stamp_set_millis (fixed_clock off other) (PFloat f) = Raise ValueError).
Proof. intros off other O. split; [intros z; exact (set_millis_outside off other z O)|intros f a; exact (set_float_outside off other f a O)]. Qed.
Print Assumptions C83_outside.

(** C83.  The number read from a date-time, set again, gives its reading of the clock, without
    microseconds and without time zone; but for the first day of the year 1 it raises
    ValueError. *)
Theorem C83_get_set : forall off other d, offset_ok off -> valid_dt d = true ->
  exists v z, @stamp_millis (fixed_clock off other) (Some d) = Ok v /\ whole_float v (z * 1000)
    /\ (~ on_first_day d -> @stamp_set_millis (fixed_clock off other) v = Ok (Some (clock_reading d)))
    /\ (on_first_day d -> @stamp_set_millis (fixed_clock off other) v = Raise ValueError).
Proof. exact millis_back. Qed.
Print Assumptions C83_get_set.

(** C83.  A float that is a whole number is set like this number, and True and False like 1 and
    0; an infinity raises OverflowError and NaN ValueError. *)
Theorem C83_floats : forall off other v,
  (forall z, whole_float v z -> Z.abs z < 2 ^ 53 ->
     @stamp_set_millis (fixed_clock off other) v = @stamp_set_millis (fixed_clock off other) (PInt z))
  /\ (forall b : bool, v = PBool b ->
     @stamp_set_millis (fixed_clock off other) v = @stamp_set_millis (fixed_clock off other) (PInt (if b then 1 else 0)))
  /\ (forall s, v = PFloat (S754_infinity s) -> @stamp_set_millis (fixed_clock off other) v = Raise OverflowError)
  /\ (v = PFloat S754_nan -> @stamp_set_millis (fixed_clock off other) v = Raise ValueError).
Proof. intros off other v. split; [exact (set_float off other v)|]. split; [intros b ->; now destruct b|]. split; [intros s| ]; now intros ->. Qed.
Print Assumptions C83_floats.

(** C83.  Any other float gives a date-time less than 16 microseconds from it, less than one below
    2^33 seconds, or ValueError outside of the years.  ([a] is the float in units of the smallest
    double, [w] are microseconds.) *)
Theorem C83_any_float : forall off other f a, amount f a -> Z.abs a < 1000 * 2 ^ 38 * smallest ->
  exists w, Z.abs (w * smallest - 1000 * a) < 16 * smallest
    /\ (Z.abs a < 1000 * 2 ^ 33 * smallest -> Z.abs (w * smallest - 1000 * a) < smallest)
    /\ (in_years off (w / 1000) -> exists d, @stamp_set_millis (fixed_clock off other) (PFloat f) = Ok (Some d)
          /\ valid_dt d = true /\ tz d = None /\ wall_us d = w + (off + epoch_day * 86400) * 1000000)
    /\ (~ in_years off (w / 1000) -> @stamp_set_millis (fixed_clock off other) (PFloat f) = Raise ValueError).
Proof. exact set_any_float. Qed.
Print Assumptions C83_any_float.
(** C83.  So a float that is no whole number may be rounded up to the next second. *)
Theorem C83_rounded_down_refuted : exists off other f a d v z, amount f a /\ Z.abs a < 1000 * 2 ^ 33 * smallest
  /\ @stamp_set_millis (fixed_clock off other) (PFloat f) = Ok (Some d)
  /\ @stamp_millis (fixed_clock off other) (Some d) = Ok v /\ whole_float v z /\ a < z * smallest.
Proof.
  exists 0, (fun _ => Raise ValueError), (S754_finite false 8796093022207999 (-43)), (8796093022207999 * 2 ^ 1031),
    (mk_dt 1970 1 1 0 0 1 0 None), (ms_float 1000), 1000.
  split; [vm_compute; auto|]. split; [vm_compute; reflexivity|]. split; [vm_compute; reflexivity|]. split; [vm_compute; reflexivity|].
  split; [eexists; split; [reflexivity|vm_compute; auto]|vm_compute; reflexivity].
Qed.
Print Assumptions C83_rounded_down_refuted.

(** C83.  The number of a naive date-time is its instant, taken for local time; *)
Theorem C83_naive : forall off other d v, offset_ok off -> valid_dt d = true -> tz d = None ->
  @stamp_millis (fixed_clock off other) (Some d) = Ok v -> whole_float v (instant_ms off d).
Proof. exact millis_naive. Qed.
Print Assumptions C83_naive.
(** C83.  that of a date-time with a time zone is its instant only in the local time zone. *)
Theorem C83_aware : forall off other d v t, offset_ok off -> valid_dt d = true -> tz d = Some t -> tz_off t mod 1000000 = 0 ->
  @stamp_millis (fixed_clock off other) (Some d) = Ok v ->
  (whole_float v (instant_ms off d) <-> tz_off t = off * 1000000).
Proof. exact millis_zone. Qed.
Print Assumptions C83_aware.

(** C83.  An attribute made from a number has that number, rounded down to a second; on
    Windows it is never before 2 January 1970. *)
Theorem C83_made : forall off other (windows : bool) z, offset_ok off ->
  (let z' := if windows then Z.max z 86400000 else z in
  in_years off z' -> exists s v, @stamp_init (fixed_clock off other) windows (PInt z) = Ok s
    /\ @stamp_millis (fixed_clock off other) s = Ok v /\ whole_float v (z' - z' mod 1000)).
Proof. exact init_millis. Qed.
Print Assumptions C83_made.
(** C83.  One made from anything else but a date-time, a whole number or a boolean has no value:
    asking for it raises AttributeError. *)
Theorem C83_other : forall (C : Clock) (windows : bool) v,
  (forall d, v <> PDate d) -> (forall z, v <> PInt z) -> (forall b, v <> PBool b) ->
  exists s, stamp_init windows v = Ok s /\ stamp_value s = Raise AttributeError /\ stamp_millis s = Raise AttributeError.
Proof. exact @init_other. Qed.
Print Assumptions C83_other.

(** C83.  One made from a date-time has this date-time; True and False count as 1 and 0. *)
Theorem C83_kinds : forall (C : Clock) (windows : bool),
  (forall d, exists s, stamp_init windows (PDate d) = Ok s /\ stamp_value s = Ok d) /\
  (forall b : bool, stamp_init windows (PBool b) = stamp_init windows (PInt (if b then 1 else 0))).
Proof. intros C windows. split; [intros d; now exists (Some d) | intros b; reflexivity]. Qed.
Print Assumptions C83_kinds.

(** C83.  With such a clock the time stamp setter of C52 works for every date-time but those of
    the first day. *)
Theorem C83_assign : forall off other d m, offset_ok off -> valid_dt d = true ->
  (~ on_first_day d -> exists m', @assign_timestamp (fixed_clock off other) (PDate d) m = Ok m'
    /\ extract_timestamp m' = Ok (PDate (clock_reading d))
    /\ only_at (py "time:timestamp") m m')
  /\ (on_first_day d -> @assign_timestamp (fixed_clock off other) (PDate d) m = Raise ValueError).
Proof.
  intros off other d m U V. split; intros N; [apply timestamp_date; now apply reads_back_all|now apply assign_first].
Qed.
Print Assumptions C83_assign.

(** An hour east of UTC. *)
Definition berlin : Clock := fixed_clock 3600 (fun _ => Raise OverflowError).
Definition leap_day : datetime := mk_dt 2020 2 29 23 59 58 765432 (Some (mk_tz 3600000000 None)).

Example C83_example :
  offset_ok 3600 /\ whole_float (ms_float (-1500)) (-1500) /\ in_years 3600 1583017198765
  /\ @stamp_set_millis berlin (PInt 1583017198765) = Ok (Some (mk_dt 2020 2 29 23 59 58 765000 None))
  /\ @stamp_set_millis berlin (PInt 253402297199999) = Ok (Some (mk_dt 9999 12 31 23 59 59 998993 None))
  /\ @stamp_set_millis berlin (PInt 253402297200000) = Raise ValueError
  /\ @stamp_set_millis berlin (PInt (-62135514000000)) = Ok (Some (mk_dt 1 1 2 0 0 0 0 None))
  /\ @stamp_set_millis berlin (PInt (-62135514000001)) = Raise ValueError
  /\ valid_dt leap_day = true
  /\ @stamp_millis berlin (Some leap_day) = Ok (ms_float 1583017198000)
  /\ instant_ms 3600 leap_day = 1583017198000
  /\ @stamp_set_millis berlin (ms_float 1583017198000) = Ok (Some (mk_dt 2020 2 29 23 59 58 0 None))
  /\ @stamp_init berlin true (PInt 5) = Ok (Some (mk_dt 1970 1 2 1 0 0 0 None))
  /\ @stamp_init berlin false (PInt (-1)) = Ok (Some (mk_dt 1970 1 1 0 59 59 999000 None))
  /\ @stamp_init berlin false (PStr (py "1970")) = Ok None.
Proof.
  split; [vm_compute; split; reflexivity|]. split; [apply float_whole; reflexivity|].
  split; [vm_compute; split; [discriminate|reflexivity]|]. repeat split; vm_compute; reflexivity.
Qed.
