(** Properties C05-C07: text form of time stamps. *)
From Coq Require Import String NArith ZArith List Bool.
From Verif Require Import Base.PyBase Base.PyDate Model.Attr Model.DateConv Spec.DateText Proofs.DateFacts.
Import ListNotations.
Local Open Scope Z_scope.

(** C05.  Printing a time stamp and parsing the text gives the time stamp truncated to
    milliseconds (a naive one read as UTC). *)
Theorem C05_timestamp_roundtrip : forall d, valid_dt d = true -> minute_zone d ->
  parse_date_time (timestamp_str d) = Ok (Some (to_millis d)).
Proof. exact parse_timestamp_str. Qed.
Print Assumptions C05_timestamp_roundtrip.

(** C05.  So the instant moves back by less than a millisecond and never forward. *)
Theorem C05_instant_within_a_millisecond : forall d, valid_dt d = true -> minute_zone d ->
  exists d', parse_date_time (timestamp_str d) = Ok (Some d')
  /\ instant d - 1000 < instant d' <= instant d.
Proof.
  exact (fun d V M => ex_intro _ (to_millis d) (conj (parse_timestamp_str d V M) (to_millis_instant d V))).
Qed.
Print Assumptions C05_instant_within_a_millisecond.

Example C05_example :
  let d := mk_dt 987 2 28 23 59 59 123999 (Some (mk_tz (-5400000000) None)) in
  valid_dt d = true /\ minute_zone d
  /\ timestamp_str d = py "0987-02-28T23:59:59.123-01:30"
  /\ to_millis d = mk_dt 987 2 28 23 59 59 123000 (Some (mk_tz (-5400000000) None)).
Proof. cbv zeta. repeat split; try reflexivity. exists (-90). reflexivity. Qed.

(** C05, limits: a zone with a name of its own, or an offset with seconds, is printed in a
    form that is not read back. *)
Theorem C05_other_zones_refuted : exists d1 d2,
  valid_dt d1 = true /\ valid_dt d2 = true
  /\ tz d1 = Some (mk_tz 3600000000 (Some (py "CET"))) /\ tz d2 = Some (mk_tz 1000000 None)
  /\ parse_date_time (timestamp_str d1) = Ok None
  /\ parse_date_time (timestamp_str d2) = Ok None.
Proof.
  exact (ex_intro _ (mk_dt 2020 1 1 0 0 0 0 (Some (mk_tz 3600000000 (Some (py "CET")))))
    (ex_intro _ (mk_dt 2020 1 1 0 0 0 0 (Some (mk_tz 1000000 None)))
      (conj eq_refl (conj eq_refl (conj eq_refl (conj eq_refl (conj eq_refl eq_refl))))))).
Qed.
Print Assumptions C05_other_zones_refuted.

(** C06.  A parsed date is a real date with a whole-minute offset within 24 hours. *)
Theorem C06_parsed_dates_are_valid : forall s d, parse_date_time s = Ok (Some d) ->
  valid_dt d = true /\ exists minutes, tz d = Some (mk_tz (minutes * 60000000) None).
Proof. exact parse_date_time_sound. Qed.
Print Assumptions C06_parsed_dates_are_valid.

(** C06.  The only exception is OverflowError, and only when the zone designator asks for
    an offset of more than 10^12 minutes. *)
Theorem C06_only_overflow_escapes : forall s e, parse_date_time s = Raise e ->
  e = OverflowError
  /\ exists h m, zone_numbers (snd (split_zone s)) = Some (h, m) /\ 1439999998560 < Z.abs (h * 60 + m).
Proof. exact parse_date_time_raise. Qed.
Print Assumptions C06_only_overflow_escapes.

(** C06.  "None when not parsable" does not hold for every text. *)
Theorem C06_total_refuted : exists s, parse_date_time s = Raise OverflowError.
Proof. exact (ex_intro _ (py "2010-10-13T12:29:40+99999999999:00") eq_refl). Qed.
Print Assumptions C06_total_refuted.

Example C06_example :
  parse_date_time (py "2023-02-29T00:00:00Z") = Ok None
  /\ parse_date_time (py "2024-02-29T00:00:00Z")
     = Ok (Some (mk_dt 2024 2 29 0 0 0 0 (Some (mk_tz 0 None))))
  /\ parse_date_time (py "2024-02-29T00:00:00+24:00") = Ok None.
Proof. repeat split. Qed.

(** C07.  Every text of the XES date grammar is read as the fields it spells. *)
Theorem C07_well_formed_dates : forall y m d h i s fr z,
  valid_fields y m d h i s 0 = true -> frac_ok fr -> zone_ok z ->
  parse_date_time (write_date y m d h i s fr z)
  = Ok (Some (mk_dt y m d h i s (frac_micros fr) (Some (mk_tz (zone_minutes z * 60000000) None)))).
Proof. exact parse_write_date. Qed.
Print Assumptions C07_well_formed_dates.

Example C07_example :
  valid_fields 2004 2 29 8 5 9 0 = true /\ frac_ok [0; 5] /\ zone_ok (ZMinus 3 30)
  /\ write_date 2004 2 29 8 5 9 [0; 5] (ZMinus 3 30) = py "2004-02-29T08:05:09.05-03:30"
  /\ frac_micros [0; 5] = 50000 /\ zone_minutes (ZMinus 3 30) = -210.
Proof.
  repeat split; try reflexivity; try discriminate; try (simpl; auto with arith).
  repeat constructor; discriminate.
Qed.
