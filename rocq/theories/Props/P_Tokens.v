(** Properties C31, C32, C57: key lists as text, durations as text. *)
From Coq Require Import String NArith ZArith List Bool SpecFloat.
From Verif Require Import Base.PyBase Base.PyVal Base.PyFloat Model.Token Model.Duration Spec.Registries Spec.Duration
  Proofs.TokenFacts Proofs.DurationFacts.
Import ListNotations.

(** C31.  Adjacent keys without a space come back as one token. *)
Theorem C31_format_extract : forall keys, Forall good_key keys ->
  extract_tokens (format_token keys) = merged [] keys.
Proof. exact extract_format. Qed.
Print Assumptions C31_format_extract.

(** C31.  The list itself comes back if and only if there are none. *)
Theorem C31_round_trip : forall keys, Forall good_key keys ->
  extract_tokens (format_token keys) = keys <-> no_adjacent_plain keys.
Proof. exact extract_format_same. Qed.
Print Assumptions C31_round_trip.

Example C31_example :
  Forall good_key [py "a b"; py "c"; py "d"; py "e f"] /\ no_adjacent_plain [py "a b"; py "c"; py "e f"]
  /\ extract_tokens (format_token [py "a b"; py "c"; py "d"; py "e f"]) = [py "a b"; py "c d"; py "e f"]
  /\ extract_tokens (format_token [py "a b"; py "c"; py "e f"]) = [py "a b"; py "c"; py "e f"].
Proof.
  split; [repeat constructor; try discriminate; vm_compute; intuition discriminate|].
  split; [simpl; auto|split; reflexivity].
Qed.

(** C31.  The expectation that two key names survive is false. *)
Theorem C31_round_trip_refuted : exists keys, Forall good_key keys /\ extract_tokens (format_token keys) <> keys.
Proof.
  exists [py "concept:name"; py "lifecycle:transition"].
  split; [repeat constructor; try discriminate; vm_compute; intuition discriminate|discriminate].
Qed.
Print Assumptions C31_round_trip_refuted.

(** C32.  Tokens are non-empty, trimmed and without apostrophes. *)
Theorem C32_tokens : forall s, Forall good_key (extract_tokens s).
Proof. exact extract_tokens_good. Qed.
Print Assumptions C32_tokens.

(** C32.  Formatting leaves out empty tokens and quotes those with a space. *)
Theorem C32_format : forall l, format_token l = join (py " ") (map quoted (filter nonempty l)).
Proof. exact format_spec. Qed.
Print Assumptions C32_format.

Example C32_example :
  extract_tokens (py "  'a b'' c ' '") = [py "a b"; py "c"]
  /\ format_token [py "a b"; []; py " "; py "c"] = py "'a b' ' ' c".
Proof. split; reflexivity. Qed.

(** C57.  The parts of the text add up, and each is within its range. *)
Theorem C57_duration : forall z, (0 <= z)%Z -> exists d h m s ms,
  (format_duration z = part d (py " days, ") ++ part h (py " hours, ") ++ part m (py " minutes, ")
                      ++ part s (py " seconds, ") ++ print_Z ms ++ py " milliseconds"
  /\ z = d * 86400000 + h * 3600000 + m * 60000 + s * 1000 + ms
  /\ 0 <= d /\ 0 <= h <= 24 /\ 0 <= m <= 60 /\ 0 <= s <= 60 /\ 0 <= ms <= 1000
  /\ (h = 24 <-> z = 86400000) /\ (m = 60 <-> z mod 86400000 = 3600000)
  /\ (s = 60 <-> z mod 3600000 = 60000) /\ (ms = 1000 <-> z mod 60000 = 1000))%Z.
Proof. exact duration_decomposition. Qed.
Print Assumptions C57_duration.

Example C57_example :
  format_duration 93784005 = py "1 days, 2 hours, 3 minutes, 4 seconds, 5 milliseconds"
  /\ format_duration 86400000 = py "24 hours, 0 milliseconds"
  /\ format_duration 3601000 = py "1 hours, 1000 milliseconds".
Proof. repeat split; vm_compute; reflexivity. Qed.

(** C57.  The same for floats: the four counts are whole numbers, and the parts add up exactly,
    for any duration of less than [2 ^ 53] milliseconds. *)
Theorem C57_float : forall (FIO : FloatIO) x u, worth x u -> (u < 2 ^ 53 * smallest)%Z -> exists d h m s ms r,
  (format_float x = part_float d (py " days, ") ++ part_float h (py " hours, ") ++ part_float m (py " minutes, ")
                    ++ part_float s (py " seconds, ") ++ float_repr ms ++ py " milliseconds"
  /\ worth ms r /\ u = (d * 86400000 + h * 3600000 + m * 60000 + s * 1000) * smallest + r
  /\ 0 <= d /\ 0 <= h <= 24 /\ 0 <= m <= 60 /\ 0 <= s <= 60 /\ 0 <= r <= 1000 * smallest
  /\ (h = 24 <-> u = 86400000 * smallest) /\ (m = 60 <-> u mod (86400000 * smallest) = 3600000 * smallest)
  /\ (s = 60 <-> u mod (3600000 * smallest) = 60000 * smallest)
  /\ (r = 1000 * smallest <-> u mod (60000 * smallest) = 1000 * smallest))%Z.
Proof. exact @float_decomposition. Qed.
Print Assumptions C57_float.
(** For longer ones the rest after the days is still exact. *)
Theorem C57_days : forall (FIO : FloatIO) x u, worth x u -> (86400000 * smallest < u)%Z -> exists q r,
  worth r (u mod (86400000 * smallest)) /\ format_float x = float_repr q ++ py " days, " ++ format_float r.
Proof. exact @float_days. Qed.
Print Assumptions C57_days.
(** What is negative, as the duration of a stopped timer is, or no number is not taken apart;
    infinity becomes two times "nan". *)
Theorem C57_other : forall (FIO : FloatIO),
  (forall m e, format_float (S754_finite true m e) = float_repr (S754_finite true m e) ++ py " milliseconds")
  /\ format_float (S754_infinity true) = float_repr (S754_infinity true) ++ py " milliseconds"
  /\ format_float S754_nan = float_repr S754_nan ++ py " milliseconds"
  /\ format_float (S754_infinity false) = float_repr S754_nan ++ py " days, " ++ float_repr S754_nan ++ py " milliseconds".
Proof. exact @float_other. Qed.
Print Assumptions C57_other.

(** 3661000.5 milliseconds; floats are shown as the number of their halves. *)
Definition halves : FloatIO := {|
  float_repr := fun f => match f with
                         | S754_finite false m e => print_Z (Zpos m * 2 ^ (e + 100) / 2 ^ 99)
                         | _ => py "0"
                         end;
  float_of_str := fun _ => None
|}.
Example C57_float_ex :
  let x := f_norm 7322001 (-1) in
  worth x (7322001 * 2 ^ 1073) /\ (7322001 * 2 ^ 1073 < 2 ^ 53 * smallest)%Z
  /\ format_float (FIO := halves) x = py "2 hours, 2 minutes, 2 seconds, 1 milliseconds"
  /\ format_float (FIO := halves) (f_norm 93784005 0) = py "2 days, 4 hours, 6 minutes, 8 seconds, 10 milliseconds".
Proof. split; [|repeat split; vm_compute; reflexivity]. split; vm_compute; reflexivity. Qed.
