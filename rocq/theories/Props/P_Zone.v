(** Property C107: time stamps as milliseconds where the clock is put forward and back. *)
From Coq Require Import String NArith ZArith List Bool Lia.
From Verif Require Import Base.PyBase Base.PyDate Base.PyClock Base.PyVal Base.PyZone Model.Attr Model.StdExt Model.Millis Model.Zone
  Spec.Setters Spec.Duration Spec.Millis Spec.Zone Proofs.ZoneFacts.
Import ListNotations.
Local Open Scope Z_scope.

(** C107.  The value set is the reading of the clock at the instant; the number read from it is an
    instant with the same reading, and so the number set, rounded down to a second, if the clock
    has that reading only once. *)
Theorem C107_set_get : forall off mk other, zone_ok off -> inverts off mk ->
  forall z, within_years (z / 1000 + off (z / 1000)) ->
  exists d e t v, @stamp_set_millis (zone_clock off mk other) (PInt z) = Ok (Some d) /\ valid_dt d = true /\ tz d = None
    /\ wall_us d = (z + (off (z / 1000) + epoch_day * 86400) * 1000) * 1000 + e /\ -15 <= e <= 15
    /\ (z mod 1000 = 0 \/ Z.abs z < 1000 * 2 ^ 33 -> e = 0)
    /\ @stamp_millis (zone_clock off mk other) (Some d) = Ok v /\ whole_float v (t * 1000) /\ t + off t = z / 1000 + off (z / 1000)
    /\ ((forall t', t' + off t' = z / 1000 + off (z / 1000) -> t' = z / 1000) -> t * 1000 = z - z mod 1000).
Proof. intros off mk other O I z. now apply zone_set_get. Qed.
Print Assumptions C107_set_get.

(** C107.  Two instants with the same reading give the same value, so that one of the two
    numbers is lost, whatever [mktime] does. *)
Theorem C107_twice : forall off mk other, zone_ok off ->
  forall s1 s2, s1 <> s2 -> s1 + off s1 = s2 + off s2 -> within_years (s1 + off s1) ->
  exists d, @stamp_set_millis (zone_clock off mk other) (PInt (s1 * 1000)) = Ok (Some d)
    /\ @stamp_set_millis (zone_clock off mk other) (PInt (s2 * 1000)) = Ok (Some d)
    /\ exists v, @stamp_millis (zone_clock off mk other) (Some d) = Ok v
         /\ (~ whole_float v (s1 * 1000) \/ ~ whole_float v (s2 * 1000)).
Proof. intros off mk other O s1 s2. now apply zone_twice. Qed.
Print Assumptions C107_twice.

(** C107.  Where the clock is put back, a later number gives an earlier time stamp. *)
Theorem C107_order : forall off mk other, zone_ok off ->
  forall s1 s2, s1 < s2 -> s2 + off s2 < s1 + off s1 -> within_years (s1 + off s1) -> within_years (s2 + off s2) ->
  exists d1 d2, @stamp_set_millis (zone_clock off mk other) (PInt (s1 * 1000)) = Ok (Some d1)
    /\ @stamp_set_millis (zone_clock off mk other) (PInt (s2 * 1000)) = Ok (Some d2) /\ dt_cmp d1 d2 = Ok Gt.
Proof. intros off mk other O s1 s2. now apply zone_back. Qed.
Print Assumptions C107_order.

(** C107.  The number read from a date-time the clock shows at some instant, set again, gives its
    reading, even if the clock shows it twice; *)
Theorem C107_get_set : forall off mk other, zone_ok off -> inverts off mk ->
  forall d, valid_dt d = true -> shown off d -> within_years (wall_us d / 1000000 - epoch_day * 86400) ->
  exists v, @stamp_millis (zone_clock off mk other) (Some d) = Ok v
    /\ @stamp_set_millis (zone_clock off mk other) v = Ok (Some (clock_reading d)).
Proof. intros off mk other O I d. now apply zone_get_set. Qed.
Print Assumptions C107_get_set.
(** C107.  no number gives the reading of a date-time that is skipped. *)
Theorem C107_skipped : forall off mk other d z v d', valid_dt d = true -> ~ shown off d ->
  Z.abs z < 1000 * 2 ^ 38 -> v = PInt z \/ whole_float v z ->
  @stamp_set_millis (zone_clock off mk other) v = Ok (Some d') -> clock_reading d' <> clock_reading d.
Proof. exact zone_skipped. Qed.
Print Assumptions C107_skipped.

(** C107.  The time stamp setter stores the reading of a date-time the clock shows, and another one for
    every date-time that is skipped. *)
Theorem C107_assign : forall off mk other, zone_ok off -> inverts off mk ->
  forall d m, valid_dt d = true -> within_years (wall_us d / 1000000 - epoch_day * 86400) ->
  (shown off d -> exists m', @assign_timestamp (zone_clock off mk other) (PDate d) m = Ok m'
     /\ extract_timestamp m' = Ok (PDate (clock_reading d)) /\ only_at (py "time:timestamp") m m')
  /\ (~ shown off d -> Z.abs (mk (wall_us d / 1000000 - epoch_day * 86400)) < 2 ^ 38 ->
     forall m' v, @assign_timestamp (zone_clock off mk other) (PDate d) m = Ok m' ->
     extract_timestamp m' = Ok (PDate v) -> clock_reading v <> clock_reading d).
Proof.
  intros off mk other O I d m V W. split.
  - intros S. now apply zone_assign.
  - intros N B m' v. now apply zone_assign_skipped.
Qed.
Print Assumptions C107_assign.

(** C107.  With one offset this is the clock of C83. *)
Theorem C107_fixed : forall off other v,
  @stamp_set_millis (zone_clock (fun _ => off) (fun w => w - off) other) v = @stamp_set_millis (fixed_clock off other) v
  /\ forall d, @stamp_millis (zone_clock (fun _ => off) (fun w => w - off) other) (Some d)
               = @stamp_millis (fixed_clock off other) (Some d).
Proof. exact zone_is_fixed. Qed.
Print Assumptions C107_fixed.

(** Central Europe in 2021: summer time from 28 March to 31 October. *)
Definition cet (t : Z) : Z := if (1616893200 <=? t) && (t <? 1635642000) then 7200 else 3600.
Definition cet_mktime (w : Z) : Z := if w - 7200 + cet (w - 7200) =? w then w - 7200 else w - 3600.
Definition cet_clock : Clock := zone_clock cet cet_mktime (fun _ => Raise OverflowError).

Example C107_example :
  zone_ok cet /\ inverts cet cet_mktime /\ within_years (1635640200 + cet 1635640200)
  /\ 1635640200 + cet 1635640200 = 1635643800 + cet 1635643800
  /\ @stamp_set_millis cet_clock (PInt 1635640200000) = Ok (Some (mk_dt 2021 10 31 2 30 0 0 None))
  /\ @stamp_set_millis cet_clock (PInt 1635643800000) = Ok (Some (mk_dt 2021 10 31 2 30 0 0 None))
  /\ @stamp_millis cet_clock (Some (mk_dt 2021 10 31 2 30 0 0 None)) = Ok (ms_float 1635640200000)
  /\ ~ shown cet (mk_dt 2021 3 28 2 30 0 0 None)
  /\ (let! z := @stamp_millis cet_clock (Some (mk_dt 2021 3 28 2 30 0 0 None)) in
      @stamp_set_millis cet_clock z)
     = Ok (Some (mk_dt 2021 3 28 3 30 0 0 None)).
Proof.
  assert (A : forall t, (1616893200 <= t < 1635642000 /\ cet t = 7200) \/ (~ 1616893200 <= t < 1635642000 /\ cet t = 3600)).
  { intros t. unfold cet. destruct (Z.leb_spec 1616893200 t), (Z.ltb_spec t 1635642000); cbn; lia. }
  split; [intros t; destruct (A t); lia|].
  split.
  { intros t w <-. unfold cet_mktime. destruct (Z.eqb_spec (t + cet t - 7200 + cet (t + cet t - 7200)) (t + cet t)) as [E|E]; [lia|].
    destruct (A t), (A (t + cet t - 7200)), (A (t + cet t - 3600)); lia. }
  split; [vm_compute; split; [discriminate|reflexivity]|].
  split; [reflexivity|]. do 3 (split; [vm_compute; reflexivity|]).
  split; [|vm_compute; reflexivity].
  intros [t E]. change (t + cet t = 1616898600) in E. destruct (A t); lia.
Qed.
