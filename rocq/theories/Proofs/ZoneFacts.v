(** Facts about clocks that change. *)
From Coq Require Import String NArith ZArith List Bool SpecFloat Lia.
From Verif Require Import Base.PyBase Base.PyDate Base.PyClock Base.PyVal Base.PyZone Model.Attr Model.StdExt Model.RandomLog Model.Millis
  Model.Zone Spec.Setters Spec.Duration Spec.Millis Spec.Zone Proofs.BaseFacts Proofs.LifecycleFacts Proofs.SetterFacts Proofs.ClockFacts.
Import ListNotations.
Local Open Scope Z_scope.

Lemma probes_in off s : zone_ok off -> within_years (reading off s) ->
  forallb (fun t => (1 <=? day_of off t) && (day_of off t <=? last_day)) (probes off s) = true.
Proof.
  intros O W. unfold probes, day_of, within_years, reading, epoch_day, last_day in *.
  assert (A := O s). assert (B := O (s - 86400)).
  assert (D : forall x, 86400 <= x < 3652060 * 86400 -> (1 <=? x / 86400) && (x / 86400 <=? 3652059) = true).
  { intros x X. assert (E := Z.div_mod x 86400 ltac:(lia)). assert (M := Z.mod_pos_bound x 86400 ltac:(lia)).
    apply andb_true_iff. lia. }
  destruct (Z.ltb_spec (off s - off (s - 86400)) 0) as [L|L]; cbn [app forallb].
  - assert (C := O (s + (off s - off (s - 86400)))).
    rewrite !D; [reflexivity| | |]; lia.
  - rewrite !D; [reflexivity| |]; lia.
Qed.

Lemma zone_of_clock off z s u : zone_ok off -> seconds_of (double_of z 1000) = (s, u) ->
  within_years (reading off s) -> zone_of off z 1000 = clock_date (reading off s + epoch_day * 86400) u.
Proof.
  intros O S W. unfold zone_of. rewrite S, (probes_in off s O W). unfold clock_date. cbv zeta. fold (day_of off s).
  assert (K : (2 <=? day_of off s) && (day_of off s <=? last_day) = true); [|now rewrite K].
  unfold day_of, within_years, epoch_day, last_day in *. set (x := reading off s + 719163 * 86400) in *.
  assert (E := Z.div_mod x 86400 ltac:(lia)). assert (M := Z.mod_pos_bound x 86400 ltac:(lia)).
  apply andb_true_iff. lia.
Qed.

(** With one offset this is the clock of C83. *)
Lemma zone_fixed off a b : zone_of (fun _ => off) a b = local_of off a b.
Proof.
  unfold zone_of, local_of. destruct (seconds_of (double_of a b)) as [s u].
  unfold probes. rewrite Z.sub_diag. cbn [Z.ltb Z.compare app forallb]. rewrite andb_true_r.
  unfold clock_date, day_of, reading. cbv zeta.
  replace (s - 86400 + off + epoch_day * 86400) with (s + off + epoch_day * 86400 + (-1) * 86400) by ring.
  set (x := s + off + epoch_day * 86400). rewrite (Z.div_add x) by lia. set (n := x / 86400).
  replace ((1 <=? n) && (n <=? last_day) && ((1 <=? n + -1) && (n + -1 <=? last_day))) with ((2 <=? n) && (n <=? last_day)); [reflexivity|].
  destruct (Z.leb_spec 2 n), (Z.leb_spec n last_day), (Z.leb_spec 1 n), (Z.leb_spec 1 (n + -1)), (Z.leb_spec (n + -1) last_day); cbn; auto; lia.
Qed.

Lemma reading_bound off s : zone_ok off -> within_years (reading off s) -> Z.abs s < 2 ^ 38 - 1.
Proof.
  intros O W. assert (A := O s). unfold within_years, reading, epoch_day, last_day in W. change (2 ^ 38) with 274877906944. lia.
Qed.
Lemma ms_bound z : Z.abs (z / 1000) < 2 ^ 38 - 1 -> Z.abs z < 1000 * 2 ^ 38.
Proof.
  change (2 ^ 38) with 274877906944.
  assert (E := Z.div_mod z 1000 ltac:(lia)). assert (M := Z.mod_pos_bound z 1000 ltac:(lia)). lia.
Qed.

Lemma whole_dec v z : whole_float v z \/ ~ whole_float v z.
Proof.
  destruct v as [| | |f| | | |]; try (right; intros (g & E & _); discriminate).
  assert (D : amount f (z * smallest) \/ ~ amount f (z * smallest)).
  { destruct f as [s|s| |s m e]; cbn [amount worth]; try (right; tauto).
    - destruct (Z.eq_dec (z * smallest) 0); [now left|now right].
    - destruct (valid_binary 53 1024 (S754_finite s m e)); [|right; intros [K _]; discriminate].
      destruct (Z.eq_dec (z * smallest) (if s then - (Zpos m * 2 ^ (e + 1074)) else Zpos m * 2 ^ (e + 1074))); [left|right]; tauto. }
  destruct D as [D|D]; [left; now exists f|right; intros (g & E & A); injection E as <-; tauto].
Qed.
Lemma zone_quotient off : by_quotient (zone_of off).
Proof. intros a b c B C. unfold zone_of. now rewrite double_scale. Qed.

Section Stamps.
Context (off mk : Z -> Z) (other : pyval -> res datetime).
Hypothesis ok : zone_ok off.
Let C : Clock := zone_clock off mk other.

Lemma zone_int z : Z.abs z < 1000 * 2 ^ 38 -> @from_ms C (PInt z) = zone_of off z 1000.
Proof. intros B. unfold C. cbn [zone_clock from_ms]. apply from_int. now apply below_53. Qed.
Lemma zone_int_in z : within_years (reading off (z / 1000)) -> @from_ms C (PInt z) = zone_of off z 1000.
Proof. intros W. apply zone_int, ms_bound. now apply (reading_bound off). Qed.

Lemma zone_set z : within_years (reading off (z / 1000)) ->
  exists d u, zone_of off z 1000 = Ok d /\ valid_dt d = true /\ tz d = None
    /\ wall_us d = (reading off (z / 1000) + epoch_day * 86400) * 1000000 + u /\ 0 <= u <= 999999
    /\ -15 <= u - 1000 * (z mod 1000) <= 15 /\ (z mod 1000 = 0 \/ Z.abs z < 1000 * 2 ^ 33 -> u = 1000 * (z mod 1000)).
Proof.
  intros W. destruct (seconds_of_ok z (ms_bound z (reading_bound off _ ok W))) as (u & S & U & E & X).
  rewrite (zone_of_clock off z _ u ok S W).
  destruct (clock_date_ok (reading off (z / 1000) + epoch_day * 86400) u) as (d & D & V & T & _ & K); [|exact U|].
  { unfold within_years, last_day in *. lia. }
  exists d, u. repeat split; auto; lia.
Qed.

Lemma mk_bound s : within_years (s + off s) -> Z.abs (s * 1000) < 2 ^ 53.
Proof.
  intros W. assert (B := reading_bound off s ok W). change (2 ^ 38) with 274877906944 in B. change (2 ^ 53) with 9007199254740992. lia.
Qed.
Lemma second_of x u : 0 <= u <= 999999 -> (x * 1000000 + u) / 1000000 = x.
Proof. intros U. rewrite Z.div_add_l by lia. rewrite (Z.div_small u) by lia. lia. Qed.

Theorem zone_set_get z : inverts off mk -> within_years (z / 1000 + off (z / 1000)) ->
  exists d e t v, @stamp_set_millis C (PInt z) = Ok (Some d) /\ valid_dt d = true /\ tz d = None
    /\ wall_us d = (z + (off (z / 1000) + epoch_day * 86400) * 1000) * 1000 + e /\ -15 <= e <= 15
    /\ (z mod 1000 = 0 \/ Z.abs z < 1000 * 2 ^ 33 -> e = 0)
    /\ @stamp_millis C (Some d) = Ok v /\ whole_float v (t * 1000) /\ t + off t = z / 1000 + off (z / 1000)
    /\ ((forall t', t' + off t' = z / 1000 + off (z / 1000) -> t' = z / 1000) -> t * 1000 = z - z mod 1000).
Proof.
  intros I W. destruct (zone_set z W) as (d & u & D & V & T & K & U & E & X).
  assert (DM := Z.div_mod z 1000 ltac:(lia)).
  exists d, (u - 1000 * (z mod 1000)), (mk (reading off (z / 1000))), (ms_float (mk (reading off (z / 1000)) * 1000)).
  unfold stamp_set_millis. rewrite (zone_int_in z W), D.
  split; [reflexivity|]. split; [exact V|]. split; [exact T|].
  split; [rewrite K; unfold reading; lia|]. split; [exact E|]. split; [intros H; specialize (X H); lia|].
  assert (M : mk (reading off (z / 1000)) + off (mk (reading off (z / 1000))) = z / 1000 + off (z / 1000))
    by (apply (I (z / 1000)); reflexivity).
  split; [|split; [apply float_whole, mk_bound; now rewrite <- M in W|split; [exact M|intros H; rewrite (H _ M); lia]]].
  unfold stamp_millis, C. cbn [stamp_value bind zone_clock mktime_ms]. unfold ms_of_zone. rewrite K, second_of by exact U.
  do 2 f_equal. f_equal. f_equal. lia.
Qed.

Lemma same_date d d' : valid_dt d = true -> valid_dt d' = true -> tz d = None -> tz d' = None -> wall_us d = wall_us d' -> d = d'.
Proof.
  intros V V' T T' W. assert (Q := wall_day d V). assert (Q' := wall_day d' V').
  assert (S := wall_seconds d V). assert (S' := wall_seconds d' V'). rewrite W in Q, S. rewrite Q' in Q. rewrite S' in S.
  destruct (valid_dt_parts d V) as (Y & M & D & H & I & SS & U). destruct (valid_dt_parts d' V') as (Y' & M' & D' & H' & I' & SS' & U').
  assert (F := ordinal_inj _ _ _ _ _ _ M' D' M D Q). injection F as F1 F2 F3.
  assert (us d = us d'). { unfold wall_us in W. lia. }
  destruct d, d'. cbn in *. subst. f_equal; lia.
Qed.

Theorem zone_twice s1 s2 : s1 <> s2 -> s1 + off s1 = s2 + off s2 -> within_years (s1 + off s1) ->
  exists d, @stamp_set_millis C (PInt (s1 * 1000)) = Ok (Some d) /\ @stamp_set_millis C (PInt (s2 * 1000)) = Ok (Some d)
    /\ exists v, @stamp_millis C (Some d) = Ok v /\ (~ whole_float v (s1 * 1000) \/ ~ whole_float v (s2 * 1000)).
Proof.
  intros N R W. assert (Q1 : s1 * 1000 / 1000 = s1) by (apply Z.div_mul; lia).
  assert (Q2 : s2 * 1000 / 1000 = s2) by (apply Z.div_mul; lia).
  destruct (zone_set (s1 * 1000)) as (d & u & D & V & T & K & U & E & X); [now rewrite Q1|].
  destruct (zone_set (s2 * 1000)) as (d' & u' & D' & V' & T' & K' & U' & E' & X'); [rewrite Q2; unfold reading; now rewrite <- R|].
  rewrite Z_mod_mult in *. rewrite Q1 in K. rewrite Q2 in K'. rewrite X in K by auto. rewrite X' in K' by auto.
  assert (d = d') by (apply same_date; auto; rewrite K, K'; unfold reading; lia). subst d'.
  exists d. unfold stamp_set_millis. rewrite !zone_int_in by (rewrite ?Q1, ?Q2; unfold reading; rewrite <- ?R; exact W). rewrite D, D'.
  split; [reflexivity|]. split; [reflexivity|].
  eexists. split; [reflexivity|]. cbn [C zone_clock mktime_ms]. set (v := ms_float _). clearbody v.
  destruct (whole_dec v (s1 * 1000)) as [H|H]; [|now left]. right. intros H'. assert (E0 := whole_one _ _ _ H H'). lia.
Qed.

Theorem zone_back s1 s2 : s1 < s2 -> s2 + off s2 < s1 + off s1 -> within_years (s1 + off s1) -> within_years (s2 + off s2) ->
  exists d1 d2, @stamp_set_millis C (PInt (s1 * 1000)) = Ok (Some d1) /\ @stamp_set_millis C (PInt (s2 * 1000)) = Ok (Some d2)
    /\ dt_cmp d1 d2 = Ok Gt.
Proof.
  intros N R W1 W2. assert (Q1 : s1 * 1000 / 1000 = s1) by (apply Z.div_mul; lia).
  assert (Q2 : s2 * 1000 / 1000 = s2) by (apply Z.div_mul; lia).
  destruct (zone_set (s1 * 1000)) as (d & u & D & V & T & K & U & E & X); [now rewrite Q1|].
  destruct (zone_set (s2 * 1000)) as (d' & u' & D' & V' & T' & K' & U' & E' & X'); [now rewrite Q2|].
  rewrite Q1 in K. rewrite Q2 in K'. unfold reading in *.
  exists d, d'. unfold stamp_set_millis. rewrite !zone_int_in by (rewrite ?Q1, ?Q2; assumption). rewrite D, D'. split; [reflexivity|]. split; [reflexivity|].
  unfold dt_cmp, is_aware, instant. rewrite T, T'. cbn. f_equal. apply Z.compare_gt_iff. lia.
Qed.

Lemma shown_date d : inverts off mk -> valid_dt d = true -> shown off d -> within_years (wall_us d / 1000000 - epoch_day * 86400) ->
  @from_ms C (ms_float (ms_of_zone mk d)) = Ok (clock_reading d).
Proof.
  intros I V [t R] W. unfold ms_of_zone.
  set (w := wall_us d / 1000000 - epoch_day * 86400) in *. assert (M := I t w R).
  assert (Q : mk w * 1000 / 1000 = mk w) by (apply Z.div_mul; lia).
  assert (RW : within_years (reading off (mk w))) by (unfold reading; now rewrite M).
  assert (B := ms_bound (mk w * 1000)). rewrite Q in B. specialize (B (reading_bound off _ ok RW)).
  unfold C. cbn [zone_clock from_ms]. rewrite (from_ms_float _ other _ (zone_quotient off) (below_53 _ B)).
  destruct (seconds_of_ok _ B) as (u & S & _ & _ & X). rewrite Q in S. rewrite Z_mod_mult in X. rewrite X in S by auto.
  rewrite (zone_of_clock off _ _ _ ok S RW). unfold reading. rewrite M. unfold w.
  replace (wall_us d / 1000000 - epoch_day * 86400 + epoch_day * 86400) with (wall_us d / 1000000) by ring.
  apply clock_date_back; [exact V|]. intros F. apply (ordinal_first d V) in F. assert (Y := wall_day d V). rewrite F in Y.
  assert (Z0 := Z.div_mod (wall_us d / 1000000) 86400 ltac:(lia)). assert (Z1 := Z.mod_pos_bound (wall_us d / 1000000) 86400 ltac:(lia)).
  unfold within_years, w in W. lia.
Qed.

Theorem zone_get_set d : inverts off mk -> valid_dt d = true -> shown off d -> within_years (wall_us d / 1000000 - epoch_day * 86400) ->
  exists v, @stamp_millis C (Some d) = Ok v /\ @stamp_set_millis C v = Ok (Some (clock_reading d)).
Proof.
  intros I V S W. eexists. split; [reflexivity|]. unfold stamp_set_millis. rewrite (shown_date d I V S W). reflexivity.
Qed.

Lemma reading_wall d : valid_dt d = true -> wall_us (clock_reading d) / 1000000 = wall_us d / 1000000.
Proof.
  intros V. rewrite (wall_seconds d V). unfold clock_reading, wall_us. cbn. apply second_of. lia.
Qed.

Lemma zone_shown z d : Z.abs z < 1000 * 2 ^ 38 -> zone_of off z 1000 = Ok d -> shown off d.
Proof.
  intros B E. destruct (seconds_of_ok z B) as (u & S & U & _). unfold zone_of in E. rewrite S in E.
  destruct (forallb _ _); [|discriminate]. unfold day_of in E.
  set (x := reading off (z / 1000) + epoch_day * 86400) in *.
  assert (K := ord2ymd_ok (x / 86400)). destruct (ord2ymd (x / 86400)) as [[y m] dd]. destruct K as (_ & _ & O).
  injection E as <-. exists (z / 1000). unfold wall_us. cbn. rewrite O.
  assert (DM := Z.div_mod x 86400 ltac:(lia)). assert (MB := Z.mod_pos_bound x 86400 ltac:(lia)).
  assert (H : (((x / 86400 * 24 + x mod 86400 / 3600) * 60 + x mod 86400 / 60 mod 60) * 60 + x mod 86400 mod 60) = x).
  { set (q := x / 86400) in *. set (r := x mod 86400) in *. clearbody q r. clear - DM MB. subst x.
    Z.to_euclidean_division_equations. lia. }
  rewrite H, second_of by exact U. unfold x, reading, epoch_day. lia.
Qed.

Lemma zone_not_shown d z x : valid_dt d = true -> ~ shown off d -> Z.abs z < 1000 * 2 ^ 38 ->
  zone_of off z 1000 = Ok x -> clock_reading x <> clock_reading d.
Proof.
  intros V N B D.
  assert (S := zone_shown z x B D). intros H. apply N. destruct S as [t S]. exists t. rewrite S. f_equal.
  assert (V' : valid_dt x = true).
  { unfold zone_of in D. destruct (seconds_of_ok z B) as (u & SE & U & _). rewrite SE in D.
    destruct (forallb _ _) eqn:F; [|discriminate]. cbn [probes app forallb] in F. apply andb_true_iff in F as [F _].
    apply andb_true_iff in F as [F1 F2]. apply Z.leb_le in F1, F2.
    assert (K := ord2ymd_ok (day_of off (z / 1000))). assert (Y := ord2ymd_year (day_of off (z / 1000)) (conj F1 F2)).
    destruct (ord2ymd (day_of off (z / 1000))) as [[y m] dd]. destruct K as (M & DD & _).
    assert (MB := Z.mod_pos_bound (reading off (z / 1000) + epoch_day * 86400) 86400 ltac:(lia)).
    set (r := (reading off (z / 1000) + epoch_day * 86400) mod 86400) in *. clearbody r.
    injection D as <-. unfold valid_dt. cbn. rewrite andb_true_r. apply valid_fields_of; auto.
    1-3: clear - MB; Z.to_euclidean_division_equations; lia. }
  rewrite <- (reading_wall d V), <- (reading_wall x V'). now rewrite H.
Qed.

Theorem zone_skipped d z v d' : valid_dt d = true -> ~ shown off d -> Z.abs z < 1000 * 2 ^ 38 -> v = PInt z \/ whole_float v z ->
  @stamp_set_millis C v = Ok (Some d') -> clock_reading d' <> clock_reading d.
Proof.
  intros V N B K E. unfold stamp_set_millis in E.
  assert (F : @from_ms C v = zone_of off z 1000).
  { destruct K as [-> |(f & -> & A)]; [now apply zone_int|]. unfold C. cbn [zone_clock from_ms].
    apply from_whole; auto; [apply zone_quotient|now apply below_53]. }
  rewrite F in E. destruct (zone_of off z 1000) as [x|] eqn:D; [|discriminate]. injection E as <-.
  now apply (zone_not_shown d z).
Qed.

Theorem zone_assign d m : inverts off mk -> valid_dt d = true -> shown off d -> within_years (wall_us d / 1000000 - epoch_day * 86400) ->
  exists m', @assign_timestamp C (PDate d) m = Ok m' /\ extract_timestamp m' = Ok (PDate (clock_reading d))
    /\ only_at (py "time:timestamp") m m'.
Proof.
  intros I V S W. apply timestamp_date. exists (ms_float (ms_of_zone mk d)). split; [reflexivity|].
  split; [apply float_number|]. exact (shown_date d I V S W).
Qed.

Theorem zone_assign_skipped d m m' v : valid_dt d = true -> ~ shown off d ->
  Z.abs (mk (wall_us d / 1000000 - epoch_day * 86400)) < 2 ^ 38 ->
  @assign_timestamp C (PDate d) m = Ok m' -> extract_timestamp m' = Ok (PDate v) -> clock_reading v <> clock_reading d.
Proof.
  intros V N B A X. unfold assign_timestamp in A. cbn [C zone_clock mktime_ms bind num_of ms_float from_ms] in A.
  fold (ms_float (ms_of_zone mk d)) in A.
  assert (B' : Z.abs (ms_of_zone mk d) < 1000 * 2 ^ 38) by (unfold ms_of_zone; lia).
  rewrite (from_ms_float _ other _ (zone_quotient off) (below_53 _ B')) in A.
  destruct (zone_of off (ms_of_zone mk d) 1000) as [x|] eqn:D; [|discriminate]. cbn [bind] in A.
  unfold store in A. injection A as <-. unfold extract_timestamp in X.
  rewrite (fetch_some _ _ _ _ (sget_sset_same _ _ _)) in X. cbn in X. injection X as <-.
  now apply (zone_not_shown d (ms_of_zone mk d)).
Qed.
End Stamps.

Theorem zone_is_fixed off other v :
  @stamp_set_millis (zone_clock (fun _ => off) (fun w => w - off) other) v = @stamp_set_millis (fixed_clock off other) v
  /\ forall d, @stamp_millis (zone_clock (fun _ => off) (fun w => w - off) other) (Some d)
               = @stamp_millis (fixed_clock off other) (Some d).
Proof.
  split.
  - unfold stamp_set_millis. cbn [zone_clock fixed_clock from_ms].
    assert (E : forall a b, zone_of (fun _ => off) a b = local_of off a b) by (intros; apply zone_fixed).
    destruct v as [| |z|[s|s| |s m e]|b|d| |]; cbn [from_thousandths]; cbv zeta; rewrite ?E; reflexivity.
  - intros d. unfold stamp_millis. cbn [stamp_value bind zone_clock fixed_clock mktime_ms].
    unfold ms_of_zone, ms_of_local. do 3 f_equal. lia.
Qed.
