(** Time stamps set to floats that are no whole numbers. *)
From Coq Require Import NArith ZArith List Bool SpecFloat Lia.
From Verif Require Import Base.PyBase Base.PyDate Base.PyClock Base.PyVal Model.Attr Model.StdExt Model.RandomLog Model.Millis
  Spec.Setters Spec.Duration Spec.Millis Proofs.LifecycleFacts Base.PyFloat Proofs.FloatFacts Proofs.ClockFacts.
Import ListNotations.
Local Open Scope Z_scope.

Lemma seconds_near a b : 0 < b -> Z.abs a < b * 2 ^ 38 ->
  exists s u, seconds_of (double_of a b) = (s, u) /\ 0 <= u <= 999999
    /\ Z.abs ((1000000 * s + u) * b - 1000000 * a) < 16 * b
    /\ (Z.abs a < b * 2 ^ 33 -> Z.abs ((1000000 * s + u) * b - 1000000 * a) < b).
Proof.
  intros B A0.
  assert (K15 := double_bits a b 38 B ltac:(lia) A0).
  assert (K20 : Z.abs a < b * 2 ^ 33 -> 20 <= snd (double_of a b))
    by (intros H; exact (double_bits a b 33 B ltac:(lia) H)).
  destruct (double_of a b) as [q k] eqn:EQ. cbn [snd] in K15, K20.
  assert (Q : q = round_even (a * 2 ^ k) b) by (unfold double_of in EQ; congruence). clear EQ.
  assert (KP : 2 ^ 15 <= 2 ^ k) by (apply Z.pow_le_mono_r; lia).
  assert (KP' : Z.abs a < b * 2 ^ 33 -> 2 ^ 20 <= 2 ^ k) by (intros H; apply Z.pow_le_mono_r; [lia|auto]).
  unfold seconds_of. set (K := 2 ^ k) in *. clearbody K.
  assert (QE := round_even_err (a * K) b B). rewrite <- Q in QE.
  assert (R := Z.quot_rem' q K). assert (RB := Z.rem_bound_abs q K ltac:(lia)).
  set (s := Z.quot q K) in *. set (f := Z.rem q K) in *. clearbody s f.
  assert (J33 := double_bits (f * 1000000) K 20 ltac:(lia) ltac:(lia) ltac:(lia)).
  destruct (double_of (f * 1000000) K) as [p j] eqn:EP. cbn [snd] in J33.
  assert (P : p = round_even (f * 1000000 * 2 ^ j) K) by (unfold double_of in EP; congruence). clear EP.
  assert (JP : 2 ^ 33 <= 2 ^ j) by (apply Z.pow_le_mono_r; lia).
  set (J := 2 ^ j) in *. clearbody J.
  assert (PE := round_even_err (f * 1000000 * J) K ltac:(lia)). rewrite <- P in PE.
  assert (UE := round_even_err p J ltac:(lia)). set (u := round_even p J) in *.
  clearbody u. clear P Q.
  change (2 ^ 15) with 32768 in *. change (2 ^ 20) with 1048576 in *. change (2 ^ 33) with 8589934592 in *.
  assert (KJ1 : 32768 * J <= K * J) by (apply Z.mul_le_mono_nonneg_r; lia).
  assert (KJ2 : K * 8589934592 <= K * J) by (apply Z.mul_le_mono_nonneg_l; lia).
  assert (KJ3 : Z.abs a < b * 8589934592 -> 1048576 * J <= K * J)
    by (intros H; apply Z.mul_le_mono_nonneg_r; [lia|auto]).
  set (X := (1000000 * s + u) * b - 1000000 * a).
  assert (XE : 2 * (K * J) * X = 1000000 * (J * (2 * (b * q - a * K))) + b * (2 * (K * p - f * 1000000 * J) + K * (2 * (J * u - p)))).
  { unfold X. rewrite R. ring. }
  assert (B1 : J * - b <= J * (2 * (b * q - a * K)) <= J * b) by (split; apply Z.mul_le_mono_nonneg_l; lia).
  assert (B2 : K * - J <= K * (2 * (J * u - p)) <= K * J) by (split; apply Z.mul_le_mono_nonneg_l; lia).
  assert (PB : - (1000000 * J) <= p <= 1000000 * J).
  { assert (FB : - (K - 1) <= f <= K - 1) by lia.
    assert (F1 : - (K - 1) * J <= f * J <= (K - 1) * J) by (split; apply Z.mul_le_mono_nonneg_r; lia).
    split.
    - destruct (Z.le_gt_cases (- (1000000 * J)) p) as [|H]; [assumption|].
      assert (K * p <= K * (- (1000000 * J) - 1)) by (apply Z.mul_le_mono_nonneg_l; lia). lia.
    - destruct (Z.le_gt_cases p (1000000 * J)) as [|H]; [assumption|].
      assert (K * (1000000 * J + 1) <= K * p) by (apply Z.mul_le_mono_nonneg_l; lia). lia. }
  assert (UB : -1000000 <= u <= 1000000).
  { split.
    - destruct (Z.le_gt_cases (-1000000) u) as [|H]; [assumption|]. assert (J * u <= J * (-1000001)) by (apply Z.mul_le_mono_nonneg_l; lia). lia.
    - destruct (Z.le_gt_cases u 1000000) as [|H]; [assumption|]. assert (J * 1000001 <= J * u) by (apply Z.mul_le_mono_nonneg_l; lia). lia. }
  set (D := 2 * (K * p - f * 1000000 * J) + K * (2 * (J * u - p))) in *.
  assert (DB : - (K + K * J) <= D <= K + K * J) by (unfold D; lia). clearbody D.
  assert (D2 : b * - (K + K * J) <= b * D <= b * (K + K * J)) by (split; apply Z.mul_le_mono_nonneg_l; lia).
  set (KJ := K * J) in *. assert (KJP : 0 < KJ) by (unfold KJ; apply Z.mul_pos_pos; lia). clearbody KJ.
  assert (TOT : Z.abs (2 * KJ * X) <= b * (1000000 * J + K + KJ)).
  { rewrite XE. replace (b * (1000000 * J + K + KJ)) with (1000000 * (J * b) + b * (K + KJ)) by ring. lia. }
  assert (LIM : forall n, 1000000 * J + K + KJ < 2 * n * KJ -> Z.abs X < n * b).
  { intros n N. destruct (Z.lt_ge_cases (Z.abs X) (n * b)) as [|H]; [assumption|]. exfalso.
    assert (L1 : b * (1000000 * J + K + KJ) < b * (2 * n * KJ)) by (apply Z.mul_lt_mono_pos_l; lia).
    assert (L2 : 2 * KJ * (n * b) <= 2 * KJ * Z.abs X) by (apply Z.mul_le_mono_nonneg_l; lia).
    rewrite Z.abs_mul, (Z.abs_eq (2 * KJ)) in TOT by lia. lia. }
  assert (X16 : Z.abs X < 16 * b) by (apply LIM; lia).
  assert (X1 : Z.abs a < b * 8589934592 -> Z.abs X < b) by (intros H; specialize (KJ3 H); assert (T := LIM 1 ltac:(lia)); lia).
  clear XE B1 B2 D2 TOT LIM KJ1 KJ2 KJ3 QE PE UE R RB PB DB. unfold X in *. clear X.
  destruct (Z.leb_spec 1000000 u); [|destruct (Z.ltb_spec u 0)].
  - exists (s + 1), (u - 1000000). replace (1000000 * (s + 1) + (u - 1000000)) with (1000000 * s + u) by ring. repeat split; auto; lia.
  - exists (s - 1), (u + 1000000). replace (1000000 * (s - 1) + (u + 1000000)) with (1000000 * s + u) by ring. repeat split; auto; lia.
  - exists s, u. repeat split; auto; lia.
Qed.

(** Numbers that no year has. *)
Lemma seconds_far a b : 0 < b -> b * 2 ^ 38 <= Z.abs a < b * 2 ^ 53 ->
  exists s u, seconds_of (double_of a b) = (s, u) /\ 2 ^ 38 - 1 <= Z.abs s.
Proof.
  intros B [A1 A2]. assert (K0 := double_bits a b 53 B ltac:(lia) A2).
  destruct (double_of a b) as [q k] eqn:EQ. cbn [snd] in K0.
  assert (Q : q = round_even (a * 2 ^ k) b) by (unfold double_of in EQ; congruence). clear EQ.
  assert (KP : 0 < 2 ^ k) by (apply Z.pow_pos_nonneg; lia). unfold seconds_of. set (K := 2 ^ k) in *. clearbody K.
  assert (QE := round_even_err (a * K) b B). rewrite <- Q in QE.
  assert (R := Z.quot_rem' q K). assert (RB := Z.rem_bound_abs q K ltac:(lia)).
  set (s := Z.quot q K) in *. set (f := Z.rem q K) in *. clearbody s f.
  assert (S38 : 2 ^ 38 - 1 < Z.abs s).
  { change (2 ^ 38) with 274877906944 in *.
    assert (AK : b * 274877906944 * K <= Z.abs a * K) by (apply Z.mul_le_mono_nonneg_r; lia).
    assert (QB : 274877906944 * K <= Z.abs q).
    { destruct (Z.le_gt_cases (274877906944 * K) (Z.abs q)) as [|H]; [assumption|]. exfalso.
      assert (b * Z.abs q <= b * (274877906944 * K - 1)) by (apply Z.mul_le_mono_nonneg_l; lia).
      assert (b * Z.abs q = Z.abs (b * q)) by (rewrite Z.abs_mul, (Z.abs_eq b); lia).
      assert (Z.abs a * K = Z.abs (a * K)) by (rewrite Z.abs_mul, (Z.abs_eq K); lia). lia. }
    destruct (Z.lt_ge_cases 274877906943 (Z.abs s)) as [|H]; [assumption|]. exfalso.
    assert (K * Z.abs s <= K * 274877906943) by (apply Z.mul_le_mono_nonneg_l; lia).
    assert (K * Z.abs s = Z.abs (K * s)) by (rewrite Z.abs_mul, (Z.abs_eq K); lia). lia. }
  change (2 ^ 38) with 274877906944 in *. destruct (double_of (f * 1000000) K) as [p j]. set (u := round_even p (2 ^ j)).
  destruct (Z.leb_spec 1000000 u); [|destruct (Z.ltb_spec u 0)]; eexists; eexists; (split; [reflexivity|]); lia.
Qed.
Lemma far_years off s u : offset_ok off -> 2 ^ 38 - 1 <= Z.abs s -> clock_date (s + off + epoch_day * 86400) u = Raise ValueError.
Proof.
  unfold offset_ok. intros O H. apply clock_date_bad. change (2 ^ 38) with 274877906944 in H. unfold epoch_day, last_day. lia.
Qed.

Theorem set_millis_outside off other z : offset_ok off -> Z.abs z < 2 ^ 53 -> ~ in_years off z ->
  @stamp_set_millis (fixed_clock off other) (PInt z) = Raise ValueError.
Proof.
  intros O B Y. destruct (Z.lt_ge_cases (Z.abs z) (1000 * 2 ^ 38)) as [L|L]; [now apply set_millis_bad|].
  unfold stamp_set_millis. rewrite int_date by exact B. unfold local_of.
  destruct (seconds_far z 1000) as (s & u & E & S38); [lia|change (2 ^ 53) with 9007199254740992 in *; lia|].
  rewrite E. now rewrite far_years.
Qed.

(** The quotient behind a float. *)
Lemma float_quotient off other f a : amount f a -> Z.abs a < 1000 * 2 ^ 53 * smallest ->
  @stamp_set_millis (fixed_clock off other) (PFloat f)
  = (let! d := local_of off a (1000 * smallest) in Ok (Some d)).
Proof.
  intros A L. assert (S0 := smallest_pos). unfold stamp_set_millis. cbn [fixed_clock from_ms].
  destruct f as [s|s| |s m e]; cbn [amount worth] in A; try easy.
  - subst a. cbn [from_thousandths]. change 0 with (0 * smallest) at 2. rewrite (local_quotient off 0 1000 smallest) by lia. reflexivity.
  - destruct A as [V A]. cbn [valid_binary] in V. unfold bounded, canonical_mantissa in V. apply andb_prop in V. destruct V as [V _].
    apply Zeq_bool_eq in V. unfold fexp, emin in V. assert (E : -1074 <= e) by lia. clear V.
    set (n := if s then Zneg m else Zpos m).
    assert (AN : a = n * 2 ^ (e + 1074)) by (unfold n; destruct s; rewrite A; [rewrite <- Pos2Z.opp_pos; ring|reflexivity]).
    cbn [from_thousandths]. fold n. clear A. clearbody n. unfold smallest in *.
    assert (C : exists c, 0 < c /\ a = n * 2 ^ Z.max e 0 * c /\ 2 ^ 1074 = 2 ^ Z.max (- e) 0 * c).
    { destruct (Z.le_gt_cases 0 e) as [H|H].
      - exists (2 ^ 1074). rewrite Z.max_l, Z.max_r by lia. split; [apply Z.pow_pos_nonneg; lia|].
        split; [rewrite AN, Z.pow_add_r by lia; ring|]. rewrite Z.pow_0_r. ring.
      - exists (2 ^ (e + 1074)). rewrite Z.max_r, Z.max_l by lia. split; [apply Z.pow_pos_nonneg; lia|].
        split; [rewrite AN, Z.pow_0_r; ring|]. rewrite <- Z.pow_add_r by lia. f_equal. lia. }
    destruct C as (c & C0 & CA & CT). set (x := n * 2 ^ Z.max e 0) in *. set (y := 2 ^ Z.max (- e) 0) in *.
    assert (Y0 : 0 < y) by (apply Z.pow_pos_nonneg; lia). clearbody x y. cbv zeta.
    replace (Z.abs x <? 2 ^ 53 * (1000 * y)) with true.
    + rewrite CT, CA. replace (1000 * (y * c)) with (1000 * y * c) by ring. rewrite (local_quotient off x (1000 * y) c) by lia. reflexivity.
    + symmetry. apply Z.ltb_lt. rewrite CT, CA, Z.abs_mul, (Z.abs_eq c) in L by lia.
      replace (1000 * 2 ^ 53 * (y * c)) with (1000 * 2 ^ 53 * y * c) in L by ring. apply Z.mul_lt_mono_pos_r in L; [|exact C0].
      change (2 ^ 53) with 9007199254740992 in *. lia.
Qed.

Theorem set_any_float off other f a : amount f a -> Z.abs a < 1000 * 2 ^ 38 * smallest ->
  exists w, Z.abs (w * smallest - 1000 * a) < 16 * smallest
    /\ (Z.abs a < 1000 * 2 ^ 33 * smallest -> Z.abs (w * smallest - 1000 * a) < smallest)
    /\ (in_years off (w / 1000) -> exists d, @stamp_set_millis (fixed_clock off other) (PFloat f) = Ok (Some d)
          /\ valid_dt d = true /\ tz d = None /\ wall_us d = w + (off + epoch_day * 86400) * 1000000)
    /\ (~ in_years off (w / 1000) -> @stamp_set_millis (fixed_clock off other) (PFloat f) = Raise ValueError).
Proof.
  intros A L. assert (S0 := smallest_pos).
  destruct (seconds_near a (1000 * smallest)) as (s & u & SE & U & X & X1); [lia|lia|].
  rewrite (float_quotient off other f a A) by (change (2 ^ 38) with 274877906944 in L; change (2 ^ 53) with 9007199254740992; lia). unfold local_of. rewrite SE. exists (1000000 * s + u).
  assert (W : (1000000 * s + u) / 1000 / 1000 = s).
  { rewrite Z.div_div by lia. rewrite Z.add_comm, Z.mul_comm, Z.div_add by lia. rewrite Z.div_small by lia. lia. }
  assert (SC : (1000000 * s + u) * (1000 * smallest) - 1000000 * a = 1000 * ((1000000 * s + u) * smallest - 1000 * a)) by ring.
  rewrite SC, Z.abs_mul in X, X1. change (Z.abs 1000) with 1000 in *.
  split; [lia|]. split; [intros H; specialize (X1 ltac:(lia)); lia|]. unfold in_years. rewrite W. split.
  - intros Y. destruct (clock_date_ok _ u Y U) as (d & E & V & T & _ & WD). exists d. rewrite E. cbn [bind].
    repeat split; auto. rewrite WD. ring.
  - intros Y. now rewrite clock_date_bad.
Qed.
Theorem set_float_outside off other f a : offset_ok off -> amount f a ->
  1000 * 2 ^ 38 * smallest <= Z.abs a < 1000 * 2 ^ 53 * smallest ->
  @stamp_set_millis (fixed_clock off other) (PFloat f) = Raise ValueError.
Proof.
  intros O A [L1 L2]. assert (S0 := smallest_pos). rewrite (float_quotient off other f a A L2). unfold local_of.
  destruct (seconds_far a (1000 * smallest)) as (s & u & E & S38); [lia|lia|]. rewrite E. now rewrite far_years.
Qed.
