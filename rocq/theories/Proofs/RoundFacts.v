(** Lemmas about doubles: what rounding costs. *)
From Coq Require Import ZArith Bool SpecFloat Lia List.
From Verif Require Import Base.PyBase Base.PyVal Base.PyFloat Spec.Duration Proofs.FloatFacts.
Local Open Scope Z_scope.

(** ** Shifting to the right *)

(** The record stands for [N / T]: the whole part and where the rest lies. *)
Definition shifted (N T : Z) (x : shr_record) : Prop :=
  0 <= shr_m x /\ exists r, N = shr_m x * T + r /\ 0 <= r < T /\
  match shr_r x, shr_s x with
  | false, false => r = 0
  | false, true => 0 < 2 * r < T
  | true, false => 2 * r = T
  | true, true => T < 2 * r
  end.

Lemma shift_1 N T x : shifted N T x -> shifted N (T * 2) (shr_1 x).
Proof.
  intros [P (r & E & B & L)]. destruct x as [M rr ss]. unfold shifted. cbn [shr_m shr_r shr_s] in *.
  destruct M as [|[p|p|]|p]; try lia; cbn [shr_1 shr_m shr_r shr_s].
  - split; [lia|]. exists r. split; [lia|]. split; [lia|]. destruct rr, ss; cbn [orb]; lia.
  - split; [lia|]. exists (T + r). split; [nia|]. split; [lia|]. destruct rr, ss; cbn [orb]; lia.
  - split; [lia|]. exists r. split; [nia|]. split; [lia|]. destruct rr, ss; cbn [orb]; lia.
  - split; [lia|]. exists (T + r). split; [nia|]. split; [lia|]. destruct rr, ss; cbn [orb]; lia.
Qed.
Lemma shift_iter N p : forall T x, shifted N T x -> shifted N (T * 2 ^ Zpos p) (iter_pos shr_1 p x).
Proof.
  induction p as [p IH|p IH|]; intros T x H; cbn [iter_pos].
  - replace (Zpos p~1) with (1 + Zpos p + Zpos p) by lia. rewrite !Z.pow_add_r by lia. rewrite !Z.mul_assoc.
    apply IH, IH. now apply shift_1.
  - replace (Zpos p~0) with (Zpos p + Zpos p) by lia. rewrite Z.pow_add_r by lia. rewrite Z.mul_assoc. now apply IH, IH.
  - now apply shift_1.
Qed.
Lemma shift_exact m : 0 <= m -> shifted m 1 (shr_record_of_loc m loc_Exact).
Proof. intros H. split; [exact H|]. exists 0. cbn. lia. Qed.

(** ** Rounding *)
Lemma nearest_of N T x : shifted N T x ->
  let M := round_nearest_even (shr_m x) (loc_of_shr_record x) in
  2 * Z.abs (M * T - N) <= T /\ shr_m x <= M <= shr_m x + 1.
Proof.
  intros [P (r & E & B & L)]. destruct x as [M rr ss]. cbn [shr_m shr_r shr_s] in *.
  destruct rr, ss; cbn [loc_of_shr_record round_nearest_even]; try destruct (Z.even M); repeat split; try lia.
Qed.

Lemma round_any s m e l N D : shifted N D (shr_record_of_loc m l) -> shr_m (shr_record_of_loc m l) = m ->
  0 < m -> 53 <= Zdigits2 m -> -1074 <= Zdigits2 m + e - 53 -> Zdigits2 m + e <= 1023 ->
  exists p g, binary_round_aux 53 1024 s m e l = S754_finite s p g /\ bounded 53 1024 p g = true
  /\ e <= g /\ 2 * Z.abs (Zpos p * 2 ^ (g - e) * D - N) <= D * 2 ^ (Zdigits2 m - 53)
  /\ Zpos p * 2 ^ (g - e) <= 2 ^ Zdigits2 m.
Proof.
  intros S0 SM P DG LO HI. remember (Zdigits2 m) as d eqn:HD. unfold binary_round_aux, shr_fexp.
  rewrite <- HD. rewrite fx_eq. rewrite Z.max_l by lia. replace (d + e - 53 - e) with (d - 53) by lia.
  assert (DP : 0 < D) by (destruct S0 as [_ (r & _ & B & _)]; lia).
  assert (NB : m * D <= N < (m + 1) * D) by (destruct S0 as [_ (r & E & B & _)]; rewrite SM in E; lia).
  assert (S1 : exists x, shr (shr_record_of_loc m l) e (d - 53) = (x, e + (d - 53)) /\ shifted N (D * 2 ^ (d - 53)) x).
  { destruct (d - 53) as [|n|n] eqn:K; [| |lia].
    - eexists. split; [cbn [shr]; now rewrite Z.add_0_r|]. now rewrite Z.mul_1_r.
    - eexists. split; [reflexivity|]. now apply shift_iter. }
  destruct S1 as (x & -> & SX). destruct (nearest_of _ _ x SX) as (ER & RG).
  remember (round_nearest_even (shr_m x) (loc_of_shr_record x)) as M eqn:HM.
  assert (TP : 0 < 2 ^ (d - 53)) by (apply pow_pos; lia).
  assert (MD : 2 ^ 52 <= shr_m x < 2 ^ 53).
  { destruct SX as [PX (r & E & B & _)].
    assert (LG : Z.log2 m = d - 1) by (rewrite HD, digits2_log by lia; lia).
    destruct (Z.log2_spec m P) as [A1 A2]. rewrite LG in A1, A2.
    replace (Z.succ (d - 1)) with (53 + (d - 53)) in A2 by lia. replace (d - 1) with (52 + (d - 53)) in A1 by lia.
    rewrite Z.pow_add_r in A1, A2 by lia. remember (2 ^ (d - 53)) as T. remember (2 ^ 52) as A. remember (2 ^ 53) as C.
    assert (B1 : A * T * D <= m * D) by (apply Z.mul_le_mono_nonneg_r; lia).
    assert (B2 : (m + 1) * D <= C * T * D) by (apply Z.mul_le_mono_nonneg_r; lia).
    replace (A * T * D) with (A * (D * T)) in B1 by ring. replace (C * T * D) with (C * (D * T)) in B2 by ring.
    remember (D * T) as W. assert (0 < W) by lia. clear - B1 B2 NB E B H. split.
    - assert (A * W < (shr_m x + 1) * W) by lia. apply Z.mul_lt_mono_pos_r in H0; lia.
    - assert (shr_m x * W < C * W) by lia. apply Z.mul_lt_mono_pos_r in H0; lia. }
  assert (MB : M < 2 ^ 53 \/ M = 2 ^ 53) by lia.
  assert (TD : 2 ^ d = 2 ^ 53 * 2 ^ (d - 53)) by (rewrite <- Z.pow_add_r by lia; f_equal; lia).
  destruct MB as [MB|MB].
  - assert (DM : Zdigits2 M = 53).
    { rewrite digits2_log by lia. enough (Z.log2 M = 52) by lia. apply Z.log2_unique; [lia|]. lia. }
    rewrite DM, fx_eq. replace (Z.max (53 + (e + (d - 53)) - 53) (-1074) - (e + (d - 53))) with 0 by lia.
    cbn [shr shr_m shr_record_of_loc]. destruct M as [|p|p]; try lia.
    replace (e + (d - 53) <=? 1024 - 53) with true by (symmetry; apply Z.leb_le; lia).
    exists p, (e + (d - 53)). split; [reflexivity|]. split; [|split; [lia|split]].
    + unfold bounded, canonical_mantissa. change (Zpos (digits2_pos p)) with (Zdigits2 (Zpos p)). rewrite DM, fx_eq.
      apply andb_true_intro. split; [apply Zeq_is_eq_bool; lia|apply Z.leb_le; lia].
    + replace (e + (d - 53) - e) with (d - 53) by lia.
      replace (Zpos p * 2 ^ (d - 53) * D) with (Zpos p * (D * 2 ^ (d - 53))) by ring. exact ER.
    + replace (e + (d - 53) - e) with (d - 53) by lia. rewrite TD. apply Z.mul_le_mono_nonneg_r; lia.
  - rewrite MB. change (Zdigits2 (2 ^ 53)) with 54. rewrite fx_eq.
    replace (Z.max (54 + (e + (d - 53)) - 53) (-1074) - (e + (d - 53))) with 1 by lia.
    change (shr (shr_record_of_loc (2 ^ 53) loc_Exact) (e + (d - 53)) 1)
      with (Build_shr_record (2 ^ 52) false false, e + (d - 53) + 1).
    cbn [shr_m]. change (2 ^ 52) with (Zpos 4503599627370496).
    replace (e + (d - 53) + 1 <=? 1024 - 53) with true by (symmetry; apply Z.leb_le; lia).
    eexists _, _. split; [reflexivity|].
    assert (X : 4503599627370496 * 2 ^ (e + (d - 53) + 1 - e) = M * 2 ^ (d - 53)).
    { replace (e + (d - 53) + 1 - e) with (1 + (d - 53)) by lia. rewrite Z.pow_add_r by lia. rewrite Z.mul_assoc.
      change (4503599627370496 * 2 ^ 1) with (2 ^ 53). now rewrite <- MB. }
    split; [|split; [lia|split]].
    + unfold bounded, canonical_mantissa. change (Zpos (digits2_pos 4503599627370496)) with 53. rewrite fx_eq.
      apply andb_true_intro. split; [apply Zeq_is_eq_bool; lia|apply Z.leb_le; lia].
    + rewrite X. replace (M * 2 ^ (d - 53) * D) with (M * (D * 2 ^ (d - 53))) by ring. exact ER.
    + rewrite X, TD, MB. lia.
Qed.

Lemma round_near s m e : 0 < m -> 53 <= Zdigits2 m -> -1074 <= Zdigits2 m + e - 53 -> Zdigits2 m + e <= 1023 ->
  exists p g, binary_round_aux 53 1024 s m e loc_Exact = S754_finite s p g /\ bounded 53 1024 p g = true
  /\ e <= g /\ 2 * Z.abs (Zpos p * 2 ^ (g - e) - m) <= 2 ^ (Zdigits2 m - 53).
Proof.
  intros P D LO HI.
  destruct (round_any s m e loc_Exact m 1 (shift_exact m ltac:(lia)) eq_refl P D LO HI) as (p & g & R & V & G & ER & _).
  exists p, g. rewrite Z.mul_1_r, Z.mul_1_l in ER. now repeat split.
Qed.

(** ** Quotients *)
Lemma digits_small z : 0 < z -> Zdigits2 z <= 53 -> z < 2 ^ 53.
Proof. intros P H. rewrite digits2_log in H by lia. apply Z.log2_lt_pow2; lia. Qed.
Lemma div_near a b : 0 < Zpos a <= Zpos b -> Zpos b < 2 ^ 1000 ->
  exists r, worth (f_div (S754_finite false a 0) (S754_finite false b 0)) r /\ 0 < r <= smallest
  /\ 2 ^ 53 * Z.abs (r * Zpos b - Zpos a * smallest) <= Zpos a * smallest.
Proof.
  intros AB B. cbn [f_div SFdiv xorb]. unfold SFdiv_core_binary.
  remember (Zpos a) as x eqn:HX. remember (Zpos b) as y eqn:HY.
  remember (Zdigits2 x) as d1 eqn:D1. remember (Zdigits2 y) as d2 eqn:D2.
  assert (L1 : d1 = Z.log2 x + 1) by (rewrite D1; apply digits2_log; lia).
  assert (L2 : d2 = Z.log2 y + 1) by (rewrite D2; apply digits2_log; lia).
  assert (LL : Z.log2 x <= Z.log2 y) by (apply Z.log2_le_mono; lia). assert (L0 := Z.log2_nonneg x).
  assert (LB : d2 <= 1000) by (rewrite D2; apply digits_le; lia).
  rewrite fx_eq. replace (Z.min (Z.max (d1 + 0 - (d2 + 0) - 53) (-1074)) (0 - 0)) with (d1 - d2 - 53) by lia.
  replace (0 - 0 - (d1 - d2 - 53)) with (53 + d2 - d1) by lia.
  remember (53 + d2 - d1) as s eqn:HS.
  assert (SH : match s with 0 => x | Zpos _ => Z.shiftl x s | Zneg _ => 0 end = x * 2 ^ s).
  { destruct s as [|k|k] eqn:K; [lia|apply Z.shiftl_mul_pow2; lia|lia]. }
  rewrite SH. clear SH.
  destruct (Z.div_eucl (x * 2 ^ s) y) as [q r] eqn:EQ.
  assert (Y0 : 0 < y) by lia.
  assert (DM := Z_div_mod (x * 2 ^ s) y ltac:(lia)). rewrite EQ in DM. destruct DM as [DE DR].
  destruct (Z.log2_spec x ltac:(lia)) as [X1 X2]. destruct (Z.log2_spec y Y0) as [Y1 Y2].
  assert (SP : 0 < 2 ^ s) by (apply pow_pos; lia).
  assert (QL : 2 ^ 52 <= q).
  { assert (2 ^ 52 * y < (q + 1) * y).
    { assert (y * 2 ^ 52 < 2 ^ Z.succ (Z.log2 y) * 2 ^ 52) by (apply Z.mul_lt_mono_pos_r; [reflexivity|exact Y2]).
      assert (2 ^ Z.log2 x * 2 ^ s <= x * 2 ^ s) by (apply Z.mul_le_mono_nonneg_r; lia).
      rewrite <- Z.pow_add_r in H, H0 by lia. replace (Z.succ (Z.log2 y) + 52) with (Z.log2 x + s) in H by lia. lia. }
    apply Z.mul_lt_mono_pos_r in H; lia. }
  assert (QH : q < 2 ^ 54).
  { assert (q * y < 2 ^ 54 * y).
    { assert (2 ^ Z.log2 y * 2 ^ 54 <= y * 2 ^ 54) by (apply Z.mul_le_mono_nonneg_r; lia).
      assert (x * 2 ^ s < 2 ^ Z.succ (Z.log2 x) * 2 ^ s) by (apply Z.mul_lt_mono_pos_r; lia).
      rewrite <- Z.pow_add_r in H, H0 by lia. replace (Z.succ (Z.log2 x) + s) with (Z.log2 y + 54) in H0 by lia. lia. }
    apply Z.mul_lt_mono_pos_r in H; lia. }
  assert (DQ : 53 <= Zdigits2 q <= 54).
  { split; [|apply digits_le; lia]. rewrite digits2_log by lia. enough (52 <= Z.log2 q) by lia. apply Z.log2_le_pow2; lia. }
  assert (SF : shifted (x * 2 ^ s) y (shr_record_of_loc q (new_location y r)) /\ shr_m (shr_record_of_loc q (new_location y r)) = q).
  { clear - DE DR QL Y0. unfold shifted, new_location, new_location_even, new_location_odd.
    assert (Q0 : 0 <= q) by lia.
    destruct (Z.even y) eqn:EV; destruct (Zeq_bool r 0) eqn:R0;
      try (apply Zeq_bool_eq in R0; subst r; cbn [shr_record_of_loc shr_m shr_r shr_s]; split; [split; [exact Q0|]; exists 0; lia|reflexivity]);
      apply Zeq_bool_neq in R0.
    - destruct (Z.compare_spec (2 * r) y); cbn [shr_record_of_loc shr_m shr_r shr_s];
        (split; [split; [exact Q0|]; exists r; lia|reflexivity]).
    - assert (OD : exists h, y = 2 * h + 1).
      { apply Z.odd_spec. rewrite <- Z.negb_even, EV. reflexivity. }
      destruct OD as [h ->].
      destruct (Z.compare_spec (2 * r + 1) (2 * h + 1)); cbn [shr_record_of_loc shr_m shr_r shr_s];
        (split; [split; [exact Q0|]; exists r; lia|reflexivity]). }
  destruct SF as [SF SM].
  destruct (round_any false q (d1 - d2 - 53) (new_location y r) (x * 2 ^ s) y SF SM) as (p & g & -> & V & GE & ER & UB); [lia|lia|lia|lia|].
  exists (Zpos p * 2 ^ (g + 1074)). split; [split; [exact V|reflexivity]|].
  (* the unit is 2 ^ -s *)
  assert (GS : d1 - d2 - 53 = - s) by lia. rewrite GS in *.
  remember (Zpos p * 2 ^ (g - - s)) as v eqn:HV.
  assert (RV : Zpos p * 2 ^ (g + 1074) = v * 2 ^ (1074 - s)).
  { rewrite HV, <- Z.mul_assoc, <- Z.pow_add_r by lia. f_equal. f_equal. lia. }
  rewrite RV. assert (S1 : smallest = 2 ^ s * 2 ^ (1074 - s)) by (rewrite <- Z.pow_add_r by lia; unfold smallest; f_equal; lia).
  rewrite S1. remember (2 ^ (1074 - s)) as W. assert (WP : 0 < W) by (rewrite HeqW; apply pow_pos; lia).
  assert (VP : 0 < v) by (rewrite HV; assert (0 < 2 ^ (g - - s)) by (apply pow_pos; lia); lia).
  assert (VS : v <= 2 ^ s).
  { destruct (Z.eq_dec (Z.log2 x) (Z.log2 y)) as [LE|LE].
    - (* the quotient lies between a half and one *)
      assert (SS : s = 53) by lia. rewrite SS in *.
      destruct (Z.eq_dec x y) as [XY|XY].
      + assert (Hq : q = 2 ^ 53 /\ r = 0).
        { apply (Z.div_mod_unique y); [left; exact DR|left; lia|]. rewrite <- DE, XY. ring. }
        destruct Hq as [-> ->]. change (Zdigits2 (2 ^ 53)) with 54 in *. change (54 - 53) with 1 in ER. change (2 ^ 1) with 2 in ER.
        rewrite XY in ER. assert (v * y - y * 2 ^ 53 = (v - 2 ^ 53) * y) by ring. rewrite H, Z.abs_mul, (Z.abs_eq y) in ER by lia.
        assert (Z.abs (v - 2 ^ 53) <= 1) by (apply (Z.mul_le_mono_pos_r _ _ y); lia).
        (* above 2 ^ 53 only even numbers *)
        assert (v = 2 ^ 53 + 1 \/ v <= 2 ^ 53) as [K|K] by lia; [|exact K]. exfalso.
        assert (1 <= g - - (53)).
        { unfold bounded, canonical_mantissa in V. apply andb_true_iff in V. destruct V as [V _]. apply Zeq_bool_eq in V.
          rewrite fx_eq in V. assert (PD : Zpos (digits2_pos p) <= 53) by lia.
          change (Zpos (digits2_pos p)) with (Zdigits2 (Zpos p)) in PD. assert (PL := digits_small (Zpos p) ltac:(lia) PD).
          destruct (Z.eq_dec (g - - (53)) 0) as [G0|G0]; [|lia]. rewrite G0 in HV. change (2 ^ 0) with 1 in HV. lia. }
        replace (g - - (53)) with (1 + (g - - (53) - 1)) in HV by lia. rewrite Z.pow_add_r in HV by lia. change (2 ^ 1) with 2 in HV.
        remember (2 ^ (g - - (53) - 1)) as Q. change (2 ^ 53) with (2 * 2 ^ 52) in K. lia.
      + assert (q < 2 ^ 53).
        { assert (q * y < 2 ^ 53 * y) by nia. apply Z.mul_lt_mono_pos_r in H; lia. }
        assert (DQ2 : Zdigits2 q <= 53) by (apply digits_le; lia).
        assert (Zdigits2 q = 53) as K by lia. rewrite K in UB. exact UB.
    - assert (54 <= s) by lia. apply Z.le_trans with (1 := UB). apply Z.pow_le_mono_r; lia. }
  split; [split; [apply Z.mul_pos_pos; lia|apply Z.mul_le_mono_nonneg_r; lia]|].
  replace (v * W * y - x * (2 ^ s * W)) with ((v * y - x * 2 ^ s) * W) by ring. rewrite Z.abs_mul, (Z.abs_eq W) by lia.
  replace (x * (2 ^ s * W)) with (x * 2 ^ s * W) by ring. rewrite Z.mul_assoc. apply Z.mul_le_mono_nonneg_r; [lia|].
  assert (K1 : y * 2 ^ (Zdigits2 q - 53) * 2 ^ 52 <= x * 2 ^ s).
  { rewrite <- Z.mul_assoc, <- Z.pow_add_r by lia.
    assert (2 ^ (Zdigits2 q - 53 + 52) <= q).
    { assert (LQ : Zdigits2 q = Z.log2 q + 1) by (apply digits2_log; lia). destruct (Z.log2_spec q ltac:(lia)) as [A _].
      replace (Zdigits2 q - 53 + 52) with (Z.log2 q) by lia. exact A. }
    assert (y * 2 ^ (Zdigits2 q - 53 + 52) <= y * q) by (apply Z.mul_le_mono_nonneg_l; lia). lia. }
  change (2 ^ 53) with (2 ^ 52 * 2). remember (2 ^ 52) as C eqn:HC. assert (0 < C) by (rewrite HC; reflexivity).
  remember (y * 2 ^ (Zdigits2 q - 53)) as A. remember (Z.abs (v * y - x * 2 ^ s)) as E. remember (x * 2 ^ s) as F. clear - K1 ER H. nia.
Qed.

(** ** Sums and products *)
Lemma round_amount s p e u : u = Zpos p * 2 ^ (e + 1074) -> -1074 <= e -> u < 2 ^ 43 * smallest ->
  exists q g, binary_round 53 1024 s p e = S754_finite s q g /\ bounded 53 1024 q g = true /\ -1074 <= g
  /\ 2 ^ 11 * Z.abs (Zpos q * 2 ^ (g + 1074) - u) <= smallest.
Proof.
  intros U LO B. unfold binary_round.
  assert (DU : Zdigits2 u = Zpos (digits2_pos p) + e + 1074).
  { rewrite U, digits_shift by lia. cbn [Zdigits2]. lia. }
  assert (UP : 0 < u) by (rewrite U; assert (0 < 2 ^ (e + 1074)) by (apply pow_pos; lia); lia).
  assert (A : exists q g, shl_align p e (fx (Zpos (digits2_pos p) + e)) = (q, g)
     /\ -1074 <= g /\ u = Zpos q * 2 ^ (g + 1074) /\ g <= fx (Zdigits2 (Zpos q) + g)).
  { unfold shl_align. remember (fx (Zpos (digits2_pos p) + e)) as F eqn:HF. assert (F1 := HF). rewrite fx_eq in F1.
    destruct (F - e) as [|d|d] eqn:D.
    - exists p, e. repeat split; auto. cbn [Zdigits2]. lia.
    - exists p, e. repeat split; auto. cbn [Zdigits2]. lia.
    - exists (shift_pos d p), F.
      assert (SP : Zpos (shift_pos d p) = Zpos p * 2 ^ Zpos d)
        by (rewrite shift_pos_correct; change (Z.pow_pos 2 d) with (2 ^ Zpos d); ring).
      split; [reflexivity|]. split; [lia|]. split.
      + rewrite SP, U, <- Z.mul_assoc, <- Z.pow_add_r by lia. f_equal. f_equal. lia.
      + rewrite SP, digits_shift by lia. cbn [Zdigits2]. rewrite fx_eq. lia. }
  destruct A as (q & g & -> & G & UQ & LE). clear p e DU LO U.
  assert (DQ : Zdigits2 u = Zdigits2 (Zpos q) + g + 1074) by (rewrite UQ, digits_shift by lia; lia).
  assert (S0 := smallest_pos). rewrite fx_eq in LE.
  assert (UB : Zdigits2 u <= 43 + 1074).
  { apply digits_le. split; [exact UP|]. rewrite Z.pow_add_r by lia. exact B. }
  destruct (Z_le_gt_dec (Zdigits2 u) 53) as [SM|BG].
  - assert (F : fits u).
    { exists u, 0. assert (X := digits_small u UP SM). split; [lia|]. split; [lia|]. split; [change (2 ^ 0) with 1; lia|].
      apply Z.lt_trans with (2 ^ 53); [exact X|]. apply Z.pow_lt_mono_r; lia. }
    destruct (aux_exact s (Zpos q) g u ltac:(lia) G F UQ ltac:(rewrite fx_eq; lia)) as (r & f & -> & V & UU & FL).
    exists r, f. split; [reflexivity|]. split; [exact V|]. split; [exact FL|]. rewrite <- UU, Z.sub_diag. change (Z.abs 0) with 0. lia.
  - destruct (round_near s (Zpos q) g ltac:(lia)) as (r & f & -> & V & GF & ER); [lia|lia|lia|].
    exists r, f. split; [reflexivity|]. split; [exact V|]. split; [lia|].
    assert (X : Zpos r * 2 ^ (f + 1074) - u = (Zpos r * 2 ^ (f - g) - Zpos q) * 2 ^ (g + 1074)).
    { rewrite UQ, Z.mul_sub_distr_r, <- Z.mul_assoc, <- Z.pow_add_r by lia. f_equal. f_equal. f_equal. lia. }
    rewrite X, Z.abs_mul. rewrite (Z.abs_eq (2 ^ (g + 1074))) by (apply Z.pow_nonneg; lia).
    remember (Z.abs (Zpos r * 2 ^ (f - g) - Zpos q)) as a.
    assert (A0 : 0 <= a) by lia. clear Heqa X.
    assert (Y : 2 * a * 2 ^ (g + 1074) <= 2 ^ (Zdigits2 (Zpos q) - 53) * 2 ^ (g + 1074)).
    { apply Z.mul_le_mono_nonneg_r; [apply Z.pow_nonneg; lia|exact ER]. }
    rewrite <- Z.pow_add_r in Y by lia.
    assert (W : 2 ^ (Zdigits2 (Zpos q) - 53 + (g + 1074)) <= 2 ^ (1074 - 10)) by (apply Z.pow_le_mono_r; lia).
    assert (S1 : smallest = 2 ^ 10 * 2 ^ (1074 - 10)) by (rewrite <- Z.pow_add_r by lia; reflexivity).
    rewrite S1. change (2 ^ 11) with (2 ^ 10 * 2). remember (2 ^ (1074 - 10)) as T. remember (2 ^ (g + 1074)) as R.
    remember (2 ^ (Zdigits2 (Zpos q) - 53 + (g + 1074))) as Q. clear - Y W A0. change (2 ^ 10) with 1024. nia.
Qed.

Lemma norm_near m e z b : z = m * 2 ^ (e + 1074) -> -1074 <= e -> Z.abs z < 2 ^ 43 * smallest ->
  exists r, amount (binary_normalize 53 1024 m e b) r /\ 2 ^ 11 * Z.abs (r - z) <= smallest.
Proof.
  intros E LO B. assert (S0 := smallest_pos). destruct m as [|p|p]; cbn [binary_normalize].
  - exists 0. split; [reflexivity|]. rewrite E. cbn [Z.mul Z.sub Z.abs]. lia.
  - destruct (round_amount false p e z E LO ltac:(lia)) as (q & g & -> & V & G & ER).
    eexists. split; [split; [exact V|reflexivity]|exact ER].
  - assert (E2 : - z = Zpos p * 2 ^ (e + 1074)) by (rewrite E; change (Zneg p) with (- Zpos p); ring).
    destruct (round_amount true p e (- z) E2 LO ltac:(lia)) as (q & g & -> & V & G & ER).
    eexists. split; [split; [exact V|reflexivity]|].
    replace (- (Zpos q * 2 ^ (g + 1074)) - z) with (- (Zpos q * 2 ^ (g + 1074) - - z)) by lia. now rewrite Z.abs_opp.
Qed.

Lemma sub_near x y u v : worth x u -> worth y v -> 0 < u -> 0 < v -> Z.abs (u - v) < 2 ^ 43 * smallest ->
  exists r, amount (f_sub x y) r /\ 2 ^ 11 * Z.abs (r - (u - v)) <= smallest.
Proof.
  intros X Y U V B. destruct (worth_finite x u X U) as (m & e & -> & M & E & EU & _).
  destruct (worth_finite y v Y V) as (n & k & -> & N & K & EV & _).
  cbn [f_sub SFsub cond_Zopp]. remember (Z.min e k) as g eqn:HG. rewrite !align_exact by lia.
  assert (D : u - v = (Zpos m * 2 ^ (e - g) - Zpos n * 2 ^ (k - g)) * 2 ^ (g + 1074)).
  { rewrite Z.mul_sub_distr_r, <- !Z.mul_assoc, <- !Z.pow_add_r by lia. rewrite EU, EV. f_equal; f_equal; f_equal; lia. }
  exact (norm_near _ g (u - v) false D ltac:(lia) B).
Qed.

Lemma mul_thousand x u : worth x u -> smallest <= u < 2 ^ 33 * smallest ->
  exists r, worth (f_mul x (f_norm 1000 0)) r /\ 2 ^ 11 * Z.abs (r - 1000 * u) <= smallest.
Proof.
  intros X B. assert (S0 := smallest_pos). destruct (worth_finite x u X ltac:(lia)) as (m & e & -> & M & E & EU & FE).
  assert (K : f_norm 1000 0 = S754_finite false 8796093022208000 (-43)) by (vm_compute; reflexivity). rewrite K. clear K.
  cbn [f_mul SFmul xorb].
  assert (DU : Zdigits2 u = Zdigits2 (Zpos m) + e + 1074) by (rewrite EU, digits_shift by lia; lia).
  assert (D1 : 1075 <= Zdigits2 u).
  { rewrite digits2_log by lia. enough (1074 <= Z.log2 u) by lia. apply Z.log2_le_pow2; [lia|]. apply B. }
  assert (D2 : Zdigits2 u <= 33 + 1074).
  { apply digits_le. split; [lia|]. rewrite Z.pow_add_r by lia. apply B. }
  assert (DM : Zdigits2 (Zpos m) = 53) by (rewrite fx_eq in FE; lia).
  remember (Zpos (m * 8796093022208000)) as t eqn:HT.
  assert (T : 2 ^ 105 - 2 ^ 52 <= 2 ^ 105 /\ 0 < t < 2 ^ 106 /\ 2 ^ 104 <= t).
  { split; [lia|]. assert (2 ^ 52 <= Zpos m).
    { rewrite digits2_log in DM by lia. destruct (Z.log2_spec (Zpos m) ltac:(lia)) as [A _].
      replace (Z.log2 (Zpos m)) with 52 in A by lia. exact A. }
    rewrite HT, Pos2Z.inj_mul. split; [split; [lia|]|].
    - change (2 ^ 106) with (2 ^ 53 * 2 ^ 53). remember (2 ^ 53) as C eqn:HC. assert (8796093022208000 < C) by (rewrite HC; reflexivity). nia.
    - change (2 ^ 104) with (2 ^ 52 * 2 ^ 52). remember (2 ^ 52) as C eqn:HC. assert (C <= 8796093022208000) by (rewrite HC; now apply Z.leb_le). nia. }
  destruct T as (_ & T1 & T2).
  assert (DT : 105 <= Zdigits2 t <= 106).
  { split; [|now apply digits_le]. rewrite digits2_log by lia. enough (104 <= Z.log2 t) by lia. apply Z.log2_le_pow2; lia. }
  assert (TU : 1000 * u = t * 2 ^ (e + -43 + 1074)).
  { rewrite EU, HT, Pos2Z.inj_mul. replace (e + 1074) with (43 + (e + -43 + 1074)) by lia. rewrite Z.pow_add_r by lia.
    change 8796093022208000 with (1000 * 2 ^ 43). ring. }
  assert (DTU : Zdigits2 (1000 * u) = Zdigits2 t + (e + -43 + 1074)) by (rewrite TU, digits_shift by lia; lia).
  assert (D3 : Zdigits2 (1000 * u) <= 43 + 1074).
  { apply digits_le. split; [lia|]. rewrite Z.pow_add_r by lia. change (2 ^ 43) with (1024 * 2 ^ 33).
    change (2 ^ 1074) with smallest. lia. }
  destruct (round_near false t (e + -43) ltac:(lia)) as (p & g & -> & V & GE & ER); [lia|lia|lia|].
  exists (Zpos p * 2 ^ (g + 1074)). split; [split; [exact V|reflexivity]|].
  assert (X1 : Zpos p * 2 ^ (g + 1074) - 1000 * u = (Zpos p * 2 ^ (g - (e + -43)) - t) * 2 ^ (e + -43 + 1074)).
  { rewrite TU, Z.mul_sub_distr_r, <- Z.mul_assoc, <- Z.pow_add_r by lia. f_equal. f_equal. f_equal. lia. }
  rewrite X1, Z.abs_mul. rewrite (Z.abs_eq (2 ^ (e + -43 + 1074))) by (apply Z.pow_nonneg; lia).
  remember (Z.abs (Zpos p * 2 ^ (g - (e + -43)) - t)) as a. assert (A0 : 0 <= a) by lia. clear Heqa X1.
  assert (Y : 2 * a * 2 ^ (e + -43 + 1074) <= 2 ^ (Zdigits2 t - 53) * 2 ^ (e + -43 + 1074)).
  { apply Z.mul_le_mono_nonneg_r; [apply Z.pow_nonneg; lia|exact ER]. }
  rewrite <- Z.pow_add_r in Y by lia.
  assert (W : 2 ^ (Zdigits2 t - 53 + (e + -43 + 1074)) <= 2 ^ (1074 - 10)) by (apply Z.pow_le_mono_r; lia).
  assert (S1 : smallest = 2 ^ 10 * 2 ^ (1074 - 10)) by (rewrite <- Z.pow_add_r by lia; reflexivity).
  rewrite S1. change (2 ^ 11) with (2 ^ 10 * 2). remember (2 ^ (1074 - 10)) as Q1. remember (2 ^ (e + -43 + 1074)) as Q2.
  remember (2 ^ (Zdigits2 t - 53 + (e + -43 + 1074))) as Q3. clear - Y W A0. change (2 ^ 10) with 1024. nia.
Qed.
