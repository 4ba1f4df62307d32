(** Lemmas about doubles: results that can be represented are exact. *)
From Coq Require Import ZArith Bool SpecFloat Lia List.
From Verif Require Import Base.PyBase Base.PyVal Base.PyFloat Spec.Duration.
Local Open Scope Z_scope.

Lemma pow_pos k : 0 <= k -> 0 < 2 ^ k.
Proof. intros. now apply Z.pow_pos_nonneg. Qed.

(** ** Digits *)
Lemma digits_log p : Zpos (digits2_pos p) = Z.log2 (Zpos p) + 1.
Proof.
  induction p as [p IH|p IH|]; cbn [digits2_pos]; [| |reflexivity].
  - rewrite Pos2Z.inj_succ, IH. rewrite (Pos2Z.inj_xI p). rewrite Z.log2_succ_double by lia. lia.
  - rewrite Pos2Z.inj_succ, IH. rewrite (Pos2Z.inj_xO p). rewrite Z.log2_double by lia. lia.
Qed.
Lemma digits2_log m : 0 < m -> Zdigits2 m = Z.log2 m + 1.
Proof. destruct m as [|p|p]; try lia. intros _. apply digits_log. Qed.
Lemma digits_shift m k : 0 < m -> 0 <= k -> Zdigits2 (m * 2 ^ k) = Zdigits2 m + k.
Proof.
  intros M K. assert (0 < 2 ^ k) by now apply pow_pos.
  rewrite !digits2_log by lia. rewrite Z.log2_mul_pow2 by lia. lia.
Qed.
Lemma digits_le m k : 0 < m < 2 ^ k -> Zdigits2 m <= k.
Proof. intros [A B]. rewrite digits2_log by lia. apply Z.log2_lt_pow2 in B; lia. Qed.

(** ** Shifts *)
Lemma iter_shift p : forall m, 0 <= m ->
  iter_pos shr_1 p (Build_shr_record (m * 2 ^ Zpos p) false false) = Build_shr_record m false false.
Proof.
  assert (ONE : forall m, 0 <= m -> shr_1 (Build_shr_record (m * 2) false false) = Build_shr_record m false false).
  { intros m H. destruct m as [|q|q]; [reflexivity| |lia]. rewrite Z.mul_comm. reflexivity. }
  induction p as [p IH|p IH|]; intros m H; cbn [iter_pos].
  - assert (0 < 2 ^ Zpos p) by (apply pow_pos; lia).
    replace (m * 2 ^ Zpos p~1) with (m * 2 ^ Zpos p * 2 ^ Zpos p * 2)
      by (replace (Zpos p~1) with (Zpos p + Zpos p + 1) by lia; rewrite !Z.pow_add_r by lia; change (2 ^ 1) with 2; ring).
    rewrite ONE, IH, IH by nia. reflexivity.
  - assert (0 < 2 ^ Zpos p) by (apply pow_pos; lia).
    replace (m * 2 ^ Zpos p~0) with (m * 2 ^ Zpos p * 2 ^ Zpos p)
      by (replace (Zpos p~0) with (Zpos p + Zpos p) by lia; rewrite !Z.pow_add_r by lia; ring).
    rewrite IH, IH by nia. reflexivity.
  - now apply ONE.
Qed.

Notation fx := (fexp 53 1024).
Lemma fx_eq k : fx k = Z.max (k - 53) (-1074).
Proof. reflexivity. Qed.

Lemma shr_exact m e : 0 < m -> forall M, m = M * 2 ^ Z.max 0 (fx (Zdigits2 m + e) - e) ->
  shr_fexp 53 1024 m e loc_Exact = (Build_shr_record M false false, Z.max e (fx (Zdigits2 m + e))).
Proof.
  intros P M E. unfold shr_fexp. cbn [shr_record_of_loc]. remember (fx (Zdigits2 m + e)) as F eqn:HF.
  destruct (F - e) as [|p|p] eqn:D; cbn [shr].
  - replace (Z.max 0 0) with 0 in E by reflexivity. change (2 ^ 0) with 1 in E. replace M with m by lia. f_equal. lia.
  - rewrite Z.max_r in E by lia. rewrite E.
    rewrite iter_shift; [f_equal; lia|]. assert (0 < 2 ^ Zpos p) by (apply pow_pos; lia). nia.
  - rewrite Z.max_l in E by lia. change (2 ^ 0) with 1 in E. replace M with m by lia. f_equal. lia.
Qed.

(** ** Rounding a number that needs no rounding *)

(** [u] units are the value of a double. *)
Definition fits (u : Z) : Prop := exists M k, 0 < M < 2 ^ 53 /\ 0 <= k /\ u = M * 2 ^ k /\ u < 2 ^ 2098.

Lemma fits_digits u : fits u -> 0 < u /\ Zdigits2 u <= 2098 /\ exists N, 0 < N < 2 ^ 53 /\
  u = N * 2 ^ Z.max 0 (Zdigits2 u - 53).
Proof.
  intros (M & k & HM & K & E & B). assert (0 < 2 ^ k) by now apply pow_pos.
  assert (U : 0 < u) by nia. split; [exact U|]. split; [apply digits_le; lia|].
  assert (D := digits_le M 53 HM).
  assert (DU : Zdigits2 u = Zdigits2 M + k) by (rewrite E; apply digits_shift; lia).
  assert (M1 : 1 <= Zdigits2 M) by (rewrite digits2_log by lia; pose proof (Z.log2_nonneg M); lia).
  rewrite DU. exists (M * 2 ^ (k - Z.max 0 (Zdigits2 M + k - 53))).
  assert (J : 0 <= k - Z.max 0 (Zdigits2 M + k - 53)) by lia.
  assert (0 < 2 ^ (k - Z.max 0 (Zdigits2 M + k - 53))) by now apply pow_pos.
  split; [split; [nia|]|].
  - apply Z.log2_lt_cancel. rewrite Z.log2_mul_pow2 by lia. rewrite digits2_log in * by lia.
    change (Z.log2 (2 ^ 53)) with 53. lia.
  - rewrite E, <- Z.mul_assoc, <- Z.pow_add_r by lia. f_equal. f_equal. lia.
Qed.

Lemma aux_exact s m e u : 0 < m -> -1074 <= e -> fits u -> u = m * 2 ^ (e + 1074) -> e <= fx (Zdigits2 m + e) ->
  exists p f, binary_round_aux 53 1024 s m e loc_Exact = S754_finite s p f
  /\ bounded 53 1024 p f = true /\ u = Zpos p * 2 ^ (f + 1074) /\ -1074 <= f.
Proof.
  intros P LO FT U LE. destruct (fits_digits u FT) as (UP & UB & N & HN & EN).
  assert (DU : Zdigits2 u = Zdigits2 m + e + 1074) by (rewrite U, digits_shift by lia; lia).
  remember (fx (Zdigits2 m + e)) as F eqn:HF.
  assert (FE : F = Z.max 0 (Zdigits2 u - 53) - 1074) by (rewrite HF, fx_eq, DU; lia).
  assert (X : m = N * 2 ^ Z.max 0 (F - e)).
  { rewrite Z.max_r by lia. apply (Z.mul_reg_r _ _ (2 ^ (e + 1074))); [apply Z.pow_nonzero; lia|].
    rewrite <- U, <- Z.mul_assoc, <- Z.pow_add_r by lia. rewrite EN. f_equal. f_equal. lia. }
  unfold binary_round_aux. rewrite (shr_exact m e P N) by now rewrite <- HF. cbn [loc_of_shr_record round_nearest_even shr_m].
  rewrite <- HF. rewrite Z.max_r by lia.
  assert (DN : Zdigits2 N + F = Zdigits2 m + e).
  { replace (Zdigits2 m) with (Zdigits2 (N * 2 ^ Z.max 0 (F - e))) by now rewrite <- X. rewrite digits_shift by lia. lia. }
  rewrite (shr_exact N F ltac:(lia) N).
  2: { rewrite DN. rewrite <- HF. rewrite Z.sub_diag. cbn. lia. }
  rewrite DN. rewrite <- HF. rewrite Z.max_id. cbn [shr_m].
  destruct N as [|p|p]; try lia.
  replace (F <=? 1024 - 53) with true by (symmetry; apply Z.leb_le; lia).
  exists p, F. split; [reflexivity|]. split; [|split; [rewrite EN; f_equal; f_equal; lia|lia]].
  unfold bounded, canonical_mantissa. change (Zpos (digits2_pos p)) with (Zdigits2 (Zpos p)). rewrite DN. rewrite <- HF.
  apply andb_true_intro. split; [now apply Zeq_is_eq_bool|apply Z.leb_le; lia].
Qed.

Lemma norm_exact m e z u : 0 < m -> -1074 <= e -> fits u -> u = m * 2 ^ (e + 1074) ->
  exists f, binary_normalize 53 1024 m e z = f /\ worth f u.
Proof.
  intros P LO FT U. destruct m as [|p|p]; try lia. cbn [binary_normalize]. unfold binary_round.
  destruct (fits_digits u FT) as (UP & UB & _).
  assert (DU : Zdigits2 u = Zpos (digits2_pos p) + e + 1074).
  { rewrite U, digits_shift by lia. cbn [Zdigits2]. lia. }
  assert (A : exists q g, shl_align p e (fx (Zpos (digits2_pos p) + e)) = (q, g)
     /\ -1074 <= g /\ u = Zpos q * 2 ^ (g + 1074) /\ g <= fx (Zdigits2 (Zpos q) + g)).
  { unfold shl_align. remember (fx (Zpos (digits2_pos p) + e)) as F eqn:HF. assert (F1 := HF). rewrite fx_eq in F1.
    destruct (F - e) as [|d|d] eqn:D.
    - exists p, e. repeat split; auto. cbn [Zdigits2]. lia.
    - exists p, e. repeat split; auto. cbn [Zdigits2]. lia.
    - exists (shift_pos d p), F.
      assert (SP : Zpos (shift_pos d p) = Zpos p * 2 ^ Zpos d)
        by (rewrite shift_pos_correct; change (Z.pow_pos 2 d) with (2 ^ Zpos d); ring).
      split; [reflexivity|]. split; [lia|]. split.
      + rewrite SP, U, <- Z.mul_assoc, <- Z.pow_add_r by lia. f_equal. f_equal. lia.
      + rewrite SP, digits_shift by lia. cbn [Zdigits2]. rewrite fx_eq. lia. }
  destruct A as (q & g & -> & G & UQ & LE).
  destruct (aux_exact false (Zpos q) g u ltac:(lia) G FT UQ LE) as (r & f & -> & V & UU & _).
  eexists. split; [reflexivity|]. cbn [worth valid_binary]. now split.
Qed.

(** ** Doubles and their values *)
Lemma worth_finite f u : worth f u -> 0 < u -> exists m e, f = S754_finite false m e
  /\ 0 < Zpos m < 2 ^ 53 /\ -1074 <= e <= 971 /\ u = Zpos m * 2 ^ (e + 1074) /\ fx (Zdigits2 u - 1074) = e.
Proof.
  destruct f as [s|s| |[|] m e]; cbn [worth]; try easy; [lia|]. intros [V E] P. exists m, e.
  cbn [valid_binary] in V. unfold bounded, canonical_mantissa in V. apply andb_prop in V. destruct V as [C B].
  apply Zeq_bool_eq in C. apply Z.leb_le in B. assert (C' := C). rewrite fx_eq in C'.
  assert (DM : 1 <= Zpos (digits2_pos m)) by lia.
  split; [reflexivity|]. split; [split; [lia|]|split; [lia|split; [exact E|]]].
  - apply Z.log2_lt_cancel. change (Z.log2 (2 ^ 53)) with 53. rewrite digits_log in C'. lia.
  - rewrite E, digits_shift by lia. cbn [Zdigits2]. rewrite <- C at 2. f_equal. lia.
Qed.
Lemma worth_unique f g u : worth f u -> worth g u -> 0 < u -> f = g.
Proof.
  intros F G P. destruct (worth_finite f u F P) as (m & e & -> & _ & H1 & E1 & X1).
  destruct (worth_finite g u G P) as (n & k & -> & _ & H2 & E2 & X2).
  assert (e = k) as <- by congruence. f_equal. rewrite E1 in E2. apply Z.mul_reg_r in E2; [congruence|].
  apply Z.pow_nonzero; lia.
Qed.
Lemma worth_fits f u : worth f u -> 0 < u -> fits u.
Proof.
  intros F P. destruct (worth_finite f u F P) as (m & e & _ & M & E & U & _).
  exists (Zpos m), (e + 1074). split; [exact M|]. split; [lia|]. split; [exact U|]. rewrite U.
  apply Z.lt_le_trans with (2 ^ 53 * 2 ^ (e + 1074)).
  - apply Z.mul_lt_mono_pos_r; [apply pow_pos; lia|lia].
  - rewrite <- Z.pow_add_r by lia. apply Z.pow_le_mono_r; lia.
Qed.
Lemma worth_nonneg f u : worth f u -> 0 <= u.
Proof.
  destruct f as [s|s| |[|] m e]; cbn [worth]; try easy; [lia|]. intros [_ ->]. pose proof (Z.pow_nonneg 2 (e + 1074)). nia.
Qed.
Lemma smallest_pos : 0 < smallest.
Proof. unfold smallest. apply pow_pos. lia. Qed.
Lemma int_fits n : 0 < n < 2 ^ 53 -> fits (n * smallest).
Proof.
  intros H. exists n, 1074. split; [exact H|]. split; [lia|]. split; [reflexivity|]. unfold smallest.
  apply Z.lt_le_trans with (2 ^ 53 * 2 ^ 1074).
  - apply Z.mul_lt_mono_pos_r; [apply pow_pos; lia|lia].
  - rewrite <- Z.pow_add_r by lia. apply Z.pow_le_mono_r; lia.
Qed.
Lemma int_worth n : 0 < n < 2 ^ 53 -> worth (f_norm n 0) (n * smallest).
Proof.
  intros H. destruct (norm_exact n 0 false (n * smallest)) as (f & E & W); try lia; [now apply int_fits|reflexivity|].
  unfold f_norm. now rewrite E.
Qed.

Lemma fmod_worth x y u v : worth x u -> worth y v -> 0 < u -> 0 < v -> worth (fmod x y) (u mod v).
Proof.
  intros X Y U V. assert (FV := worth_fits y v Y V). destruct (worth_finite x u X U) as (m & e & -> & M & E & EU & _).
  destruct (worth_finite y v Y V) as (n & k & -> & N & K & EV & _). cbn [fmod].
  set (g := Z.min e k). set (r := (Zpos m * 2 ^ (e - g)) mod (Zpos n * 2 ^ (k - g))).
  assert (G : 0 < 2 ^ (g + 1074)) by (apply pow_pos; lia).
  assert (EU' : u = Zpos m * 2 ^ (e - g) * 2 ^ (g + 1074))
    by (rewrite EU, <- Z.mul_assoc, <- Z.pow_add_r by lia; f_equal; f_equal; lia).
  assert (EV' : v = Zpos n * 2 ^ (k - g) * 2 ^ (g + 1074))
    by (rewrite EV, <- Z.mul_assoc, <- Z.pow_add_r by lia; f_equal; f_equal; lia).
  assert (P1 : 0 < 2 ^ (e - g)) by (apply pow_pos; lia). assert (P2 : 0 < 2 ^ (k - g)) by (apply pow_pos; lia).
  assert (R : u mod v = r * 2 ^ (g + 1074)) by (rewrite EU', EV'; apply Zmult_mod_distr_r).
  assert (RB : 0 <= r < Zpos n * 2 ^ (k - g)) by (apply Z.mod_pos_bound; nia).
  assert (RM : r <= Zpos m * 2 ^ (e - g)) by (apply Z.mod_le; nia).
  assert (R53 : r < 2 ^ 53).
  { destruct (Z.le_ge_cases e k) as [L|L]; unfold g in *; [rewrite Z.min_l in * by lia|rewrite Z.min_r in * by lia].
    - rewrite Z.sub_diag in RM. change (2 ^ 0) with 1 in RM. lia.
    - rewrite Z.sub_diag in RB. change (2 ^ 0) with 1 in RB. lia. }
  destruct (Z.eqb_spec r 0) as [Z0|NZ]; [cbn [worth]; rewrite R, Z0; reflexivity|].
  destruct (norm_exact r g false (u mod v)) as (f & EF & W); [lia|lia| |exact R|].
  - exists r, (g + 1074). split; [lia|]. split; [lia|]. split; [exact R|].
    destruct FV as (A & B & _ & _ & _ & C). pose proof (Z.mod_pos_bound u v V). lia.
  - unfold f_norm. now rewrite EF.
Qed.

Lemma align_exact m e k : k <= e -> Zpos (fst (shl_align m e k)) = Zpos m * 2 ^ (e - k).
Proof.
  intros H. unfold shl_align. destruct (k - e) as [|d|d] eqn:D; cbn [fst].
  - replace (e - k) with 0 by lia. change (2 ^ 0) with 1. lia.
  - lia.
  - rewrite shift_pos_correct. change (Z.pow_pos 2 d) with (2 ^ Zpos d). replace (e - k) with (Zpos d) by lia. ring.
Qed.
Lemma worth_zero f : worth f 0 -> exists s, f = S754_zero s.
Proof.
  destruct f as [s|s| |[|] m e]; cbn [worth]; try easy; [now exists s|]. intros [V Y]. exfalso.
  cbn [valid_binary] in V. unfold bounded, canonical_mantissa in V. apply andb_prop in V. destruct V as [C _].
  apply Zeq_bool_eq in C. rewrite fx_eq in C. assert (0 < 2 ^ (e + 1074)) by (apply pow_pos; lia). nia.
Qed.
Lemma sub_worth x y u v : worth x u -> worth y v -> 0 < u -> fits (u - v) -> worth (f_sub x y) (u - v).
Proof.
  intros X Y U F. destruct (worth_finite x u X U) as (m & e & -> & M & E & EU & _).
  assert (V := worth_nonneg y v Y). destruct (Z.eq_dec v 0) as [->|NV].
  { destruct (worth_zero y Y) as [s ->]. rewrite Z.sub_0_r. exact X. }
  destruct (worth_finite y v Y ltac:(lia)) as (n & k & -> & N & K & EV & _).
  cbn [f_sub SFsub cond_Zopp]. set (g := Z.min e k). rewrite !align_exact by lia.
  assert (D : u - v = (Zpos m * 2 ^ (e - g) - Zpos n * 2 ^ (k - g)) * 2 ^ (g + 1074)).
  { rewrite Z.mul_sub_distr_r, <- !Z.mul_assoc, <- !Z.pow_add_r by lia. rewrite EU, EV. f_equal; f_equal; f_equal; lia. }
  assert (G : 0 < 2 ^ (g + 1074)) by (apply pow_pos; lia).
  destruct (fits_digits _ F) as (P & _).
  destruct (norm_exact (Zpos m * 2 ^ (e - g) - Zpos n * 2 ^ (k - g)) g false (u - v)) as (f & EF & W);
    [nia|lia|exact F|exact D|].
  now rewrite EF.
Qed.
Lemma sub_self f u : worth f u -> 0 < u -> f_sub f f = S754_zero false.
Proof.
  intros X U. destruct (worth_finite f u X U) as (m & e & -> & _). cbn [f_sub SFsub cond_Zopp]. now rewrite Z.sub_diag.
Qed.

Lemma div_worth x y q v : worth x (q * v) -> worth y v -> 0 < v -> 0 < q < 2 ^ 53 -> worth (f_div x y) (q * smallest).
Proof.
  intros X Y V Q. destruct (worth_finite x (q * v) X ltac:(nia)) as (m & e & -> & M & E & EU & FE).
  destruct (worth_finite y v Y V) as (n & k & -> & N & K & EV & FK). cbn [f_div SFdiv].
  unfold SFdiv_core_binary. set (D := Zdigits2 (Zpos m) + e - (Zdigits2 (Zpos n) + k)).
  set (g := Z.min (fx D) (e - k)). cbn [xorb].
  assert (SH : match e - k - g with 0 => Zpos m | Zpos _ => Z.shiftl (Zpos m) (e - k - g) | Zneg _ => 0 end
               = Zpos m * 2 ^ (e - k - g)).
  { destruct (e - k - g) as [|d|d] eqn:S0; [change (2 ^ 0) with 1; lia|apply Z.shiftl_mul_pow2; lia|lia]. }
  rewrite SH.
  (* q * n * 2 ^ (k + 1074) = m * 2 ^ (e + 1074) *)
  assert (QN : q * Zpos n * 2 ^ (k + 1074) = Zpos m * 2 ^ (e + 1074)) by (rewrite <- EU, EV; ring).
  assert (DQ : Zdigits2 (q * Zpos n) + k = Zdigits2 (Zpos m) + e).
  { assert (A : Zdigits2 (q * Zpos n * 2 ^ (k + 1074)) = Zdigits2 (Zpos m * 2 ^ (e + 1074))) by now rewrite QN.
    rewrite !digits_shift in A by nia. lia. }
  assert (DD : D <= Zdigits2 q <= D + 1).
  { unfold D. rewrite <- DQ. rewrite !digits2_log by nia.
    pose proof (Z.log2_mul_above q (Zpos n) ltac:(lia) ltac:(lia)). pose proof (Z.log2_mul_below q (Zpos n) ltac:(lia) ltac:(lia)). lia. }
  assert (Q53 := digits_le q 53 Q).
  assert (G0 : g <= 0) by (unfold g; rewrite fx_eq; lia).
  assert (E' : Zpos m * 2 ^ (e - k - g) = q * 2 ^ (- g) * Zpos n).
  { apply (Z.mul_reg_r _ _ (2 ^ (k + 1074))); [apply Z.pow_nonzero; lia|].
    replace (q * 2 ^ (- g) * Zpos n * 2 ^ (k + 1074)) with (q * Zpos n * 2 ^ (k + 1074) * 2 ^ (- g)) by ring.
    rewrite QN, <- !Z.mul_assoc, <- !Z.pow_add_r by lia. f_equal. f_equal. lia. }
  rewrite E'.
  assert (DE : Z.div_eucl (q * 2 ^ (- g) * Zpos n) (Zpos n) = (q * 2 ^ (- g), 0)).
  { pose proof (Z.div_mul (q * 2 ^ (- g)) (Zpos n) ltac:(lia)) as A. pose proof (Z_mod_mult (q * 2 ^ (- g)) (Zpos n)) as B.
    unfold Z.div in A. unfold Z.modulo in B. destruct (Z.div_eucl _ _) as [a b]. now subst. }
  rewrite DE.
  assert (LOC : new_location (Zpos n) 0 = loc_Exact) by (unfold new_location, new_location_even, new_location_odd; now destruct (Z.even _)).
  rewrite LOC.
  assert (GP : 0 < 2 ^ (- g)) by (apply pow_pos; lia).
  assert (GL : -1074 <= g).
  { unfold g. assert (k <= e); [|rewrite fx_eq; lia]. rewrite <- FE, <- FK, !fx_eq.
    assert (Zdigits2 v <= Zdigits2 (q * v)); [|lia]. rewrite !digits2_log by nia.
    pose proof (Z.log2_le_mono v (q * v) ltac:(nia)). lia. }
  destruct (aux_exact false (q * 2 ^ (- g)) g (q * smallest)) as (p & f & -> & B & EP & _).
  - nia.
  - exact GL.
  - now apply int_fits.
  - unfold smallest. rewrite <- Z.mul_assoc, <- Z.pow_add_r by lia. f_equal. f_equal. lia.
  - rewrite digits_shift by lia. unfold g. rewrite !fx_eq. lia.
  - cbn [worth valid_binary]. now split.
Qed.

Lemma floor_worth f q : worth f (q * smallest) -> 0 < q < 2 ^ 53 -> f_floor f = f.
Proof.
  intros W Q. assert (S0 := smallest_pos). assert (W' := W).
  destruct (worth_finite f _ W ltac:(nia)) as (m & e & -> & M & E & EU & _). cbn [f_floor].
  destruct (Z.leb_spec 0 e) as [L|L]; [reflexivity|].
  assert (MQ : Zpos m = q * 2 ^ (- e)).
  { apply (Z.mul_reg_r _ _ (2 ^ (e + 1074))); [apply Z.pow_nonzero; lia|].
    rewrite <- EU, <- Z.mul_assoc, <- Z.pow_add_r by lia. unfold smallest. f_equal. f_equal. lia. }
  assert (P : 0 < 2 ^ (- e)) by (apply pow_pos; lia).
  rewrite MQ, Z.div_mul by lia. destruct (Z.eqb_spec q 0) as [Z0|_]; [lia|].
  apply (worth_unique _ _ (q * smallest)); [now apply int_worth|exact W'|nia].
Qed.

(** Floor division of a number below [2 ^ 53] by a smaller whole number. *)
Lemma divmod_worth x u W : worth x u -> 0 < W -> W * smallest < u < 2 ^ 53 * smallest ->
  exists r, f_divmod x (f_norm W 0) = (f_norm (u / (W * smallest)) 0, r) /\ worth r (u mod (W * smallest)).
Proof.
  intros X HW U. assert (S0 := smallest_pos). assert (W53 : W < 2 ^ 53) by nia.
  assert (Y := int_worth W ltac:(lia)). set (w := f_norm W 0) in *. set (v := W * smallest) in *.
  assert (V : 0 < v) by (unfold v; nia). set (q := u / v).
  assert (UD := Z.div_mod u v ltac:(lia)). assert (UM := Z.mod_pos_bound u v V). fold q in UD.
  assert (Q1 : 0 < q) by (unfold q; apply Z.div_str_pos; lia).
  assert (Q2 : q < 2 ^ 53) by (unfold v in *; nia).
  assert (R := fmod_worth x w u v X Y ltac:(lia) V).
  assert (FT : fits (u - u mod v)).
  { replace (u - u mod v) with (q * v) by lia. destruct (worth_finite x u X ltac:(lia)) as (m & e & _ & M & E & EU & FE).
    assert (E0 : e <= 0).
    { rewrite <- FE, fx_eq. assert (Zdigits2 u <= 53 + 1074); [|lia]. apply digits_le. split; [lia|].
      rewrite Z.pow_add_r by lia. apply U. }
    assert (P : 0 < 2 ^ (- e)) by (apply pow_pos; lia). assert (P2 : 0 < 2 ^ (e + 1074)) by (apply pow_pos; lia).
    assert (QV : q * v = q * W * 2 ^ (- e) * 2 ^ (e + 1074)).
    { unfold v, smallest. rewrite <- !Z.mul_assoc, <- Z.pow_add_r by lia. f_equal. f_equal. f_equal. lia. }
    destruct (worth_fits x u X ltac:(lia)) as (? & ? & _ & _ & _ & UB).
    exists (q * W * 2 ^ (- e)), (e + 1074). split; [|split; [lia|split; [exact QV|lia]]].
    split; [nia|]. apply Z.le_lt_trans with (Zpos m); [|lia].
    apply (Zmult_le_reg_r _ _ (2 ^ (e + 1074))); [lia|]. rewrite <- QV, <- EU. lia. }
  assert (SB := sub_worth x (fmod x w) u (u mod v) X R ltac:(lia) FT).
  replace (u - u mod v) with (q * v) in SB by lia.
  assert (DV := div_worth _ w q v SB Y V (conj Q1 Q2)).
  assert (FL := floor_worth _ q DV (conj Q1 Q2)). assert (SS := sub_self _ _ DV ltac:(nia)).
  assert (DN : f_div (f_sub x (fmod x w)) w = f_norm q 0).
  { apply (worth_unique _ _ (q * smallest)); [exact DV|now apply int_worth|nia]. }
  assert (T : f_true (f_div (f_sub x (fmod x w)) w) = true).
  { destruct (worth_finite _ _ DV ltac:(nia)) as (? & ? & -> & _). reflexivity. }
  assert (NW : f_neg w = false /\ f_sign w = false).
  { destruct (worth_finite _ _ Y V) as (? & ? & -> & _). split; reflexivity. }
  unfold f_divmod.
  set (d := f_div (f_sub x (fmod x w)) w) in *.
  assert (K : (if f_true d then let q0 := f_floor d in if SFltb f_half (f_sub d q0) then f_add q0 f_one else q0
               else S754_zero (f_sign (f_div x w))) = f_norm q 0).
  { rewrite T. cbv zeta. rewrite FL, SS. exact DN. }
  destruct (Z.eq_dec (u mod v) 0) as [Z0|NZ].
  - rewrite Z0 in R. destruct (worth_zero _ R) as [s ES]. rewrite ES. cbn [f_true]. cbv iota zeta in K |- *. rewrite K.
    eexists. split; [reflexivity|]. rewrite Z0. reflexivity.
  - destruct (worth_finite _ _ R ltac:(lia)) as (mr & er & ER & _).
    assert (TR : f_true (fmod x w) = true) by now rewrite ER. assert (NR : f_neg (fmod x w) = false) by now rewrite ER.
    rewrite TR, NR, (proj1 NW). cbn [Bool.eqb]. cbv iota zeta in K |- *. rewrite K. eexists. split; [reflexivity|exact R].
Qed.

(** The remainder is exact for any number. *)
Lemma rem_worth x u W : worth x u -> 0 < W < 2 ^ 53 -> 0 < u -> worth (snd (f_divmod x (f_norm W 0))) (u mod (W * smallest)).
Proof.
  intros X HW U. assert (S0 := smallest_pos). assert (Y := int_worth W HW). set (w := f_norm W 0) in *. set (v := W * smallest) in *.
  assert (V : 0 < v) by (unfold v; nia). assert (UM := Z.mod_pos_bound u v V).
  assert (R := fmod_worth x w u v X Y U V).
  assert (NW : f_neg w = false).
  { destruct (worth_finite _ _ Y V) as (? & ? & -> & _). reflexivity. }
  unfold f_divmod. destruct (Z.eq_dec (u mod v) 0) as [Z0|NZ].
  - rewrite Z0 in R |- *. destruct (worth_zero _ R) as [s ES]. rewrite ES. reflexivity.
  - destruct (worth_finite _ _ R ltac:(lia)) as (mr & er & ER & _).
    assert (TR : f_true (fmod x w) = true) by now rewrite ER. assert (NR : f_neg (fmod x w) = false) by now rewrite ER.
    rewrite TR, NR, NW. exact R.
Qed.

Lemma gt_worth x u W : worth x u -> 0 < W -> num_cmp (num_of_float x) (NFin W 0) = Some (u ?= W * smallest).
Proof.
  intros X HW. assert (S0 := smallest_pos). destruct (Z.eq_dec u 0) as [->|NZ].
  { destruct (worth_zero _ X) as [s ->]. cbn [num_of_float num_cmp]. f_equal. unfold fin_cmp.
    transitivity Lt; [|symmetry]; apply Z.compare_lt_iff; [cbn; lia|nia]. }
  assert (UP : 0 < u) by (pose proof (worth_nonneg _ _ X); lia).
  destruct (worth_finite x u X UP) as (m & e & -> & M & E & EU & FE). cbn [num_of_float num_cmp]. f_equal. unfold fin_cmp.
  set (g := Z.min e 0). assert (P2 : 0 < 2 ^ (g + 1074)) by (apply pow_pos; lia).
  replace (W * smallest) with (W * 2 ^ (0 - g) * 2 ^ (g + 1074))
    by (unfold smallest; rewrite <- Z.mul_assoc, <- Z.pow_add_r by lia; f_equal; f_equal; lia).
  replace u with (Zpos m * 2 ^ (e - g) * 2 ^ (g + 1074))
    by (rewrite EU, <- Z.mul_assoc, <- Z.pow_add_r by lia; f_equal; f_equal; lia).
  rewrite !(Z.mul_comm _ (2 ^ (g + 1074))). apply Zmult_compare_compat_l; lia.
Qed.
