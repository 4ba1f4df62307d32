(** Lemmas about the text of durations that are floats. *)
From Coq Require Import String ZArith Bool SpecFloat Lia List.
From Verif Require Import Base.PyBase Base.PyVal Base.PyFloat Model.Duration Spec.Duration Proofs.BaseFacts Proofs.TokenFacts
  Proofs.FloatFacts.
Import ListNotations.
Local Open Scope Z_scope.

Section WithFloatIO.
Context `{FIO : FloatIO}.

Lemma float_step W label sm u : worth (snd sm) u -> 0 < W -> u < 2 ^ 53 * smallest ->
  exists r, float_part W label sm = (fst sm ++ part_float (if W * smallest <? u then u / (W * smallest) else 0) label, r)
  /\ worth r (if W * smallest <? u then u mod (W * smallest) else u).
Proof.
  destruct sm as [sb x]. cbn [fst snd]. intros X HW U. unfold float_part. rewrite (gt_worth x u W X HW). unfold part_float.
  assert (S0 := smallest_pos). destruct (Z.ltb_spec (W * smallest) u) as [L|L].
  - rewrite (proj2 (Z.compare_gt_iff _ _)) by lia.
    destruct (divmod_worth x u W X HW (conj L U)) as (r & -> & R). exists r. split; [|exact R].
    assert (0 < u / (W * smallest)) by (apply Z.div_str_pos; nia).
    destruct (Z.eqb_spec (u / (W * smallest)) 0); [lia|reflexivity].
  - exists x. split; [|exact X]. replace (0 =? 0) with true by reflexivity. rewrite app_nil_r.
    destruct (Z.compare_spec u (W * smallest)); try reflexivity. lia.
Qed.

Theorem float_decomposition x u : worth x u -> u < 2 ^ 53 * smallest -> exists d h m s ms r,
  format_float x = part_float d (py " days, ") ++ part_float h (py " hours, ") ++ part_float m (py " minutes, ")
                   ++ part_float s (py " seconds, ") ++ float_repr ms ++ py " milliseconds"
  /\ worth ms r /\ u = (d * 86400000 + h * 3600000 + m * 60000 + s * 1000) * smallest + r
  /\ 0 <= d /\ 0 <= h <= 24 /\ 0 <= m <= 60 /\ 0 <= s <= 60 /\ 0 <= r <= 1000 * smallest
  /\ (h = 24 <-> u = 86400000 * smallest) /\ (m = 60 <-> u mod (86400000 * smallest) = 3600000 * smallest)
  /\ (s = 60 <-> u mod (3600000 * smallest) = 60000 * smallest)
  /\ (r = 1000 * smallest <-> u mod (60000 * smallest) = 1000 * smallest).
Proof.
  intros X UB. assert (Z0 := worth_nonneg x u X). unfold format_float.
  assert (K0 := smallest_pos).
  assert (U1 : 0 < 86400000 * smallest) by lia. assert (U2 : 0 < 3600000 * smallest) by lia.
  assert (U3 : 0 < 60000 * smallest) by lia. assert (U4 : 0 < 1000 * smallest) by lia.
  assert (V1 : 0 < 3600000 * smallest < 86400000 * smallest) by lia.
  assert (V2 : 0 < 60000 * smallest < 3600000 * smallest) by lia.
  assert (V3 : 0 < 1000 * smallest < 60000 * smallest) by lia.
  match goal with |- context [float_part 86400000 ?l ?b] =>
    destruct (float_step 86400000 l b u X eq_refl ltac:(lia)) as (x1 & -> & X1) end.
  destruct (unit_step _ u U1 Z0) as (A1 & B1 & C1 & D1).
  set (d := if 86400000 * smallest <? u then u / (86400000 * smallest) else 0) in *.
  set (r1 := if 86400000 * smallest <? u then u mod (86400000 * smallest) else u) in *. clearbody d r1. destruct B1 as [B1 B1'].
  match goal with |- context [float_part 3600000 ?l ?b] =>
    destruct (float_step 3600000 l b r1 X1 eq_refl ltac:(lia)) as (x2 & -> & X2) end.
  destruct (unit_step _ r1 U2 B1) as (A2 & B2 & C2 & D2).
  set (h := if 3600000 * smallest <? r1 then r1 / (3600000 * smallest) else 0) in *.
  set (r2 := if 3600000 * smallest <? r1 then r1 mod (3600000 * smallest) else r1) in *. clearbody h r2. destruct B2 as [B2 B2'].
  match goal with |- context [float_part 60000 ?l ?b] =>
    destruct (float_step 60000 l b r2 X2 eq_refl ltac:(lia)) as (x3 & -> & X3) end.
  destruct (unit_step _ r2 U3 B2) as (A3 & B3 & C3 & D3).
  set (m := if 60000 * smallest <? r2 then r2 / (60000 * smallest) else 0) in *.
  set (r3 := if 60000 * smallest <? r2 then r2 mod (60000 * smallest) else r2) in *. clearbody m r3. destruct B3 as [B3 B3'].
  match goal with |- context [float_part 1000 ?l ?b] =>
    destruct (float_step 1000 l b r3 X3 eq_refl ltac:(lia)) as (x4 & -> & X4) end.
  destruct (unit_step _ r3 U4 B3) as (A4 & B4 & C4 & D4).
  set (s := if 1000 * smallest <? r3 then r3 / (1000 * smallest) else 0) in *.
  set (r4 := if 1000 * smallest <? r3 then r3 mod (1000 * smallest) else r3) in *. clearbody s r4. destruct B4 as [B4 B4'].
  remember smallest as K eqn:HK. clear HK.
  destruct (unit_count (3600000 * K) 24 r1 h r2) as [H1 H2]; try reflexivity; auto; [clear - B1 B1'; lia|].
  destruct (unit_count (60000 * K) 60 r2 m r3) as [M1 M2]; try reflexivity; auto; [clear - B2 B2'; lia|].
  destruct (unit_count (1000 * K) 60 r3 s r4) as [S1 S2]; try reflexivity; auto; [clear - B3 B3'; lia|].
  exists d, h, m, s, x4, r4. split; [cbn [fst app]; rewrite <- !app_assoc; reflexivity|].
  split; [exact X4|]. split; [rewrite A1, A2, A3, A4; ring|].
  split; [exact C1|]. split; [auto|]. split; [auto|]. split; [auto|]. split; [auto|].
  split; [rewrite H2, <- D1; replace (3600000 * K * 24) with (86400000 * K) by ring; reflexivity|]. split.
  { rewrite M2. replace (60000 * K * 60) with (3600000 * K) by ring. rewrite D2, A1.
    replace (86400000 * K * d + r1) with (r1 + d * (86400000 * K)) by ring.
    symmetry. apply mod_hit; auto. }
  split.
  { rewrite S2. replace (1000 * K * 60) with (60000 * K) by ring. rewrite D3, A1, A2.
    replace (86400000 * K * d + (3600000 * K * h + r2)) with (r2 + (24 * d + h) * (3600000 * K)) by ring.
    symmetry. apply mod_hit; auto. }
  rewrite D4, A1, A2, A3.
  replace (86400000 * K * d + (3600000 * K * h + (60000 * K * m + r3)))
    with (r3 + (1440 * d + 60 * h + m) * (60000 * K)) by ring.
  symmetry. apply mod_hit; auto.
Qed.

(** Any number of days: the rest is exact. *)
Theorem float_days x u : worth x u -> 86400000 * smallest < u -> exists q r,
  worth r (u mod (86400000 * smallest)) /\ format_float x = float_repr q ++ py " days, " ++ format_float r.
Proof.
  intros X U. assert (K0 := smallest_pos).
  assert (R := rem_worth x u 86400000 X ltac:(lia) ltac:(lia)).
  unfold format_float at 1. unfold float_part at 4. rewrite (gt_worth x u 86400000 X eq_refl).
  rewrite (proj2 (Z.compare_gt_iff _ _)) by lia. destruct (f_divmod x (f_norm 86400000 0)) as [q r]. cbn [snd] in R.
  exists q, r. split; [exact R|].
  assert (P : forall W label sb y, float_part W label (sb, y)
              = (sb ++ fst (float_part W label ([], y)), snd (float_part W label ([], y)))).
  { intros W label sb y. unfold float_part. destruct (num_cmp _ _) as [[| |]|]; cbn [fst snd]; rewrite ?app_nil_r; try reflexivity.
    destruct (f_divmod y _). reflexivity. }
  unfold format_float. unfold float_part at 7. rewrite (gt_worth r _ 86400000 R eq_refl).
  rewrite (proj2 (Z.compare_lt_iff _ _)) by (apply Z.mod_pos_bound; lia).
  rewrite (P 3600000 _ ([] ++ _) r). rewrite (P 3600000 (py " hours, ") [] r).
  destruct (float_part 3600000 (py " hours, ") ([], r)) as [b1 r1]. cbn [fst snd].
  rewrite (P 60000 _ (_ ++ b1) r1), (P 60000 _ ([] ++ b1) r1).
  destruct (float_part 60000 (py " minutes, ") ([], r1)) as [b2 r2]. cbn [fst snd].
  rewrite (P 1000 _ (_ ++ b2) r2). rewrite (P 1000 _ (([] ++ b1) ++ b2) r2).
  destruct (float_part 1000 (py " seconds, ") ([], r2)) as [b3 r3]. cbn [fst snd app].
  rewrite <- !app_assoc. reflexivity.
Qed.

Theorem float_other :
  (forall m e, format_float (S754_finite true m e) = float_repr (S754_finite true m e) ++ py " milliseconds")
  /\ format_float (S754_infinity true) = float_repr (S754_infinity true) ++ py " milliseconds"
  /\ format_float S754_nan = float_repr S754_nan ++ py " milliseconds"
  /\ format_float (S754_infinity false) = float_repr S754_nan ++ py " days, " ++ float_repr S754_nan ++ py " milliseconds".
Proof.
  split; [|split; [reflexivity|split; [reflexivity|]]].
  2: { unfold format_float. cbn -[py app]. cbn [app]. now rewrite <- app_assoc. }
  intros m e.
  assert (P : forall W label sb, 0 < W -> float_part W label (sb, S754_finite true m e) = (sb, S754_finite true m e)).
  { intros W label sb HW. unfold float_part. cbn [num_of_float num_cmp]. unfold fin_cmp.
    assert (0 < 2 ^ (e - Z.min e 0)) by (apply pow_pos; lia). assert (0 < 2 ^ (0 - Z.min e 0)) by (apply pow_pos; lia).
    rewrite (proj2 (Z.compare_lt_iff _ _)); [reflexivity|]. nia. }
  unfold format_float. rewrite !P by reflexivity. reflexivity.
Qed.
End WithFloatIO.
