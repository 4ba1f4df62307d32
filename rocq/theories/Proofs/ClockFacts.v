(** Facts about ordinals, clocks and milliseconds. *)
From Coq Require Import String NArith ZArith List Bool SpecFloat Lia.
From Verif Require Import Base.PyBase Base.PyDate Base.PyClock Base.PyVal Base.PyFloat Model.Attr Model.StdExt Model.RandomLog Model.Millis
  Spec.Setters Spec.Duration Spec.Millis Proofs.DateFacts Proofs.SetterFacts Proofs.FloatFacts.
Import ListNotations.
Local Open Scope Z_scope.

(** ** Ordinals *)

Definition before (leap : bool) (m : Z) : Z :=
  nth (Z.to_nat (m - 1)) [0; 31; 59; 90; 120; 151; 181; 212; 243; 273; 304; 334] 0
  + (if (2 <? m) && leap then 1 else 0).
Definition month_of (leap : bool) (n : Z) : Z :=
  let month := (n + 50) / 32 in if before leap month >? n then month - 1 else month.
Definition month_len (leap : bool) (m : Z) : Z :=
  if m =? 2 then (if leap then 29 else 28)
  else if (m =? 4) || (m =? 6) || (m =? 9) || (m =? 11) then 30 else 31.

Lemma month_of_ok leap n : 0 <= n < 365 ->
  1 <= month_of leap n <= 12 /\ 0 <= n - before leap (month_of leap n) < month_len leap (month_of leap n).
Proof.
  intros H.
  assert (K : (let m := month_of leap n in (1 <=? m) && (m <=? 12) && (0 <=? n - before leap m)
    && (n - before leap m <? month_len leap m)) = true).
  { revert n H. destruct leap; apply (check_below 365); vm_compute; reflexivity. }
  cbv zeta in K. repeat rewrite andb_true_iff in K. lia.
Qed.

Lemma leap_of q c q4 r : 0 <= c <= 3 -> 0 <= q4 <= 24 -> 0 <= r <= 3 ->
  is_leap (q * 400 + 1 + c * 100 + q4 * 4 + r) = (r =? 3) && (negb (q4 =? 24) || (c =? 3)).
Proof.
  intros C Q R. unfold is_leap.
  assert (M4 : (q * 400 + 1 + c * 100 + q4 * 4 + r) mod 4 = (1 + r) mod 4)
    by (replace (q * 400 + 1 + c * 100 + q4 * 4 + r) with (1 + r + (q * 100 + c * 25 + q4) * 4) by ring; now rewrite Z_mod_plus_full).
  assert (M100 : (q * 400 + 1 + c * 100 + q4 * 4 + r) mod 100 = (1 + q4 * 4 + r) mod 100)
    by (replace (q * 400 + 1 + c * 100 + q4 * 4 + r) with (1 + q4 * 4 + r + (q * 4 + c) * 100) by ring; now rewrite Z_mod_plus_full).
  assert (M400 : (q * 400 + 1 + c * 100 + q4 * 4 + r) mod 400 = (1 + c * 100 + q4 * 4 + r) mod 400)
    by (replace (q * 400 + 1 + c * 100 + q4 * 4 + r) with (1 + c * 100 + q4 * 4 + r + q * 400) by ring; now rewrite Z_mod_plus_full).
  rewrite M4, M100, M400. clear M4 M100 M400.
  assert (K : forallb (fun c => forallb (fun q4 => forallb (fun r =>
     Bool.eqb (((1 + r) mod 4 =? 0) && (negb ((1 + q4 * 4 + r) mod 100 =? 0) || ((1 + c * 100 + q4 * 4 + r) mod 400 =? 0)))
       ((r =? 3) && (negb (q4 =? 24) || (c =? 3)))) [0;1;2;3])
     (map Z.of_nat (seq 0 25))) [0;1;2;3] = true) by (vm_compute; reflexivity).
  rewrite forallb_forall in K. assert (K1 := K c). rewrite forallb_forall in K1 by (cbn; lia).
  specialize (K1 ltac:(cbn; lia) q4).
  assert (I : In q4 (map Z.of_nat (seq 0 25))).
  { apply in_map_iff. exists (Z.to_nat q4). split; [lia|]. apply in_seq. lia. }
  specialize (K1 I). rewrite forallb_forall in K1. specialize (K1 r ltac:(cbn; lia)).
  now apply Bool.eqb_prop in K1.
Qed.

Lemma days_before_split q c q4 r : 0 <= c <= 3 -> 0 <= q4 <= 24 -> 0 <= r <= 3 ->
  days_before_year (q * 400 + 1 + c * 100 + q4 * 4 + r) = q * 146097 + c * 36524 + q4 * 1461 + r * 365.
Proof.
  intros C Q R. unfold days_before_year.
  replace (q * 400 + 1 + c * 100 + q4 * 4 + r - 1) with (q * 400 + c * 100 + q4 * 4 + r) by ring.
  cbv zeta.
  assert (D4 : (q * 400 + c * 100 + q4 * 4 + r) / 4 = q * 100 + c * 25 + q4)
    by (symmetry; apply Z.div_unique with r; lia).
  assert (D100 : (q * 400 + c * 100 + q4 * 4 + r) / 100 = q * 4 + c)
    by (symmetry; apply Z.div_unique with (q4 * 4 + r); lia).
  assert (D400 : (q * 400 + c * 100 + q4 * 4 + r) / 400 = q)
    by (symmetry; apply Z.div_unique with (c * 100 + q4 * 4 + r); lia).
  rewrite D4, D100, D400. ring.
Qed.

Lemma before_month y m : days_before_month y m = before (is_leap y) m.
Proof. reflexivity. Qed.
Lemma month_len_days y m : days_in_month y m = month_len (is_leap y) m.
Proof. reflexivity. Qed.

Lemma ord2ymd_ok ord : match ord2ymd ord with (y, m, d) =>
  1 <= m <= 12 /\ 1 <= d <= days_in_month y m /\ ordinal y m d = ord end.
Proof.
  unfold ord2ymd. cbv zeta.
  set (n := ord - 1).
  assert (E400 := Z.div_mod n 146097 ltac:(lia)). assert (B400 := Z.mod_pos_bound n 146097 ltac:(lia)).
  set (q := n / 146097) in *. set (n1 := n mod 146097) in *.
  assert (E100 := Z.div_mod n1 36524 ltac:(lia)). assert (B100 := Z.mod_pos_bound n1 36524 ltac:(lia)).
  set (c := n1 / 36524) in *. set (n2 := n1 mod 36524) in *.
  assert (E4 := Z.div_mod n2 1461 ltac:(lia)). assert (B4 := Z.mod_pos_bound n2 1461 ltac:(lia)).
  set (q4 := n2 / 1461) in *. set (n3 := n2 mod 1461) in *.
  assert (E1 := Z.div_mod n3 365 ltac:(lia)). assert (B1 := Z.mod_pos_bound n3 365 ltac:(lia)).
  set (r := n3 / 365) in *. set (k := n3 mod 365) in *.
  clearbody q n1 c n2 q4 n3 r k.
  assert (Hc : 0 <= c <= 4) by lia. assert (Hq : 0 <= q4 <= 24) by lia. assert (Hr : 0 <= r <= 4) by lia.
  destruct (Z.eqb_spec r 4) as [R|R]; cbn [orb].
  - (* 31 December of a leap year *)
    assert (q4 < 24) by lia. assert (c <= 3) by lia. assert (k = 0) by lia.
    replace (q * 400 + 1 + c * 100 + q4 * 4 + r - 1) with (q * 400 + 1 + c * 100 + q4 * 4 + 3) by lia.
    unfold ordinal. rewrite before_month, month_len_days, leap_of, days_before_split by lia.
    replace ((3 =? 3) && (negb (q4 =? 24) || (c =? 3))) with true by (destruct (Z.eqb_spec q4 24); [lia|reflexivity]).
    change (month_len true 12) with 31. change (before true 12) with 335. subst r. unfold n in *. lia.
  - destruct (Z.eqb_spec c 4) as [C|C].
    + assert (n2 = 0) by lia. assert (q4 = 0) by lia. assert (n3 = 0) by lia. assert (r = 0) by lia. assert (k = 0) by lia.
      replace (q * 400 + 1 + c * 100 + q4 * 4 + r - 1) with (q * 400 + 1 + 3 * 100 + 24 * 4 + 3) by lia.
      unfold ordinal. rewrite before_month, month_len_days, leap_of, days_before_split by lia.
      change (month_len ((3 =? 3) && (negb (24 =? 24) || (3 =? 3))) 12) with 31.
      change (before ((3 =? 3) && (negb (24 =? 24) || (3 =? 3))) 12) with 335. unfold n in *. lia.
    + assert (L := leap_of q c q4 r ltac:(lia) ltac:(lia) ltac:(lia)).
      rewrite <- L. set (y := q * 400 + 1 + c * 100 + q4 * 4 + r) in *.
      destruct (month_of_ok (is_leap y) k B1) as [M D].
      change (if nth (Z.to_nat ((k + 50) / 32 - 1)) [0; 31; 59; 90; 120; 151; 181; 212; 243; 273; 304; 334] 0
        + (if (2 <? (k + 50) / 32) && is_leap y then 1 else 0) >? k then (k + 50) / 32 - 1 else (k + 50) / 32)
        with (month_of (is_leap y) k).
      set (m := month_of (is_leap y) k) in *.
      change (nth (Z.to_nat (m - 1)) [0; 31; 59; 90; 120; 151; 181; 212; 243; 273; 304; 334] 0
        + (if (2 <? m) && is_leap y then 1 else 0)) with (before (is_leap y) m).
      unfold ordinal. rewrite before_month, month_len_days.
      assert (Y := days_before_split q c q4 r ltac:(lia) ltac:(lia) ltac:(lia)). fold y in Y. rewrite Y.
      unfold n in *. lia.
Qed.

Lemma dby_mono y y' : y <= y' -> days_before_year y + 365 * (y' - y) <= days_before_year y'.
Proof.
  intros H. unfold days_before_year. cbv zeta.
  assert (A := Z.div_le_mono (y - 1) (y' - 1) 400 ltac:(lia) ltac:(lia)).
  assert ((y - 1) / 4 - (y - 1) / 100 <= (y' - 1) / 4 - (y' - 1) / 100).
  { set (a := y - 1) in *. set (b := y' - 1) in *. assert (a <= b) by lia. clearbody a b.
    Z.to_euclidean_division_equations. lia. }
  lia.
Qed.

Lemma before_bounds leap m : 1 <= m <= 12 -> 0 <= before leap m /\ before leap m + month_len leap m <= 366.
Proof.
  intros H.
  assert (K : forall z, 0 <= z < Z.of_nat 12 ->
    (0 <=? before leap (z + 1)) && (before leap (z + 1) + month_len leap (z + 1) <=? 366) = true).
  { apply (check_below 12 (fun z => (0 <=? before leap (z + 1)) && (before leap (z + 1) + month_len leap (z + 1) <=? 366))).
    destruct leap; vm_compute; reflexivity. }
  specialize (K (m - 1) ltac:(lia)). replace (m - 1 + 1) with m in K by ring. apply andb_true_iff in K. lia.
Qed.

Lemma ord2ymd_year ord : 1 <= ord <= last_day -> match ord2ymd ord with (y, _, _) => 1 <= y <= 9999 end.
Proof.
  intros H. assert (K := ord2ymd_ok ord). destruct (ord2ymd ord) as [[y m] d].
  destruct K as (M & D & O). unfold ordinal in O. rewrite before_month in O. rewrite month_len_days in D.
  assert (B := before_bounds (is_leap y) m M).
  split.
  - destruct (Z.le_gt_cases 1 y) as [L|L]; auto. exfalso.
    assert (days_before_year 1 = 0) by reflexivity.
    assert (Y := dby_mono y 1 ltac:(lia)). assert (Y0 := dby_mono y 0 ltac:(lia)).
    assert (days_before_year 0 = -366) by reflexivity. lia.
  - destruct (Z.le_gt_cases y 9999) as [L|L]; auto. exfalso.
    assert (Y := dby_mono 10000 y ltac:(lia)). assert (E : days_before_year 10000 = 3652059) by reflexivity.
    unfold last_day in H. lia.
Qed.

(** ** Ordinals determine dates *)

Lemma div_pred y k : 1 < k -> y / k = (y - 1) / k + (if y mod k =? 0 then 1 else 0).
Proof.
  intros K. assert (E := Z.div_mod y k ltac:(lia)). assert (B := Z.mod_pos_bound y k ltac:(lia)).
  destruct (Z.eqb_spec (y mod k) 0) as [Z0|Z0].
  - assert (y / k - 1 = (y - 1) / k); [|lia]. apply Z.div_unique with (k - 1); lia.
  - assert (y / k = (y - 1) / k); [|lia]. apply Z.div_unique with (y mod k - 1); lia.
Qed.

Lemma mod_of_mod y a b : 0 < a -> 0 < b -> y mod (a * b) = 0 -> y mod a = 0.
Proof.
  intros A B H. apply Z.mod_divide; [lia|]. apply Z.mod_divide in H; [|lia].
  destruct H as [x ->]. exists (x * b). ring.
Qed.

Lemma dby_succ y : days_before_year (y + 1) = days_before_year y + (if is_leap y then 366 else 365).
Proof.
  unfold days_before_year, is_leap. cbv zeta. replace (y + 1 - 1) with y by ring.
  rewrite (div_pred y 4), (div_pred y 100), (div_pred y 400) by lia.
  assert (M1 := mod_of_mod y 100 4 ltac:(lia) ltac:(lia)). assert (M2 := mod_of_mod y 4 25 ltac:(lia) ltac:(lia)).
  change (100 * 4) with 400 in M1. change (4 * 25) with 100 in M2.
  destruct (Z.eqb_spec (y mod 400) 0) as [A|A]; destruct (Z.eqb_spec (y mod 100) 0) as [B|B];
    destruct (Z.eqb_spec (y mod 4) 0) as [C|C]; cbn [negb andb orb]; try tauto; lia.
Qed.

Lemma before_step leap m m' : 1 <= m <= 12 -> 1 <= m' <= 12 -> m < m' -> before leap m + month_len leap m <= before leap m'.
Proof.
  intros H H' L.
  assert (K : forall z, 0 <= z < Z.of_nat 12 -> forallb (fun k => negb (z + 1 <? Z.of_nat k)
    || (before leap (z + 1) + month_len leap (z + 1) <=? before leap (Z.of_nat k))) (seq 1 12) = true).
  { apply (check_below 12 (fun z => forallb (fun k => negb (z + 1 <? Z.of_nat k)
    || (before leap (z + 1) + month_len leap (z + 1) <=? before leap (Z.of_nat k))) (seq 1 12))).
    destruct leap; vm_compute; reflexivity. }
  specialize (K (m - 1) ltac:(lia)). replace (m - 1 + 1) with m in K by ring.
  rewrite forallb_forall in K. specialize (K (Z.to_nat m')). rewrite Z2Nat.id in K by lia.
  assert (I : In (Z.to_nat m') (seq 1 12)) by (apply in_seq; lia). specialize (K I).
  apply orb_true_iff in K as [K|K]; [|lia]. apply negb_true_iff in K. lia.
Qed.

Lemma before_year leap m : 1 <= m <= 12 -> before leap m + month_len leap m <= (if leap then 366 else 365).
Proof.
  intros H.
  assert (K : forall z, 0 <= z < Z.of_nat 12 ->
    (before leap (z + 1) + month_len leap (z + 1) <=? (if leap then 366 else 365)) = true).
  { apply (check_below 12 (fun z => before leap (z + 1) + month_len leap (z + 1) <=? (if leap then 366 else 365))).
    destruct leap; vm_compute; reflexivity. }
  specialize (K (m - 1) ltac:(lia)). replace (m - 1 + 1) with m in K by ring. lia.
Qed.

Lemma ordinal_year_lt y m d y' m' d' : 1 <= m <= 12 -> 1 <= d <= days_in_month y m ->
  1 <= m' <= 12 -> 1 <= d' <= days_in_month y' m' -> y < y' -> ordinal y m d < ordinal y' m' d'.
Proof.
  intros M D M' D' L. unfold ordinal. rewrite !before_month. rewrite month_len_days in *.
  assert (A := before_year (is_leap y) m M). assert (B := before_bounds (is_leap y') m' M').
  assert (S := dby_succ y). assert (T := dby_mono (y + 1) y' ltac:(lia)). lia.
Qed.

Lemma ordinal_inj y m d y' m' d' : 1 <= m <= 12 -> 1 <= d <= days_in_month y m ->
  1 <= m' <= 12 -> 1 <= d' <= days_in_month y' m' -> ordinal y m d = ordinal y' m' d' ->
  (y, m, d) = (y', m', d').
Proof.
  intros M D M' D' E.
  destruct (Z.lt_trichotomy y y') as [L|[L|L]].
  - assert (K := ordinal_year_lt y m d y' m' d' M D M' D' L). lia.
  - subst y'. unfold ordinal in E. rewrite !before_month in E. rewrite month_len_days in *.
    destruct (Z.lt_trichotomy m m') as [L|[L|L]].
    + assert (K := before_step (is_leap y) m m' M M' L). lia.
    + subst m'. f_equal. lia.
    + assert (K := before_step (is_leap y) m' m M' M L). lia.
  - assert (K := ordinal_year_lt y' m' d' y m d M' D' M D L). lia.
Qed.

Lemma ord2ymd_ordinal y m d : 1 <= m <= 12 -> 1 <= d <= days_in_month y m -> ord2ymd (ordinal y m d) = (y, m, d).
Proof.
  intros M D. assert (K := ord2ymd_ok (ordinal y m d)). destruct (ord2ymd (ordinal y m d)) as [[y' m'] d'].
  destruct K as (M' & D' & O). apply ordinal_inj; auto.
Qed.

(** ** The clock *)

Lemma valid_fields_of y m d h i s u : 1 <= y <= 9999 -> 1 <= m <= 12 -> 1 <= d <= days_in_month y m ->
  0 <= h <= 23 -> 0 <= i <= 59 -> 0 <= s <= 59 -> 0 <= u <= 999999 -> valid_fields y m d h i s u = true.
Proof. intros. unfold valid_fields. repeat (apply andb_true_iff; split); lia. Qed.

Lemma clock_date_ok w u : 2 * 86400 <= w < (last_day + 1) * 86400 -> 0 <= u <= 999999 ->
  exists d, clock_date w u = Ok d /\ valid_dt d = true /\ tz d = None /\ us d = u /\ wall_us d = w * 1000000 + u.
Proof.
  intros W U. unfold clock_date.
  assert (E := Z.div_mod w 86400 ltac:(lia)). assert (B := Z.mod_pos_bound w 86400 ltac:(lia)).
  set (n := w / 86400) in *. set (r := w mod 86400) in *. clearbody n r.
  assert (N1 : 1 <= n <= last_day) by (unfold last_day in *; lia).
  assert (N2 : 2 <= n) by lia.
  replace ((2 <=? n) && (n <=? last_day)) with true by (symmetry; apply andb_true_iff; lia).
  assert (Y := ord2ymd_year n N1). assert (K := ord2ymd_ok n). destruct (ord2ymd n) as [[y m] d].
  destruct K as (M & D & O).
  assert (R : r = (r / 3600 * 60 + r / 60 mod 60) * 60 + r mod 60 /\ 0 <= r / 3600 <= 23
     /\ 0 <= r / 60 mod 60 <= 59 /\ 0 <= r mod 60 <= 59).
  { replace (r / 3600) with (r / 60 / 60) by (rewrite Z.div_div by lia; reflexivity).
    Z.to_euclidean_division_equations. lia. }
  destruct R as (R & R1 & R2 & R3).
  eexists. split; [reflexivity|]. split; [|split; [reflexivity|split; [reflexivity|]]].
  - unfold valid_dt. cbn [yr mo dy hh mi ss us tz]. rewrite valid_fields_of by auto. reflexivity.
  - unfold wall_us. cbn [yr mo dy hh mi ss us]. rewrite O. lia.
Qed.

Lemma valid_dt_parts d : valid_dt d = true ->
  1 <= yr d <= 9999 /\ 1 <= mo d <= 12 /\ 1 <= dy d <= days_in_month (yr d) (mo d)
  /\ 0 <= hh d <= 23 /\ 0 <= mi d <= 59 /\ 0 <= ss d <= 59 /\ 0 <= us d <= 999999.
Proof.
  unfold valid_dt, valid_fields. intros H. apply andb_true_iff in H as [H _].
  repeat rewrite andb_true_iff in H. lia.
Qed.

Lemma wall_seconds d : valid_dt d = true -> wall_us d / 1000000
  = ((ordinal (yr d) (mo d) (dy d) * 24 + hh d) * 60 + mi d) * 60 + ss d.
Proof.
  intros V. destruct (valid_dt_parts d V) as (_ & _ & _ & _ & _ & _ & U).
  symmetry. apply Z.div_unique with (us d); [lia|]. unfold wall_us. ring.
Qed.

Lemma clock_date_bad w u : ~ 2 * 86400 <= w < (last_day + 1) * 86400 -> clock_date w u = Raise ValueError.
Proof.
  intros W. unfold clock_date.
  assert (E := Z.div_mod w 86400 ltac:(lia)). assert (B := Z.mod_pos_bound w 86400 ltac:(lia)).
  set (n := w / 86400) in *. clearbody n.
  replace ((2 <=? n) && (n <=? last_day)) with false; [reflexivity|].
  symmetry. apply andb_false_iff. unfold last_day in *. lia.
Qed.

Lemma ordinal_range d : valid_dt d = true -> 1 <= ordinal (yr d) (mo d) (dy d) <= last_day.
Proof.
  intros V. destruct (valid_dt_parts d V) as (Y & M & D & _).
  unfold ordinal. rewrite before_month. rewrite month_len_days in D.
  assert (B := before_bounds (is_leap (yr d)) (mo d) M). assert (B' := before_year (is_leap (yr d)) (mo d) M).
  assert (T := dby_succ (yr d)).
  assert (L := dby_mono 1 (yr d) ltac:(lia)). change (days_before_year 1) with 0 in L.
  assert (L' := dby_mono (yr d + 1) 10000 ltac:(lia)).
  change (days_before_year 10000) with 3652059 in L'. unfold last_day. lia.
Qed.
Lemma ordinal_first d : valid_dt d = true -> (ordinal (yr d) (mo d) (dy d) = 1 <-> on_first_day d).
Proof.
  intros V. destruct (valid_dt_parts d V) as (Y & M & D & _). split.
  - intros O. change 1 with (ordinal 1 1 1) in O. apply ordinal_inj in O; [|lia|exact D|lia|cbn; lia].
    unfold on_first_day. now injection O as -> -> ->.
  - intros (-> & -> & ->). reflexivity.
Qed.
Lemma wall_day d : valid_dt d = true -> wall_us d / 1000000 / 86400 = ordinal (yr d) (mo d) (dy d).
Proof.
  intros V. rewrite (wall_seconds d V). destruct (valid_dt_parts d V) as (Y & M & D & H & I & S & _).
  symmetry. apply Z.div_unique with ((hh d * 60 + mi d) * 60 + ss d); lia.
Qed.

Lemma clock_date_back d : valid_dt d = true -> ~ on_first_day d ->
  clock_date (wall_us d / 1000000) 0 = Ok (clock_reading d).
Proof.
  intros V N. assert (Q := wall_day d V). rewrite (wall_seconds d V) in *.
  destruct (valid_dt_parts d V) as (Y & M & D & H & I & S & _).
  assert (O := ordinal_range d V). assert (F := ordinal_first d V).
  set (o := ordinal (yr d) (mo d) (dy d)) in *.
  assert (O2 : o <> 1) by tauto. clear F.
  assert (R : (((o * 24 + hh d) * 60 + mi d) * 60 + ss d) mod 86400 = (hh d * 60 + mi d) * 60 + ss d)
    by (symmetry; apply Z.mod_unique with o; lia).
  unfold clock_date. rewrite Q, R.
  replace ((2 <=? o) && (o <=? last_day)) with true by (symmetry; apply andb_true_iff; lia).
  unfold o at 1. rewrite ord2ymd_ordinal by auto. unfold clock_reading. f_equal. f_equal.
  - symmetry. apply Z.div_unique with (mi d * 60 + ss d); lia.
  - replace (((hh d * 60 + mi d) * 60 + ss d) / 60) with (hh d * 60 + mi d) by (apply Z.div_unique with (ss d); lia).
    symmetry. apply Z.mod_unique with (hh d); lia.
  - symmetry. apply Z.mod_unique with (hh d * 60 + mi d); lia.
Qed.
Lemma clock_date_first d : valid_dt d = true -> on_first_day d -> clock_date (wall_us d / 1000000) 0 = Raise ValueError.
Proof.
  intros V F. apply clock_date_bad. assert (Q := wall_day d V). apply (ordinal_first d V) in F. rewrite F in Q.
  assert (B := Z.mod_pos_bound (wall_us d / 1000000) 86400 ltac:(lia)).
  assert (E := Z.div_mod (wall_us d / 1000000) 86400 ltac:(lia)). lia.
Qed.

(** ** Doubles *)

Lemma round_even_err a b : 0 < b -> - b <= 2 * (b * round_even a b - a) <= b.
Proof.
  intros B. unfold round_even. assert (E := Z.div_mod a b ltac:(lia)). assert (M := Z.mod_pos_bound a b B).
  set (q := a / b) in *. set (r := a mod b) in *. clearbody q r. subst a.
  destruct (Z.ltb_spec (2 * r) b); [lia|]. destruct (Z.ltb_spec b (2 * r)); [lia|]. destruct (Z.even q); lia.
Qed.
Lemma round_even_whole n b : 0 < b -> round_even (n * b) b = n.
Proof. intros B. unfold round_even. rewrite Z.div_mul, Z.mod_mul by lia. destruct (Z.ltb_spec (2 * 0) b); lia. Qed.

Lemma double_bits a b m : 0 < b -> 0 <= m -> Z.abs a < b * 2 ^ m -> 53 - m <= snd (double_of a b).
Proof.
  intros B M A. unfold double_of, snd.
  assert (L : Z.log2 (Z.abs a * 2 ^ 1074 / b) < m + 1074); [|lia].
  destruct (Z.eq_dec (Z.abs a * 2 ^ 1074 / b) 0) as [->|N]; [cbn; lia|].
  assert (P : 0 < 2 ^ 1074) by (apply Z.pow_pos_nonneg; lia).
  assert (P0 : 0 <= Z.abs a * 2 ^ 1074 / b) by (apply Z.div_pos; nia).
  apply Z.log2_lt_pow2; [lia|]. apply Z.div_lt_upper_bound; [lia|].
  rewrite Z.pow_add_r by lia. nia.
Qed.

Lemma seconds_of_ok z : Z.abs z < 1000 * 2 ^ 38 ->
  exists u, seconds_of (double_of z 1000) = (z / 1000, u) /\ 0 <= u <= 999999
    /\ -15 <= u - 1000 * (z mod 1000) <= 15 /\ (z mod 1000 = 0 \/ Z.abs z < 1000 * 2 ^ 33 -> u = 1000 * (z mod 1000)).
Proof.
  intros Z0. assert (DM := Z.div_mod z 1000 ltac:(lia)). assert (MB := Z.mod_pos_bound z 1000 ltac:(lia)).
  assert (K15 := double_bits z 1000 38 ltac:(lia) ltac:(lia) Z0).
  assert (K20 : Z.abs z < 1000 * 2 ^ 33 -> 20 <= snd (double_of z 1000))
    by (intros H; exact (double_bits z 1000 33 ltac:(lia) ltac:(lia) H)).
  destruct (double_of z 1000) as [q k] eqn:EQ. cbn [snd] in K15, K20.
  assert (Q : q = round_even (z * 2 ^ k) 1000) by (unfold double_of in EQ; congruence). clear EQ.
  assert (KP : 2 ^ 15 <= 2 ^ k) by (apply Z.pow_le_mono_r; lia).
  assert (KP' : Z.abs z < 1000 * 2 ^ 33 -> 2 ^ 20 <= 2 ^ k) by (intros H; apply Z.pow_le_mono_r; [lia|auto]).
  unfold seconds_of. set (K := 2 ^ k) in *. clearbody K.
  assert (QE := round_even_err (z * K) 1000 ltac:(lia)). rewrite <- Q in QE.
  assert (R := Z.quot_rem' q K). assert (RB := Z.rem_bound_abs q K ltac:(lia)).
  assert (EX : z mod 1000 = 0 -> Z.quot q K = z / 1000 /\ Z.rem q K = 0).
  { intros H. assert (q = z / 1000 * K) as ->.
    { rewrite Q. replace (z * K) with (z / 1000 * K * 1000) by lia. apply round_even_whole. lia. }
    split; [apply Z.quot_mul; lia|apply Z.rem_mul; lia]. }
  set (s := Z.quot q K) in *. set (f := Z.rem q K) in *. clearbody s f.
  assert (J33 := double_bits (f * 1000000) K 20 ltac:(lia) ltac:(lia) ltac:(lia)).
  destruct (double_of (f * 1000000) K) as [p j] eqn:EP. cbn [snd] in J33.
  assert (P : p = round_even (f * 1000000 * 2 ^ j) K) by (unfold double_of in EP; congruence). clear EP.
  assert (JP : 2 ^ 33 <= 2 ^ j) by (apply Z.pow_le_mono_r; lia).
  set (J := 2 ^ j) in *. clearbody J.
  assert (PE := round_even_err (f * 1000000 * J) K ltac:(lia)). rewrite <- P in PE.
  assert (UE := round_even_err p J ltac:(lia)). set (u := round_even p J) in *.
  assert (EX' : z mod 1000 = 0 -> u = 0 /\ s = z / 1000).
  { intros H. destruct (EX H) as [-> F]. split; [|reflexivity]. unfold u. rewrite P, F.
    assert (R0 : forall b, 0 < b -> round_even 0 b = 0) by (intros b; exact (round_even_whole 0 b)).
    rewrite !Z.mul_0_l, (R0 K), (R0 J) by lia. reflexivity. }
  clearbody u. clear P Q EX.
  (* the fraction *)
  change (2 ^ 15) with 32768 in *. change (2 ^ 20) with 1048576 in *. change (2 ^ 33) with 8589934592 in *.
  assert (KJ1 : 32768 * J <= K * J) by (apply Z.mul_le_mono_nonneg_r; lia).
  assert (KJ2 : K * 8589934592 <= K * J) by (apply Z.mul_le_mono_nonneg_l; lia).
  assert (KJ3 : Z.abs z < 1000 * 8589934592 -> 1048576 * J <= K * J)
    by (intros H; apply Z.mul_le_mono_nonneg_r; [lia|auto]).
  set (X := 1000000 * s + u - 1000 * z).
  assert (XE : 2 * (K * J) * X = 1000 * (J * (2 * (1000 * q - z * K))) + 2 * (K * p - f * 1000000 * J) + K * (2 * (J * u - p))).
  { unfold X. rewrite R. ring. }
  assert (B1 : J * -1000 <= J * (2 * (1000 * q - z * K)) <= J * 1000) by (split; apply Z.mul_le_mono_nonneg_l; lia).
  assert (B2 : K * - J <= K * (2 * (J * u - p)) <= K * J) by (split; apply Z.mul_le_mono_nonneg_l; lia).
  set (KJ := K * J) in *. assert (KJP : 0 < KJ) by lia.
  assert (X15 : -15 <= X <= 15).
  { split.
    - destruct (Z.le_gt_cases (-15) X) as [|H]; [assumption|]. assert (2 * KJ * X <= 2 * KJ * (-16)) by (apply Z.mul_le_mono_nonneg_l; lia). lia.
    - destruct (Z.le_gt_cases X 15) as [|H]; [assumption|]. assert (2 * KJ * 16 <= 2 * KJ * X) by (apply Z.mul_le_mono_nonneg_l; lia). lia. }
  assert (X0 : Z.abs z < 1000 * 8589934592 -> X = 0).
  { intros S. specialize (KJ3 S). destruct (Z.lt_trichotomy X 0) as [H|[H|H]]; [|exact H|].
    - assert (2 * KJ * X <= 2 * KJ * (-1)) by (apply Z.mul_le_mono_nonneg_l; lia). lia.
    - assert (2 * KJ * 1 <= 2 * KJ * X) by (apply Z.mul_le_mono_nonneg_l; lia). lia. }
  assert (PB : - (1000000 * J) <= p <= 1000000 * J).
  { assert (FB : - (K - 1) <= f <= K - 1) by lia.
    assert (F1 : - (K - 1) * J <= f * J <= (K - 1) * J) by (split; apply Z.mul_le_mono_nonneg_r; lia).
    split.
    - destruct (Z.le_gt_cases (- (1000000 * J)) p) as [|H]; [assumption|].
      assert (K * p <= K * (- (1000000 * J) - 1)) by (apply Z.mul_le_mono_nonneg_l; lia). unfold KJ in *. lia.
    - destruct (Z.le_gt_cases p (1000000 * J)) as [|H]; [assumption|].
      assert (K * (1000000 * J + 1) <= K * p) by (apply Z.mul_le_mono_nonneg_l; lia). unfold KJ in *. lia. }
  assert (UB : -1000000 <= u <= 1000000).
  { split.
    - destruct (Z.le_gt_cases (-1000000) u) as [|H]; [assumption|]. assert (J * u <= J * (-1000001)) by (apply Z.mul_le_mono_nonneg_l; lia). lia.
    - destruct (Z.le_gt_cases u 1000000) as [|H]; [assumption|]. assert (J * 1000001 <= J * u) by (apply Z.mul_le_mono_nonneg_l; lia). lia. }
  clear XE B1 B2 KJ1 KJ2 KJ3 QE PE UE R RB PB. unfold X in *. clear X.
  destruct (Z.eq_dec (z mod 1000) 0) as [H|H].
  - destruct (EX' H) as [-> ->]. exists 0. cbn. rewrite H. repeat split; try lia.
  - destruct (Z.leb_spec 1000000 u); [|destruct (Z.ltb_spec u 0)]; eexists; (split; [apply f_equal2; [|reflexivity]|]); lia.
Qed.

(** ** Numbers that are floats *)

Lemma round_even_scale a b c : 0 < b -> 0 < c -> round_even (a * c) (b * c) = round_even a b.
Proof.
  intros B C. unfold round_even. rewrite Z.div_mul_cancel_r by lia. rewrite Z.mul_mod_distr_r by lia. cbv zeta.
  assert (L : (2 * (a mod b * c) <? b * c) = (2 * (a mod b) <? b)).
  { apply eq_true_iff_eq. rewrite !Z.ltb_lt, Z.mul_assoc. symmetry. apply Z.mul_lt_mono_pos_r. exact C. }
  assert (G : (b * c <? 2 * (a mod b * c)) = (b <? 2 * (a mod b))).
  { apply eq_true_iff_eq. rewrite !Z.ltb_lt, Z.mul_assoc. symmetry. apply Z.mul_lt_mono_pos_r. exact C. }
  now rewrite L, G.
Qed.
Lemma double_scale a b c : 0 < b -> 0 < c -> double_of (a * c) (b * c) = double_of a b.
Proof.
  intros B C. unfold double_of.
  replace (Z.abs (a * c) * 2 ^ 1074) with (Z.abs a * 2 ^ 1074 * c) by (rewrite Z.abs_mul, (Z.abs_eq c) by lia; ring).
  rewrite Z.div_mul_cancel_r by lia.
  set (k := 52 - (Z.log2 (Z.abs a * 2 ^ 1074 / b) - 1074)).
  replace (a * c * 2 ^ k) with (a * 2 ^ k * c) by ring. now rewrite round_even_scale.
Qed.

Lemma round_opp p e : binary_round 53 1024 true p e = SFopp (binary_round 53 1024 false p e).
Proof.
  unfold binary_round. destruct (shl_align p e _) as [m g]. unfold binary_round_aux.
  destruct (shr_fexp 53 1024 (Zpos m) g loc_Exact) as [r h]. destruct (shr_fexp 53 1024 _ h loc_Exact) as [r' h'].
  destruct (shr_m r'); [reflexivity| |reflexivity]. now destruct (h' <=? 1024 - 53).
Qed.
Lemma int_amount z : Z.abs z < 2 ^ 53 -> amount (f_norm z 0) (z * smallest).
Proof.
  intros B. destruct z as [|p|p].
  - reflexivity.
  - assert (W := int_worth (Zpos p) ltac:(lia)). destruct (f_norm (Zpos p) 0) as [s|s| |[|] m e]; cbn [worth amount] in *; tauto.
  - assert (W := int_worth (Zpos p) ltac:(lia)). unfold f_norm in *. cbn [binary_normalize] in *. rewrite round_opp.
    destruct (binary_round 53 1024 false p 0) as [s|s| |[|] m e]; cbn [SFopp negb worth amount valid_binary] in *; try tauto.
    + rewrite <- (Pos2Z.opp_pos p), Z.mul_opp_l. lia.
    + split; [tauto|]. destruct W as [_ W]. rewrite <- W. rewrite <- (Pos2Z.opp_pos p). ring.
Qed.

(** A clock that depends on the quotient only. *)
Definition by_quotient (clock : Z -> Z -> res datetime) : Prop :=
  forall a b c, 0 < b -> 0 < c -> clock (a * c) (b * c) = clock a b.

Lemma from_whole clock other f z : by_quotient clock -> Z.abs z < 2 ^ 53 -> amount f (z * smallest) ->
  from_thousandths clock other (PFloat f) = clock z 1000.
Proof.
  intros Q B A. assert (S0 := smallest_pos). destruct f as [s|s| |s m e]; cbn [amount worth] in A; try easy.
  - assert (z = 0) as -> by nia. reflexivity.
  - destruct A as [V A]. cbn [valid_binary] in V. unfold bounded, canonical_mantissa in V. apply andb_prop in V. destruct V as [V _].
    apply Zeq_bool_eq in V. unfold fexp, emin in V.
    assert (E : -1074 <= e) by lia. clear V.
    set (n := if s then Zneg m else Zpos m).
    assert (AN : z * smallest = n * 2 ^ (e + 1074)) by (unfold n; destruct s; rewrite A; [rewrite <- Pos2Z.opp_pos; ring|reflexivity]).
    cbn [from_thousandths]. fold n. clear A. clearbody n. unfold smallest in AN.
    assert (C : exists c, 0 < c /\ n * 2 ^ Z.max e 0 = z * c /\ 2 ^ Z.max (- e) 0 = c).
    { destruct (Z.le_gt_cases 0 e) as [H|H].
      - exists 1. rewrite Z.max_l, Z.max_r by lia. split; [lia|]. split; [|reflexivity].
        rewrite Z.add_comm, Z.pow_add_r in AN by lia.
        apply Z.mul_reg_r with (2 ^ 1074); [apply Z.pow_nonzero; lia|].
        clear - AN. set (t := 2 ^ 1074) in *. clearbody t. lia.
      - exists (2 ^ (- e)). rewrite Z.max_r, Z.max_l by lia. split; [apply Z.pow_pos_nonneg; lia|]. split; [|reflexivity].
        assert (T : 2 ^ 1074 = 2 ^ (e + 1074) * 2 ^ (- e)) by (rewrite <- Z.pow_add_r by lia; f_equal; lia).
        rewrite T in AN. apply Z.mul_reg_r with (2 ^ (e + 1074)); [apply Z.pow_nonzero; lia|].
        clear - AN. set (t := 2 ^ (e + 1074)) in *. clearbody t. set (r := 2 ^ (- e)) in *. clearbody r. change (2 ^ 0) with 1. lia. }
    destruct C as (c & C0 & -> & ->). cbv zeta.
    replace (Z.abs (z * c) <? 2 ^ 53 * (1000 * c)) with true; [apply Q; lia|].
    symmetry. apply Z.ltb_lt. rewrite Z.abs_mul, (Z.abs_eq c) by lia. change (2 ^ 53) with 9007199254740992 in *.
    rewrite Z.mul_assoc. apply Z.mul_lt_mono_pos_r; lia.
Qed.
Lemma from_int clock other z : Z.abs z < 2 ^ 53 -> from_thousandths clock other (PInt z) = clock z 1000.
Proof. intros B. cbn [from_thousandths]. apply Z.ltb_lt in B. now rewrite B. Qed.
Lemma from_ms_float clock other z : by_quotient clock -> Z.abs z < 2 ^ 53 ->
  from_thousandths clock other (ms_float z) = clock z 1000.
Proof. intros Q B. apply from_whole; auto. now apply int_amount. Qed.
Lemma local_quotient off : by_quotient (local_of off).
Proof. intros a b c B C. unfold local_of. now rewrite double_scale. Qed.
Lemma below_53 z : Z.abs z < 1000 * 2 ^ 38 -> Z.abs z < 2 ^ 53.
Proof. change (2 ^ 38) with 274877906944. change (2 ^ 53) with 9007199254740992. lia. Qed.

(** ** Time stamps *)

Lemma years_bound off z : offset_ok off -> in_years off z -> Z.abs z < 1000 * 2 ^ 38.
Proof.
  unfold offset_ok, in_years, epoch_day, last_day. intros O Y. change (2 ^ 38) with 274877906944.
  assert (DM := Z.div_mod z 1000 ltac:(lia)). assert (MB := Z.mod_pos_bound z 1000 ltac:(lia)). lia.
Qed.

Lemma float_whole z : Z.abs z < 2 ^ 53 -> whole_float (ms_float z) z.
Proof. intros B. eexists. split; [reflexivity|]. now apply int_amount. Qed.
Lemma amount_one f a b : amount f a -> amount f b -> a = b.
Proof. destruct f as [s|s| |[|] m e]; cbn [amount worth]; try easy; try congruence; intros [_ ->] [_ ->]; reflexivity. Qed.
Lemma whole_one v a b : whole_float v a -> whole_float v b -> a = b.
Proof.
  intros (f & -> & A) (g & E & B). injection E as <-. assert (K := amount_one f _ _ A B). assert (S0 := smallest_pos). nia.
Qed.
Lemma float_number z : is_number (ms_float z).
Proof. eexists. reflexivity. Qed.

Section Stamps.
Context (off : Z) (other : pyval -> res datetime).
Let C : Clock := fixed_clock off other.

Lemma int_date z : Z.abs z < 2 ^ 53 -> @from_ms C (PInt z) = local_of off z 1000.
Proof. intros B. unfold C. cbn [fixed_clock from_ms]. now apply from_int. Qed.

Theorem set_millis_value z : offset_ok off -> in_years off z ->
  exists d e v, @stamp_set_millis C (PInt z) = Ok (Some d) /\ valid_dt d = true /\ tz d = None
    /\ wall_us d = (z + (off + epoch_day * 86400) * 1000) * 1000 + e /\ -15 <= e <= 15
    /\ (z mod 1000 = 0 \/ Z.abs z < 1000 * 2 ^ 33 -> e = 0)
    /\ @stamp_millis C (Some d) = Ok v /\ whole_float v (z - z mod 1000).
Proof.
  intros O Y. assert (ZB := years_bound off z O Y). destruct (seconds_of_ok z ZB) as (u & SE & U & UE & UX).
  destruct (clock_date_ok _ u Y U) as (d & E & V & T & _ & W).
  assert (K := Z.div_mod z 1000 ltac:(lia)).
  exists d, (u - 1000 * (z mod 1000)), (ms_float (z - z mod 1000)).
  unfold stamp_set_millis. rewrite int_date by now apply below_53. unfold local_of. rewrite SE, E.
  split; [reflexivity|]. split; [exact V|]. split; [exact T|]. split; [rewrite W; lia|]. split; [exact UE|].
  split; [intros H; specialize (UX H); lia|].
  split.
  - unfold stamp_millis, C. cbn [stamp_value bind fixed_clock mktime_ms]. unfold ms_of_local. rewrite W.
    rewrite Z.div_add_l by lia. rewrite (Z.div_small u) by lia.
    f_equal. f_equal. lia.
  - apply float_whole. assert (MB := Z.mod_pos_bound z 1000 ltac:(lia)).
    change (2 ^ 38) with 274877906944 in ZB. change (2 ^ 53) with 9007199254740992. lia.
Qed.

Theorem set_millis_bad z : Z.abs z < 1000 * 2 ^ 38 -> ~ in_years off z -> @stamp_set_millis C (PInt z) = Raise ValueError.
Proof.
  intros B Y. destruct (seconds_of_ok z B) as (u & SE & _).
  unfold stamp_set_millis. rewrite int_date by now apply below_53. unfold local_of. rewrite SE.
  now rewrite clock_date_bad.
Qed.

Theorem set_float v z : whole_float v z -> Z.abs z < 2 ^ 53 -> @stamp_set_millis C v = @stamp_set_millis C (PInt z).
Proof.
  intros (f & -> & A) B. unfold stamp_set_millis. rewrite int_date by exact B. unfold C. cbn [fixed_clock from_ms].
  rewrite (from_whole _ other f z (local_quotient off) B A). reflexivity.
Qed.

Lemma local_bound d : offset_ok off -> valid_dt d = true -> Z.abs (ms_of_local off d) < 1000 * 2 ^ 38.
Proof.
  intros O V. unfold ms_of_local. assert (Q := wall_day d V). assert (R := ordinal_range d V). rewrite <- Q in R.
  set (w := wall_us d / 1000000) in *. clearbody w.
  assert (DM := Z.div_mod w 86400 ltac:(lia)). assert (MB := Z.mod_pos_bound w 86400 ltac:(lia)).
  unfold offset_ok, epoch_day, last_day in *. change (2 ^ 38) with 274877906944. lia.
Qed.

Lemma millis_date d : offset_ok off -> valid_dt d = true ->
  exists v z, @stamp_millis C (Some d) = Ok v /\ whole_float v (z * 1000) /\ @from_ms C v = clock_date (wall_us d / 1000000) 0.
Proof.
  intros O V. exists (ms_float (ms_of_local off d)), (wall_us d / 1000000 - off - epoch_day * 86400). split; [reflexivity|].
  assert (B := local_bound d O V). split; [apply float_whole; now apply below_53|].
  unfold C. cbn [fixed_clock from_ms]. rewrite (from_ms_float _ other _ (local_quotient off) (below_53 _ B)).
  unfold local_of. destruct (seconds_of_ok _ B) as (u & SE & _ & _ & UX). rewrite SE. unfold ms_of_local in *.
  rewrite Z_mod_mult in UX. rewrite UX by auto.
  rewrite Z.div_mul by lia.
  replace (wall_us d / 1000000 - off - epoch_day * 86400 + off + epoch_day * 86400) with (wall_us d / 1000000) by lia.
  reflexivity.
Qed.

Theorem millis_back d : offset_ok off -> valid_dt d = true ->
  exists v z, @stamp_millis C (Some d) = Ok v /\ whole_float v (z * 1000)
    /\ (~ on_first_day d -> @stamp_set_millis C v = Ok (Some (clock_reading d)))
    /\ (on_first_day d -> @stamp_set_millis C v = Raise ValueError).
Proof.
  intros O V. destruct (millis_date d O V) as (v & z & M & E & F). exists v, z. split; [exact M|]. split; [exact E|].
  unfold stamp_set_millis. rewrite F. split; intros N; [now rewrite (clock_date_back d V N)|now rewrite (clock_date_first d V N)].
Qed.

Theorem reads_back_all d : offset_ok off -> valid_dt d = true -> ~ on_first_day d -> @reads_back C d.
Proof.
  intros O V N. destruct (millis_date d O V) as (v & z & M & _ & S). exists v.
  split; [exact M|]. split; [|rewrite S; exact (clock_date_back d V N)].
  unfold stamp_millis, C in M. cbn [stamp_value bind fixed_clock mktime_ms] in M. injection M as <-. apply float_number.
Qed.

Theorem millis_instant d v : offset_ok off -> valid_dt d = true -> @stamp_millis C (Some d) = Ok v ->
  (forall t, tz d = Some t -> tz_off t mod 1000000 = 0) ->
  whole_float v (instant_ms off d + match tz d with Some t => tz_off t / 1000000 - off | None => 0 end * 1000).
Proof.
  intros O V M T. unfold stamp_millis, C in M. cbn [stamp_value bind fixed_clock mktime_ms] in M. injection M as <-.
  assert (F := float_whole _ (below_53 _ (local_bound d O V))).
  match goal with |- whole_float _ ?x => replace x with (ms_of_local off d); [exact F|] end. clear F.
  unfold ms_of_local, instant_ms, instant. destruct (tz d) as [t|]; [|lia].
  specialize (T t eq_refl). assert (K := Z.div_mod (tz_off t) 1000000 ltac:(lia)). rewrite T, Z.add_0_r in K.
  set (q := tz_off t / 1000000) in *. clearbody q.
  replace (wall_us d - tz_off t) with (wall_us d + (- q) * 1000000) by lia.
  rewrite Z.div_add by lia. lia.
Qed.
End Stamps.

Theorem init_millis off other (windows : bool) z : offset_ok off ->
  (let z' := if windows then Z.max z 86400000 else z in
  in_years off z' -> exists s v, @stamp_init (fixed_clock off other) windows (PInt z) = Ok s
    /\ @stamp_millis (fixed_clock off other) s = Ok v /\ whole_float v (z' - z' mod 1000)).
Proof.
  intros U z' Y. destruct (set_millis_value off other z' U Y) as (d & e & v & S & _ & _ & _ & _ & _ & M).
  exists (Some d), v. split; [|exact M]. unfold stamp_init.
  replace (timestamp_ms windows z) with z'; [exact S|].
  unfold z', timestamp_ms. destruct windows; [|reflexivity]. cbn [andb].
  destruct (Z.ltb_spec z 86400000); lia.
Qed.

Theorem millis_zone off other d v t : offset_ok off -> valid_dt d = true -> tz d = Some t -> tz_off t mod 1000000 = 0 ->
  @stamp_millis (fixed_clock off other) (Some d) = Ok v ->
  (whole_float v (instant_ms off d) <-> tz_off t = off * 1000000).
Proof.
  intros O V T W M. assert (F := millis_instant off other d v O V M). rewrite T in F.
  specialize (F ltac:(intros t' E; congruence)).
  assert (K := Z.div_mod (tz_off t) 1000000 ltac:(lia)). split.
  - intros G. assert (E := whole_one _ _ _ F G). lia.
  - intros E. replace (tz_off t / 1000000 - off) with 0 in F by lia. now rewrite Z.mul_0_l, Z.add_0_r in F.
Qed.

Theorem millis_naive off other d v : offset_ok off -> valid_dt d = true -> tz d = None ->
  @stamp_millis (fixed_clock off other) (Some d) = Ok v -> whole_float v (instant_ms off d).
Proof.
  intros O V T M. assert (F := millis_instant off other d v O V M). rewrite T in F.
  specialize (F ltac:(intros t E; congruence)). now rewrite Z.mul_0_l, Z.add_0_r in F.
Qed.
Lemma init_other `{Clock} (windows : bool) v :
  (forall d, v <> PDate d) -> (forall z, v <> PInt z) -> (forall b, v <> PBool b) ->
  exists s, stamp_init windows v = Ok s /\ stamp_value s = Raise AttributeError /\ stamp_millis s = Raise AttributeError.
Proof.
  intros D Z B. exists None. split; [|split; reflexivity].
  destruct v as [| |z| |b|d| |]; try reflexivity; [now destruct (Z z)|now destruct (B b)|now destruct (D d)].
Qed.

Lemma assign_first off other d m : offset_ok off -> valid_dt d = true -> on_first_day d ->
  @assign_timestamp (fixed_clock off other) (PDate d) m = Raise ValueError.
Proof.
  intros O V F. destruct (millis_date off other d O V) as (v & z & M & _ & E). rewrite (clock_date_first d V F) in E.
  unfold stamp_millis in M. cbn [stamp_value bind] in M. unfold assign_timestamp. rewrite M. cbn [bind].
  cbn [fixed_clock mktime_ms] in M. injection M as <-. cbn [num_of ms_float]. now rewrite E.
Qed.
