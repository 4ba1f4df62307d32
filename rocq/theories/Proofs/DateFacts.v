(** Printing and parsing of time stamps. *)
From Coq Require Import String NArith ZArith List Bool Lia.
From Verif Require Import Base.Unicode Base.PyBase Base.PyDate Model.Attr Model.DateConv Spec.DateText
  Proofs.BaseFacts Proofs.StrFacts.
Import ListNotations.
Local Open Scope Z_scope.

(** ** Finite checks *)

Lemma check_below (n : nat) (P : Z -> bool) :
  forallb (fun k => P (Z.of_nat k)) (seq 0 n) = true ->
  forall z, 0 <= z < Z.of_nat n -> P z = true.
Proof.
  rewrite forallb_forall. intros H z Hz. specialize (H (Z.to_nat z)).
  rewrite Z2Nat.id in H by lia. apply H. apply in_seq. lia.
Qed.

Lemma digit_decimal n : 0 <= n <= 9 -> decimal_value (digit n) = Some (Z.to_N n).
Proof.
  intros H.
  assert (E : (match decimal_value (digit n) with Some v => N.eqb v (Z.to_N n) | None => false end) = true).
  { apply (check_below 10 (fun n => match decimal_value (digit n) with Some v => N.eqb v (Z.to_N n) | None => false end)); [vm_compute; reflexivity|lia]. }
  destruct (decimal_value (digit n)); [|discriminate]. apply N.eqb_eq in E. congruence.
Qed.

Lemma digit_is_decimal n : 0 <= n <= 9 -> is_decimal (digit n) = true.
Proof. intros. unfold is_decimal. now rewrite digit_decimal. Qed.

Lemma digit_dval n : 0 <= n <= 9 -> dval (digit n) = n.
Proof. intros. unfold dval. rewrite digit_decimal by auto. lia. Qed.

Lemma digit_range n a b : 0 <= n <= 9 -> 48 <= Z.of_N a -> Z.of_N b <= 57 ->
  in_range a b (digit n) = (Z.of_N a - 48 <=? n) && (n <=? Z.of_N b - 48).
Proof.
  intros. unfold in_range, digit. f_equal.
  - destruct (Z.leb_spec (Z.of_N a - 48) n); [apply N.leb_le|apply N.leb_gt]; lia.
  - destruct (Z.leb_spec n (Z.of_N b - 48)); [apply N.leb_le|apply N.leb_gt]; lia.
Qed.

Lemma digit_eqb n c : 0 <= n <= 9 -> N.eqb c (digit n) = (Z.of_N c - 48 =? n).
Proof.
  intros. unfold digit. destruct (Z.eqb_spec (Z.of_N c - 48) n); [apply N.eqb_eq|apply N.eqb_neq]; lia.
Qed.

Lemma digit_inj a b : 0 <= a <= 9 -> 0 <= b <= 9 -> digit a = digit b -> a = b.
Proof. unfold digit. lia. Qed.

(** ** The matchers *)

Definition first_is {A} (p : matcher A) (s : pystr) (a : A) (r : pystr) : Prop :=
  exists tl, p s = (a, r) :: tl.

Lemma first_ret {A} (a : A) s : first_is (m_ret a) s a s.
Proof. exists []. reflexivity. Qed.

Lemma first_bind {A B} (p : matcher A) (k : A -> matcher B) s a r b r' :
  first_is p s a r -> first_is (k a) r b r' -> first_is (m_bind p k) s b r'.
Proof.
  intros [t1 E1] [t2 E2]. unfold first_is, m_bind. rewrite E1. simpl. rewrite E2. simpl. eauto.
Qed.

Lemma first_alt_l {A} (p q : matcher A) s a r : first_is p s a r -> first_is (m_alt p q) s a r.
Proof. intros [t E]. unfold first_is, m_alt. rewrite E. simpl. eauto. Qed.

Lemma first_alt_r {A} (p q : matcher A) s a r : p s = [] -> first_is q s a r -> first_is (m_alt p q) s a r.
Proof. intros E1 [t E2]. unfold first_is, m_alt. rewrite E1, E2. simpl. eauto. Qed.

Lemma first_char f c t : f c = true -> first_is (m_char f) (c :: t) c t.
Proof. intros E. unfold first_is, m_char. rewrite E. eauto. Qed.

Lemma first_two f g a b t : f (digit a) = true -> g (digit b) = true -> 0 <= a <= 9 -> 0 <= b <= 9 ->
  first_is (m_two f g) (digit a :: digit b :: t) (10 * a + b) t.
Proof.
  intros F G Ha Hb. unfold m_two. eapply first_bind; [apply first_char; auto|].
  eapply first_bind; [apply first_char; auto|]. rewrite !digit_dval by auto. apply first_ret.
Qed.

Lemma two_fail_l f g c t : f c = false -> m_two f g (c :: t) = [].
Proof. intros E. unfold m_two, m_bind, m_char. now rewrite E. Qed.

Lemma first_two_digits n t : 0 <= n <= 99 ->
  first_is (m_two is_decimal is_decimal) (two n ++ t) n t.
Proof.
  intros H. unfold two. simpl app.
  assert (0 <= n / 10 <= 9) by (split; [apply Z.div_pos; lia|apply Z.lt_succ_r, Z.div_lt_upper_bound; lia]).
  assert (0 <= n mod 10 <= 9) by (assert (X := Z.mod_pos_bound n 10); lia).
  assert (E : n = 10 * (n / 10) + n mod 10) by (apply Z.div_mod; lia).
  rewrite E at 3. apply first_two; auto; apply digit_is_decimal; auto.
Qed.

Lemma first_year y t : 0 <= y <= 9999 -> first_is m_year (four y ++ t) y t.
Proof.
  intros H. unfold m_year, four. rewrite <- app_assoc.
  assert (0 <= y / 100 <= 99) by (split; [apply Z.div_pos; lia|apply Z.lt_succ_r, Z.div_lt_upper_bound; lia]).
  assert (0 <= y mod 100 <= 99) by (assert (X := Z.mod_pos_bound y 100); lia).
  eapply first_bind; [apply first_two_digits; auto|].
  eapply first_bind; [apply first_two_digits; auto|].
  replace (100 * (y / 100) + y mod 100) with y by (apply Z.div_mod; lia). apply first_ret.
Qed.

Ltac two_split n :=
  let q := fresh "q" in let r := fresh "r" in
  assert (0 <= n mod 10 <= 9) by (assert (X := Z.mod_pos_bound n 10); lia);
  assert (n = 10 * (n / 10) + n mod 10) by (apply Z.div_mod; lia);
  set (q := n / 10) in *; set (r := n mod 10) in *.

Lemma first_month n t : 1 <= n <= 12 -> first_is m_month (two n ++ t) n t.
Proof.
  intros H. unfold two, m_month. simpl app. two_split n. assert (Q : q = 0 \/ q = 1) by lia.
  rewrite H1. destruct Q as [Q|Q]; rewrite Q in *.
  - apply first_alt_r; [apply two_fail_l; reflexivity|]. apply first_alt_l.
    apply first_two; try lia; [reflexivity|]. rewrite digit_range by (simpl; lia).
    apply andb_true_iff; split; apply Z.leb_le; simpl; lia.
  - apply first_alt_l. apply first_two; try lia; [reflexivity|]. rewrite digit_range by (simpl; lia).
    apply andb_true_iff; split; apply Z.leb_le; simpl; lia.
Qed.

Lemma first_day n t : 1 <= n <= 31 -> first_is m_day (two n ++ t) n t.
Proof.
  intros H. unfold two, m_day. simpl app. two_split n.
  assert (Q : q = 0 \/ q = 1 \/ q = 2 \/ q = 3) by lia.
  rewrite H1. destruct Q as [Q|[Q|[Q|Q]]]; rewrite Q in *.
  - apply first_alt_r; [apply two_fail_l; reflexivity|]. apply first_alt_r; [apply two_fail_l; reflexivity|].
    apply first_alt_l. apply first_two; try lia; [reflexivity|]. rewrite digit_range by (simpl; lia).
    apply andb_true_iff; split; apply Z.leb_le; simpl; lia.
  - apply first_alt_r; [apply two_fail_l; reflexivity|]. apply first_alt_l.
    apply first_two; try lia; [reflexivity|]. apply digit_is_decimal; auto.
  - apply first_alt_r; [apply two_fail_l; reflexivity|]. apply first_alt_l.
    apply first_two; try lia; [reflexivity|]. apply digit_is_decimal; auto.
  - apply first_alt_l. apply first_two; try lia; [reflexivity|]. rewrite digit_range by (simpl; lia).
    apply andb_true_iff; split; apply Z.leb_le; simpl; lia.
Qed.

Lemma first_hour n t : 0 <= n <= 23 -> first_is m_hour (two n ++ t) n t.
Proof.
  intros H. unfold two, m_hour. simpl app. two_split n.
  assert (Q : q = 0 \/ q = 1 \/ q = 2) by lia.
  rewrite H1. destruct Q as [Q|[Q|Q]]; rewrite Q in *.
  - apply first_alt_r; [apply two_fail_l; reflexivity|]. apply first_alt_l.
    apply first_two; try lia; [reflexivity|]. apply digit_is_decimal; auto.
  - apply first_alt_r; [apply two_fail_l; reflexivity|]. apply first_alt_l.
    apply first_two; try lia; [reflexivity|]. apply digit_is_decimal; auto.
  - apply first_alt_l. apply first_two; try lia; [reflexivity|]. rewrite digit_range by (simpl; lia).
    apply andb_true_iff; split; apply Z.leb_le; simpl; lia.
Qed.

Lemma first_minute n t : 0 <= n <= 59 -> first_is m_minute (two n ++ t) n t.
Proof.
  intros H. unfold two, m_minute. simpl app. two_split n. rewrite H1.
  apply first_alt_l. apply first_two; try lia; [|apply digit_is_decimal; auto].
  rewrite digit_range by (simpl; lia). apply andb_true_iff; split; apply Z.leb_le; simpl; lia.
Qed.

Lemma first_second n t : 0 <= n <= 59 -> first_is m_second (two n ++ t) n t.
Proof.
  intros H. unfold two, m_second. simpl app. two_split n. rewrite H1.
  apply first_alt_r.
  { apply two_fail_l. rewrite digit_eqb by lia. apply Z.eqb_neq. simpl. lia. }
  apply first_alt_l. apply first_two; try lia; [|apply digit_is_decimal; auto].
  rewrite digit_range by (simpl; lia). apply andb_true_iff; split; apply Z.leb_le; simpl; lia.
Qed.

Lemma first_digits ds : forall n acc, Forall (fun d => 0 <= d <= 9) ds -> (length ds <= n)%nat ->
  first_is (m_digits n acc) (map digit ds)
    (acc * 10 ^ Z.of_nat n + frac_us (10 ^ (Z.of_nat n - 1)) ds) [].
Proof.
  induction ds as [|d ds IH]; intros n acc F L.
  - simpl map. destruct n as [|k].
    + simpl. rewrite Z.mul_1_r, Z.add_0_r. apply first_ret.
    + cbn [m_digits]. apply first_alt_r; [reflexivity|]. cbn [frac_us]. rewrite Z.add_0_r. apply first_ret.
  - destruct n as [|k]; [simpl in L; lia|]. inversion F; subst.
    cbn [m_digits map]. apply first_alt_l. eapply first_bind.
    + apply first_char. rewrite digit_range by (simpl; lia). apply andb_true_iff; split; apply Z.leb_le; simpl; lia.
    + rewrite digit_dval by auto.
      assert (G := IH k (acc * 10 + d) H2 ltac:(simpl in L; lia)).
      replace (acc * 10 ^ Z.of_nat (S k) + frac_us (10 ^ (Z.of_nat (S k) - 1)) (d :: ds))
        with ((acc * 10 + d) * 10 ^ Z.of_nat k + frac_us (10 ^ (Z.of_nat k - 1)) ds); auto.
      cbn [frac_us]. rewrite Nat2Z.inj_succ. unfold Z.succ at 1. rewrite Z.pow_add_r by lia.
      replace (Z.succ (Z.of_nat k) - 1) with (Z.of_nat k) by lia.
      replace (10 ^ Z.of_nat k / 10) with (10 ^ (Z.of_nat k - 1)).
      * ring.
      * destruct k as [|k].
        -- reflexivity.
        -- rewrite Nat2Z.inj_succ. unfold Z.succ.
           replace (Z.of_nat k + 1 - 1) with (Z.of_nat k) by lia.
           rewrite Z.pow_add_r by lia. rewrite Z.div_mul by lia. reflexivity.
Qed.

Lemma first_fraction d ds : Forall (fun d => 0 <= d <= 9) (d :: ds) -> (length ds <= 5)%nat ->
  first_is m_fraction (map digit (d :: ds)) (frac_micros (d :: ds)) [].
Proof.
  intros F L. inversion F; subst. unfold m_fraction. cbn [map]. eapply first_bind.
  - apply first_char. rewrite digit_range by (simpl; lia). apply andb_true_iff; split; apply Z.leb_le; simpl; lia.
  - rewrite digit_dval by auto. assert (G := first_digits ds 5 d H2 L). exact G.
Qed.

Lemma days_in_month_le y m : days_in_month y m <= 31.
Proof. unfold days_in_month. destruct (m =? 2), (is_leap y), ((m =? 4) || (m =? 6) || (m =? 9) || (m =? 11)); lia. Qed.

Lemma valid_fields_bounds y m d h i s u : valid_fields y m d h i s u = true ->
  1 <= y <= 9999 /\ 1 <= m <= 12 /\ 1 <= d <= 31 /\ 0 <= h <= 23 /\ 0 <= i <= 59 /\ 0 <= s <= 59 /\ 0 <= u <= 999999.
Proof.
  unfold valid_fields. rewrite !andb_true_iff, !Z.leb_le. assert (X := days_in_month_le y m). lia.
Qed.

Definition date_part (y m d h i s : Z) : pystr :=
  four y ++ py "-" ++ two m ++ py "-" ++ two d ++ py "T" ++ two h ++ py ":" ++ two i ++ py ":" ++ two s.

Lemma first_date y m d h i s t : 1 <= y <= 9999 -> 1 <= m <= 12 -> 1 <= d <= 31 ->
  0 <= h <= 23 -> 0 <= i <= 59 -> 0 <= s <= 59 ->
  first_is m_date (date_part y m d h i s ++ t) (y, m, d, h, i, s) t.
Proof.
  intros. unfold date_part, m_date. rewrite <- !app_assoc.
  eapply first_bind; [apply first_year; lia|].
  eapply first_bind; [apply first_char; reflexivity|].
  eapply first_bind; [apply first_month; lia|].
  eapply first_bind; [apply first_char; reflexivity|].
  eapply first_bind; [apply first_day; lia|].
  eapply first_bind; [apply first_char; reflexivity|].
  eapply first_bind; [apply first_hour; lia|].
  eapply first_bind; [apply first_char; reflexivity|].
  eapply first_bind; [apply first_minute; lia|].
  eapply first_bind; [apply first_char; reflexivity|].
  eapply first_bind; [apply first_second; lia|]. apply first_ret.
Qed.

Lemma strptime_first fmt s y m d h i sec u : first_is fmt s (y, m, d, h, i, sec, u) [] ->
  valid_fields y m d h i sec u = true -> strptime fmt s = Some (mk_dt y m d h i sec u None).
Proof. intros [tl E] V. unfold strptime. rewrite E, V. reflexivity. Qed.

(** ** Characters of the date part *)

Definition plain_char (c : N) : Prop := (48 <= c <= 57)%N \/ c = 45%N \/ c = 58%N \/ c = 84%N.

Lemma digit_bounds n : 0 <= n <= 9 -> (48 <= digit n <= 57)%N.
Proof. unfold digit. lia. Qed.

Lemma two_chars n c : 0 <= n <= 99 -> In c (two n) -> (48 <= c <= 57)%N.
Proof.
  intros H. unfold two. simpl.
  assert (0 <= n / 10 <= 9) by (split; [apply Z.div_pos; lia|apply Z.lt_succ_r, Z.div_lt_upper_bound; lia]).
  assert (0 <= n mod 10 <= 9) by (assert (X := Z.mod_pos_bound n 10); lia).
  intros [<-|[<-|[]]]; apply digit_bounds; auto.
Qed.

Lemma four_chars n c : 0 <= n <= 9999 -> In c (four n) -> (48 <= c <= 57)%N.
Proof.
  intros H. unfold four. rewrite in_app_iff.
  intros [I|I]; eapply two_chars; eauto.
  - split; [apply Z.div_pos; lia|apply Z.lt_succ_r, Z.div_lt_upper_bound; lia].
  - assert (X := Z.mod_pos_bound n 100); lia.
Qed.

Lemma frac_chars ds c : Forall (fun d => 0 <= d <= 9) ds -> In c (map digit ds) -> (48 <= c <= 57)%N.
Proof.
  intros F I. apply in_map_iff in I as (d & <- & I). rewrite Forall_forall in F. apply digit_bounds; auto.
Qed.

Lemma write_frac_chars ds c : Forall (fun d => 0 <= d <= 9) ds -> In c (write_frac ds) ->
  (48 <= c <= 57)%N \/ c = 46%N.
Proof.
  destruct ds as [|d ds]; [intros _ []|]. intros F. unfold write_frac. rewrite in_app_iff.
  intros [[<-|[]]|I]; [right; reflexivity|]. left. eapply frac_chars; eauto.
Qed.

Section Fields.
Variables y m d h i s : Z.
Hypothesis By : 1 <= y <= 9999.
Hypothesis Bm : 1 <= m <= 12.
Hypothesis Bd : 1 <= d <= 31.
Hypothesis Bh : 0 <= h <= 23.
Hypothesis Bi : 0 <= i <= 59.
Hypothesis Bs : 0 <= s <= 59.

Lemma date_part_chars c : In c (date_part y m d h i s) -> plain_char c.
Proof.
  unfold date_part, plain_char. rewrite !in_app_iff.
  assert (D : forall n, 0 <= n <= 99 -> In c (two n) -> (48 <= c <= 57)%N) by (intros; eapply two_chars; eauto).
  assert (F : In c (four y) -> (48 <= c <= 57)%N) by (intros; eapply (four_chars y); eauto; lia).
  assert (D1 := D m ltac:(lia)). assert (D2 := D d ltac:(lia)). assert (D3 := D h ltac:(lia)).
  assert (D4 := D i ltac:(lia)). assert (D5 := D s ltac:(lia)).
  assert (P1 : In c (py "-") -> c = 45%N) by (intros [<-|[]]; reflexivity).
  assert (P2 : In c (py ":") -> c = 58%N) by (intros [<-|[]]; reflexivity).
  assert (P3 : In c (py "T") -> c = 84%N) by (intros [<-|[]]; reflexivity).
  tauto.
Qed.

(** The part of the date text that follows the last hyphen of the date. *)
Definition tail_part (fr : list Z) : pystr :=
  two h ++ py ":" ++ two i ++ py ":" ++ two s ++ write_frac fr.

Lemma tail_part_nodash fr : Forall (fun d => 0 <= d <= 9) fr -> ~ In 45%N (tail_part fr).
Proof.
  intros F. unfold tail_part. rewrite !in_app_iff. simpl (In _ (py _)).
  intros [I|[[I|[]]|[I|[[I|[]]|[I|I]]]]]; try discriminate;
    try (apply two_chars in I; lia). apply write_frac_chars in I; auto. lia.
Qed.

Lemma tail_part_length fr : (8 <= length (tail_part fr))%nat.
Proof. unfold tail_part. rewrite !app_length. simpl. lia. Qed.

Definition head_part : pystr :=
  four y ++ py "-" ++ two m ++ py "-" ++ two d ++ py "T".

Lemma date_frac_split fr : date_part y m d h i s ++ write_frac fr = head_part ++ tail_part fr.
Proof. unfold date_part, head_part, tail_part. now rewrite <- !app_assoc. Qed.

Definition body (fr : list Z) : pystr := date_part y m d h i s ++ write_frac fr.

Lemma body_chars fr c : Forall (fun d => 0 <= d <= 9) fr -> In c (body fr) -> plain_char c \/ c = 46%N.
Proof.
  intros F. unfold body. rewrite in_app_iff. intros [I|I].
  - left. now apply date_part_chars.
  - apply write_frac_chars in I; auto. unfold plain_char. lia.
Qed.

Lemma body_no fr c : Forall (fun d => 0 <= d <= 9) fr -> (c = 90 \/ c = 43)%N -> ~ In c (body fr).
Proof.
  intros F H I. apply body_chars in I; auto. unfold plain_char in I. lia.
Qed.

Lemma body_dot fr : Forall (fun d => 0 <= d <= 9) fr ->
  mem_char 46 (body fr) = match fr with [] => false | _ => true end.
Proof.
  intros F. unfold body. destruct fr as [|x fr].
  - cbn [write_frac]. rewrite app_nil_r. apply mem_char_false. intros I. apply date_part_chars in I.
    unfold plain_char in I. lia.
  - apply mem_char_spec. apply in_or_app. right. simpl. auto.
Qed.

Lemma firstn_app_long {A} n (a b : list A) : (n <= length a)%nat -> firstn n (a ++ b) = firstn n a.
Proof. intros. rewrite firstn_app. replace (n - length a)%nat with 0%nat by lia. now rewrite app_nil_r. Qed.

Lemma in_firstn {A} n (l : list A) x : In x (firstn n l) -> In x l.
Proof. intros H. rewrite <- (firstn_skipn n l). apply in_or_app. auto. Qed.

Lemma body_split_zone fr z : Forall (fun d => 0 <= d <= 9) fr -> zone_ok z ->
  split_zone (body fr ++ write_zone z)
  = (body fr, match z with ZZulu => py "Z" | _ => write_zone z end).
Proof.
  intros F Z. unfold split_zone.
  assert (NZ : ~ In 90%N (body fr)) by (apply body_no; auto).
  assert (NP : ~ In 43%N (body fr)) by (apply body_no; auto).
  destruct z as [| |zh zm|zh zm]; cbn [write_zone zone_ok] in *.
  - rewrite app_nil_r. rewrite (proj2 (mem_char_false _ _) NZ), (proj2 (mem_char_false _ _) NP).
    replace (mem_char 45 (firstn 7 (rev (body fr)))) with false; auto.
    symmetry. apply mem_char_false. unfold body. rewrite date_frac_split, rev_app_distr.
    rewrite firstn_app_long by (rewrite rev_length; assert (X := tail_part_length fr); lia).
    intros I. apply in_firstn in I. apply in_rev in I. eapply tail_part_nodash; eauto.
  - replace (mem_char 90 (body fr ++ py "Z")) with true
      by (symmetry; apply mem_char_spec, in_or_app; right; simpl; auto).
    f_equal. change (py "Z") with [90%N]. rewrite replace1_filter, filter_app.
    assert (EZ : filter (fun d0 : N => negb (d0 =? 90)%N) [90%N] = []) by reflexivity. rewrite EZ, app_nil_r.
    apply filter_id. apply Forall_forall. intros x Hx. apply negb_true_iff, N.eqb_neq. intros ->. auto.
  - assert (N90 : ~ In 90%N (body fr ++ py "+" ++ two zh ++ py ":" ++ two zm)).
    { rewrite !in_app_iff. simpl (In _ (py _)). intros [I|[[I|[]]|[I|[[I|[]]|I]]]]; try discriminate; auto;
        apply two_chars in I; lia. }
    rewrite (proj2 (mem_char_false _ _) N90).
    replace (mem_char 43 (body fr ++ py "+" ++ two zh ++ py ":" ++ two zm)) with true
      by (symmetry; apply mem_char_spec, in_or_app; right; simpl; auto).
    change (py "+" ++ two zh ++ py ":" ++ two zm) with (43%N :: (two zh ++ py ":" ++ two zm)).
    rewrite before_char_app, from_char_app by auto. reflexivity.
  - assert (N90 : ~ In 90%N (body fr ++ py "-" ++ two zh ++ py ":" ++ two zm)).
    { rewrite !in_app_iff. simpl (In _ (py _)). intros [I|[[I|[]]|[I|[[I|[]]|I]]]]; try discriminate; auto;
        apply two_chars in I; lia. }
    assert (N43 : ~ In 43%N (body fr ++ py "-" ++ two zh ++ py ":" ++ two zm)).
    { rewrite !in_app_iff. simpl (In _ (py _)). intros [I|[[I|[]]|[I|[[I|[]]|I]]]]; try discriminate; auto;
        apply two_chars in I; lia. }
    rewrite (proj2 (mem_char_false _ _) N90), (proj2 (mem_char_false _ _) N43).
    assert (ND : ~ In 45%N (rev (two zh ++ py ":" ++ two zm))).
    { intros I. apply in_rev in I. rewrite !in_app_iff in I. simpl (In _ (py _)) in I.
      destruct I as [I|[[I|[]]|I]]; try discriminate; apply two_chars in I; lia. }
    assert (ER : rev (body fr ++ py "-" ++ two zh ++ py ":" ++ two zm)
                 = rev (two zh ++ py ":" ++ two zm) ++ 45%N :: rev (body fr)).
    { rewrite rev_app_distr. rewrite (rev_app_distr (py "-")). rewrite <- app_assoc. reflexivity. }
    rewrite ER.
    replace (mem_char 45 (firstn 7 (rev (two zh ++ py ":" ++ two zm) ++ 45%N :: rev (body fr)))) with true.
    + rewrite before_char_app, from_char_app by auto. cbn [skipn]. rewrite rev_involutive.
      f_equal. rewrite rev_app_distr, rev_involutive. reflexivity.
    + symmetry. apply mem_char_spec. rewrite firstn_app. rewrite in_app_iff. right.
      rewrite rev_length. simpl. auto.
Qed.
End Fields.

Lemma zone_numbers_write z : zone_ok z ->
  zone_numbers (match z with ZZulu => py "Z" | _ => write_zone z end)
  = Some (match z with ZPlus h _ => h | ZMinus h _ => - h | _ => 0 end,
          match z with ZPlus _ m => m | ZMinus _ m => - m | _ => 0 end).
Proof.
  destruct z as [| |h m|h m]; cbn [zone_ok]; intros Z; try reflexivity.
  - assert (E : (match zone_numbers (write_zone (ZPlus h m)) with Some (a, b) => (a =? h) && (b =? m) | None => false end) = true).
    { set (P := fun h => forallb (fun k => match zone_numbers (write_zone (ZPlus h (Z.of_nat k))) with Some (a, b) => (a =? h) && (b =? Z.of_nat k) | None => false end) (seq 0 60)).
      assert (HP : P h = true) by (apply (check_below 24 P); [vm_compute; reflexivity|lia]).
      unfold P in HP. apply (check_below 60 (fun m => match zone_numbers (write_zone (ZPlus h m)) with Some (a, b) => (a =? h) && (b =? m) | None => false end)); [exact HP|lia]. }
    destruct (zone_numbers (write_zone (ZPlus h m))) as [[a b]|]; [|discriminate].
    apply andb_true_iff in E as [E1 E2]. apply Z.eqb_eq in E1, E2. congruence.
  - assert (E : (match zone_numbers (write_zone (ZMinus h m)) with Some (a, b) => (a =? - h) && (b =? - m) | None => false end) = true).
    { set (P := fun h => forallb (fun k => match zone_numbers (write_zone (ZMinus h (Z.of_nat k))) with Some (a, b) => (a =? - h) && (b =? - Z.of_nat k) | None => false end) (seq 0 60)).
      assert (HP : P h = true) by (apply (check_below 24 P); [vm_compute; reflexivity|lia]).
      unfold P in HP. apply (check_below 60 (fun m => match zone_numbers (write_zone (ZMinus h m)) with Some (a, b) => (a =? - h) && (b =? - m) | None => false end)); [exact HP|lia]. }
    destruct (zone_numbers (write_zone (ZMinus h m))) as [[a b]|]; [|discriminate].
    apply andb_true_iff in E as [E1 E2]. apply Z.eqb_eq in E1, E2. congruence.
Qed.

Lemma mk_timezone_ok h m : -1440 < h * 60 + m < 1440 -> mk_timezone h m = Ok (mk_tz ((h * 60 + m) * 60000000) None).
Proof.
  intros H. unfold mk_timezone.
  assert (D : -1 <= (h * 60 + m) / 1440 <= 0).
  { split; [apply Z.div_le_lower_bound; lia|]. apply Z.lt_succ_r. apply Z.div_lt_upper_bound; lia. }
  rewrite (proj2 (Z.ltb_ge _ _)) by lia. rewrite (proj2 (Z.ltb_ge _ _)) by lia. cbn [orb].
  rewrite (proj2 (Z.ltb_lt _ _)) by lia. rewrite (proj2 (Z.ltb_lt _ _)) by lia. reflexivity.
Qed.

Lemma frac_us_bound ds : forall k, (length ds <= k)%nat -> Forall (fun d => 0 <= d <= 9) ds ->
  0 <= frac_us (10 ^ (Z.of_nat k - 1)) ds < 10 ^ Z.of_nat k.
Proof.
  induction ds as [|d ds IH]; intros k L F.
  - cbn [frac_us]. assert (0 < 10 ^ Z.of_nat k) by (apply Z.pow_pos_nonneg; lia). lia.
  - destruct k as [|k]; [simpl in L; lia|]. inversion F; subst. cbn [frac_us].
    replace (Z.of_nat (S k) - 1) with (Z.of_nat k) by lia.
    assert (E : 10 ^ Z.of_nat k / 10 = 10 ^ (Z.of_nat k - 1)).
    { destruct k as [|k'].
      - reflexivity.
      - rewrite Nat2Z.inj_succ. unfold Z.succ.
        replace (Z.of_nat k' + 1 - 1) with (Z.of_nat k') by lia.
        rewrite Z.pow_add_r by lia. rewrite Z.div_mul by lia. reflexivity. }
    rewrite E. specialize (IH k ltac:(simpl in L; lia) H2).
    rewrite Nat2Z.inj_succ. unfold Z.succ. rewrite Z.pow_add_r by lia. change (10 ^ 1) with 10.
    assert (0 < 10 ^ Z.of_nat k) by (apply Z.pow_pos_nonneg; lia). nia.
Qed.

Lemma frac_micros_bound ds : frac_ok ds -> 0 <= frac_micros ds <= 999999.
Proof.
  intros [L F]. assert (H := frac_us_bound ds 6 L F). unfold frac_micros.
  change (10 ^ (Z.of_nat 6 - 1)) with 100000 in H. change (10 ^ Z.of_nat 6) with 1000000 in H. lia.
Qed.

Theorem parse_write_date y m d h i s fr z :
  valid_fields y m d h i s 0 = true -> frac_ok fr -> zone_ok z ->
  parse_date_time (write_date y m d h i s fr z)
  = Ok (Some (mk_dt y m d h i s (frac_micros fr) (Some (mk_tz (zone_minutes z * 60000000) None)))).
Proof.
  intros V [L F] Z. assert (B := valid_fields_bounds _ _ _ _ _ _ _ V).
  destruct B as (By & Bm & Bd & Bh & Bi & Bs & _).
  assert (E : write_date y m d h i s fr z = body y m d h i s fr ++ write_zone z).
  { unfold write_date, body, date_part. now rewrite <- !app_assoc. }
  rewrite E. unfold parse_date_time. rewrite body_split_zone by auto.
  rewrite zone_numbers_write by auto.
  rewrite body_dot by auto.
  assert (V' : valid_fields y m d h i s (frac_micros fr) = true).
  { assert (X := frac_micros_bound fr (conj L F)). unfold valid_fields in *.
    rewrite !andb_true_iff, !Z.leb_le in *. lia. }
  assert (S : strptime (if match fr with [] => false | _ => true end then m_fmt_frac else m_fmt_plain)
                (body y m d h i s fr) = Some (mk_dt y m d h i s (frac_micros fr) None)).
  { apply strptime_first; auto. destruct fr as [|x fr].
    - unfold body. simpl write_frac. rewrite app_nil_r. unfold m_fmt_plain.
      rewrite <- (app_nil_r (date_part y m d h i s)).
      eapply first_bind; [apply first_date; auto|]. apply first_ret.
    - unfold body, m_fmt_frac. eapply first_bind; [apply first_date; auto|].
      unfold write_frac. eapply first_bind; [apply first_char; reflexivity|].
      eapply first_bind; [apply first_fraction; auto; simpl in L; lia|]. apply first_ret. }
  rewrite S. rewrite mk_timezone_ok.
  - cbn [yr mo dy hh mi ss us]. do 4 f_equal. f_equal. destruct z; cbn [zone_minutes]; lia.
  - destruct z; cbn [zone_ok] in Z; lia.
Qed.

(** ** What the printer writes *)

Lemma p2_two n : 0 <= n <= 99 -> p2 n = two n.
Proof.
  intros H. apply str_eqb_eq.
  apply (check_below 100 (fun n => str_eqb (p2 n) (two n))); [vm_compute; reflexivity|lia].
Qed.

Definition range_check (lo : N) (n : N) (P : N -> bool) : bool :=
  N.recursion true (fun k b => P (lo + k)%N && b) n.

Lemma range_check_spec lo n P : range_check lo n P = true -> forall k, (lo <= k < lo + n)%N -> P k = true.
Proof.
  revert lo. unfold range_check. induction n using N.peano_ind; intros lo H k Hk; [lia|].
  rewrite N.recursion_succ in H; [|reflexivity|].
  - apply andb_true_iff in H as [H1 H2]. destruct (N.eq_dec k (lo + n)) as [->|N]; auto.
    apply (IHn lo H2). lia.
  - intros a b -> c d ->. reflexivity.
Qed.

Lemma p4_four n : 0 <= n <= 9999 -> pad0 4 (print_Z n) = four n.
Proof.
  intros H. apply str_eqb_eq.
  assert (C : range_check 0 10000 (fun k => str_eqb (pad0 4 (print_Z (Z.of_N k))) (four (Z.of_N k))) = true)
    by (vm_compute; reflexivity).
  assert (G := range_check_spec _ _ _ C (Z.to_N n)). cbv beta in G. rewrite Z2N.id in G by lia. apply G. lia.
Qed.

Definition three (n : Z) : list Z := [n / 100; (n / 10) mod 10; n mod 10].

Lemma p3_three n : 0 <= n <= 999 -> pad0 3 (print_Z n) = map digit (three n).
Proof.
  intros H. apply str_eqb_eq.
  assert (C : range_check 0 1000 (fun k => str_eqb (pad0 3 (print_Z (Z.of_N k))) (map digit (three (Z.of_N k)))) = true)
    by (vm_compute; reflexivity).
  assert (G := range_check_spec _ _ _ C (Z.to_N n)). cbv beta in G. rewrite Z2N.id in G by lia. apply G. lia.
Qed.

Definition zone_of (z : option tzone) : zone_text :=
  match z with
  | None => ZZulu
  | Some z =>
      let k := Z.abs (tz_off z) / 60000000 in
      if tz_off z =? 0 then ZNone
      else if tz_off z <? 0 then ZMinus (k / 60) (k mod 60) else ZPlus (k / 60) (k mod 60)
  end.

Lemma zone_text_check k neg : 0 < k < 1440 ->
  dt_zone_text (Some (mk_tz ((if neg : bool then - k else k) * 60000000) None))
  = write_zone ((if neg then ZMinus else ZPlus) (k / 60) (k mod 60)).
Proof.
  intros H. apply str_eqb_eq. destruct neg.
  - assert (C : range_check 1 1439 (fun k => str_eqb (dt_zone_text (Some (mk_tz (- Z.of_N k * 60000000) None)))
        (write_zone (ZMinus (Z.of_N k / 60) (Z.of_N k mod 60)))) = true) by (vm_compute; reflexivity).
    assert (G := range_check_spec _ _ _ C (Z.to_N k)). cbv beta in G. rewrite Z2N.id in G by lia. apply G. lia.
  - assert (C : range_check 1 1439 (fun k => str_eqb (dt_zone_text (Some (mk_tz (Z.of_N k * 60000000) None)))
        (write_zone (ZPlus (Z.of_N k / 60) (Z.of_N k mod 60)))) = true) by (vm_compute; reflexivity).
    assert (G := range_check_spec _ _ _ C (Z.to_N k)). cbv beta in G. rewrite Z2N.id in G by lia. apply G. lia.
Qed.

Lemma zone_text_write d : valid_dt d = true -> minute_zone d ->
  dt_zone_text (tz d) = write_zone (zone_of (tz d)) /\ zone_ok (zone_of (tz d))
  /\ zone_minutes (zone_of (tz d)) * 60000000 = match tz d with Some z => tz_off z | None => 0 end.
Proof.
  unfold valid_dt, minute_zone. intros V M. destruct (tz d) as [[off nm]|].
  2:{ cbn. auto. }
  cbn in M. destruct M as [-> [k Ek]]. apply andb_true_iff in V as [_ V].
  unfold valid_tz, day_us in V. cbn [tz_off] in V. apply andb_true_iff in V as [V1 V2].
  apply Z.ltb_lt in V1, V2.
  assert (Bk : -1440 < k < 1440) by lia. subst off.
  unfold zone_of. cbn [tz_off].
  destruct (Z.eqb_spec (k * 60000000) 0) as [E|E].
  - assert (k = 0) by lia. subst k. cbn. auto.
  - destruct (Z.ltb_spec (k * 60000000) 0) as [N|N].
    + replace (Z.abs (k * 60000000) / 60000000) with (- k)
        by (rewrite Z.abs_neq by lia; apply Z.div_unique_exact; lia).
      assert (T := zone_text_check (- k) true ltac:(lia)). cbv iota in T. rewrite Z.opp_involutive in T.
      rewrite T. assert (X := Z.mod_pos_bound (- k) 60). assert (Y := Z.div_mod (- k) 60).
      split; [reflexivity|]. cbn [zone_ok zone_minutes]. lia.
    + replace (Z.abs (k * 60000000) / 60000000) with k
        by (rewrite Z.abs_eq by lia; apply Z.div_unique_exact; lia).
      assert (T := zone_text_check k false ltac:(lia)). cbv iota in T.
      rewrite T. assert (X := Z.mod_pos_bound k 60). assert (Y := Z.div_mod k 60).
      split; [reflexivity|]. cbn [zone_ok zone_minutes]. lia.
Qed.

Lemma three_bounds n : 0 <= n <= 999 -> Forall (fun d => 0 <= d <= 9) (three n)
  /\ frac_micros (three n) = n * 1000.
Proof.
  intros H.
  assert (C : range_check 0 1000 (fun k => forallb (fun d => (0 <=? d) && (d <=? 9)) (three (Z.of_N k))
    && (frac_micros (three (Z.of_N k)) =? Z.of_N k * 1000)) = true) by (vm_compute; reflexivity).
  assert (G := range_check_spec _ _ _ C (Z.to_N n)). cbv beta in G. rewrite Z2N.id in G by lia.
  specialize (G ltac:(lia)). apply andb_true_iff in G as [G1 G2]. apply Z.eqb_eq in G2. split; auto.
  apply Forall_forall. intros x Hx. rewrite forallb_forall in G1. specialize (G1 x Hx).
  apply andb_true_iff in G1 as [A B]. apply Z.leb_le in A, B. lia.
Qed.

Lemma timestamp_str_write d : valid_dt d = true -> minute_zone d ->
  timestamp_str d = write_date (yr d) (mo d) (dy d) (hh d) (mi d) (ss d) (three (us d / 1000)) (zone_of (tz d)).
Proof.
  intros V M. assert (V' := V). unfold valid_dt in V'. apply andb_true_iff in V' as [V' _].
  assert (B := valid_fields_bounds _ _ _ _ _ _ _ V').
  unfold timestamp_str, dt_digits, write_date.
  rewrite p4_four, !p2_two by lia.
  assert (U : 0 <= us d / 1000 <= 999) by (split; [apply Z.div_pos; lia|apply Z.lt_succ_r, Z.div_lt_upper_bound; lia]).
  rewrite p3_three by auto.
  destruct (zone_text_write d V M) as (-> & _ & _).
  unfold write_frac, three. rewrite <- !app_assoc. reflexivity.
Qed.

Theorem parse_timestamp_str d : valid_dt d = true -> minute_zone d ->
  parse_date_time (timestamp_str d) = Ok (Some (to_millis d)).
Proof.
  intros V M. rewrite timestamp_str_write by auto.
  assert (V' := V). unfold valid_dt in V'. apply andb_true_iff in V' as [V' _].
  assert (B := valid_fields_bounds _ _ _ _ _ _ _ V').
  assert (U : 0 <= us d / 1000 <= 999) by (split; [apply Z.div_pos; lia|apply Z.lt_succ_r, Z.div_lt_upper_bound; lia]).
  destruct (three_bounds _ U) as [F1 F2]. destruct (zone_text_write d V M) as (_ & Z1 & Z2).
  rewrite parse_write_date; auto.
  - rewrite F2, Z2. unfold to_millis. do 3 f_equal.
    unfold minute_zone in M. destruct (tz d) as [[off nm]|]; [|reflexivity].
    cbn in *. destruct M as [-> _]. reflexivity.
  - unfold valid_fields in *. rewrite !andb_true_iff, !Z.leb_le in *. lia.
  - split; auto.
Qed.

Lemma to_millis_instant d : valid_dt d = true ->
  instant d - 1000 < instant (to_millis d) <= instant d.
Proof.
  intros V. unfold instant, to_millis, wall_us. cbn [yr mo dy hh mi ss us tz].
  assert (X := Z.div_mod (us d) 1000 ltac:(lia)). assert (Y := Z.mod_pos_bound (us d) 1000).
  destruct (tz d) as [[off nm]|]; cbn [tz_off]; lia.
Qed.

(** ** Results of the parser *)

Lemma strptime_valid fmt s t : strptime fmt s = Some t ->
  tz t = None /\ valid_fields (yr t) (mo t) (dy t) (hh t) (mi t) (ss t) (us t) = true.
Proof.
  unfold strptime. destruct (fmt s) as [|[[[[[[[y m] d] h] i] sec] u] [|]] l]; try discriminate.
  destruct (valid_fields y m d h i sec u) eqn:V; [|discriminate]. intros [= <-]. auto.
Qed.

Lemma mk_timezone_spec h m z : mk_timezone h m = Ok z ->
  z = mk_tz ((h * 60 + m) * 60000000) None /\ -1440 < h * 60 + m < 1440.
Proof.
  unfold mk_timezone. destruct ((_ <? _) || _); [discriminate|].
  destruct ((-1440 <? h * 60 + m) && (h * 60 + m <? 1440)) eqn:E; [|discriminate].
  apply andb_true_iff in E as [A B]. apply Z.ltb_lt in A, B. intros [= <-]. auto.
Qed.

Lemma mk_timezone_raise h m e : mk_timezone h m = Raise e ->
  (e = ValueError /\ 1440 <= Z.abs (h * 60 + m))
  \/ (e = OverflowError /\ 1439999998560 < Z.abs (h * 60 + m)).
Proof.
  unfold mk_timezone. destruct ((_ <? _) || _) eqn:D.
  - intros [= <-]. right. split; auto. apply orb_true_iff in D as [D|D]; apply Z.ltb_lt in D.
    + assert (X := Z.div_mod (h * 60 + m) 1440 ltac:(lia)). assert (Y := Z.mod_pos_bound (h * 60 + m) 1440). lia.
    + assert (X := Z.div_mod (h * 60 + m) 1440 ltac:(lia)). assert (Y := Z.mod_pos_bound (h * 60 + m) 1440). lia.
  - destruct ((-1440 <? h * 60 + m) && (h * 60 + m <? 1440)) eqn:E; [discriminate|].
    intros [= <-]. left. split; auto. apply andb_false_iff in E as [E|E]; apply Z.ltb_ge in E; lia.
Qed.

Lemma parse_date_time_sound s d : parse_date_time s = Ok (Some d) ->
  valid_dt d = true /\ exists k, tz d = Some (mk_tz (k * 60000000) None).
Proof.
  unfold parse_date_time. destruct (split_zone s) as [value zone].
  destruct (zone_numbers zone) as [[h m]|]; [|discriminate].
  destruct (strptime _ value) as [t|] eqn:S; [|discriminate]. apply strptime_valid in S as [_ S].
  destruct (mk_timezone h m) as [z|e] eqn:T.
  - apply mk_timezone_spec in T as [-> T]. intros [= <-]. split; [|exists (h * 60 + m); reflexivity].
    unfold valid_dt. cbn [yr mo dy hh mi ss us tz]. rewrite S. cbn [andb].
    unfold valid_tz, day_us. cbn [tz_off]. apply andb_true_iff; split; apply Z.ltb_lt; lia.
  - destruct e; discriminate.
Qed.

Lemma parse_date_time_raise s e : parse_date_time s = Raise e ->
  e = OverflowError
  /\ exists h m, zone_numbers (snd (split_zone s)) = Some (h, m) /\ 1439999998560 < Z.abs (h * 60 + m).
Proof.
  unfold parse_date_time. destruct (split_zone s) as [value zone]. cbn [snd].
  destruct (zone_numbers zone) as [[h m]|]; [|discriminate].
  destruct (strptime _ value) as [t|] eqn:S; [|discriminate].
  destruct (mk_timezone h m) as [z|e'] eqn:T; [discriminate|].
  apply mk_timezone_raise in T as [[-> _]|[-> T]]; [discriminate|].
  intros [= <-]. split; auto. exists h, m. auto.
Qed.
