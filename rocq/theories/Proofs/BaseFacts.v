(** Lemmas about the Python vocabulary of Base/PyBase.v. *)
From Coq Require Import String NArith ZArith List Bool Lia Permutation.
From Verif Require Import Base.Unicode Base.PyBase.
Import ListNotations.

(** ** Text equality and order *)

Lemma str_eqb_eq a b : str_eqb a b = true <-> a = b.
Proof.
  revert b; induction a as [|x a IH]; destruct b as [|y b]; simpl; try easy.
  rewrite andb_true_iff, N.eqb_eq, IH. split; [intros [-> ->]|intros [= -> ->]]; auto.
Qed.

Lemma str_eqb_refl a : str_eqb a a = true.
Proof. now apply str_eqb_eq. Qed.

Lemma str_eqb_neq a b : str_eqb a b = false <-> a <> b.
Proof.
  split; intros H.
  - intros ->. rewrite str_eqb_refl in H. discriminate.
  - destruct (str_eqb a b) eqn:E; auto. apply str_eqb_eq in E. contradiction.
Qed.

Lemma str_eqb_sym a b : str_eqb a b = str_eqb b a.
Proof.
  destruct (str_eqb a b) eqn:E; symmetry.
  - apply str_eqb_eq in E. subst. apply str_eqb_refl.
  - apply str_eqb_neq in E. apply str_eqb_neq. congruence.
Qed.

Lemma str_eqb_spec a b : reflect (a = b) (str_eqb a b).
Proof. apply iff_reflect. symmetry. apply str_eqb_eq. Qed.

Definition str_dec (a b : pystr) : {a = b} + {a <> b} := list_eq_dec N.eq_dec a b.

Lemma str_cmp_refl a : str_cmp a a = Eq.
Proof. induction a; simpl; auto. now rewrite N.compare_refl. Qed.

Lemma str_cmp_eq a b : str_cmp a b = Eq <-> a = b.
Proof.
  revert b; induction a as [|x a IH]; destruct b as [|y b]; simpl; try easy.
  destruct (N.compare_spec x y); split; intros; try discriminate; try (injection H0; intros; subst; lia).
  - f_equal; auto. now apply IH.
  - injection H0. intros -> _. apply str_cmp_refl.
Qed.

Lemma str_cmp_antisym a b : str_cmp b a = CompOpp (str_cmp a b).
Proof.
  revert b; induction a as [|x a IH]; destruct b as [|y b]; simpl; auto.
  rewrite (N.compare_antisym x y). destruct (N.compare x y); simpl; auto.
Qed.

Lemma str_cmp_lt_trans a b c : str_cmp a b = Lt -> str_cmp b c = Lt -> str_cmp a c = Lt.
Proof.
  revert b c; induction a as [|x a IH]; destruct b as [|y b], c as [|z c]; simpl; try easy.
  destruct (N.compare_spec x y); try easy; destruct (N.compare_spec y z); try easy; intros;
    destruct (N.compare_spec x z); auto; try lia.
  eauto.
Qed.

Lemma str_cmp_gt_lt a b : str_cmp a b = Gt <-> str_cmp b a = Lt.
Proof. rewrite (str_cmp_antisym a b). destruct (str_cmp a b); simpl; split; easy. Qed.

(** ** Result monad *)

Lemma bind_ok {A B} (r : res A) (k : A -> res B) b :
  bind r k = Ok b <-> exists a, r = Ok a /\ k a = Ok b.
Proof.
  destruct r; simpl; split.
  - eauto.
  - intros (a' & [= <-] & H); auto.
  - discriminate.
  - intros (a' & [=] & _).
Qed.

Lemma fold_res_app {A S} (f : S -> A -> res S) l1 l2 s :
  fold_res f (l1 ++ l2) s = bind (fold_res f l1 s) (fold_res f l2).
Proof.
  revert s; induction l1 as [|a l1 IH]; simpl; intros; auto.
  destruct (f s a); simpl; auto.
Qed.

(** ** Dictionaries *)

Section DictFacts.
  Context {K V : Type} (eqb : K -> K -> bool).
  Hypothesis eqb_spec : forall a b, eqb a b = true <-> a = b.

  Let eqb_refl a : eqb a a = true. Proof. now apply eqb_spec. Qed.
  Let eqb_neq a b : a <> b -> eqb a b = false.
  Proof. intros. destruct (eqb a b) eqn:E; auto. apply eqb_spec in E. contradiction. Qed.
  Let eqb_dec (a b : K) : {a = b} + {a <> b}.
  Proof. destruct (eqb a b) eqn:E; [left|right]; [now apply eqb_spec|]. intros ->. rewrite eqb_refl in E. discriminate. Qed.

  Lemma dict_get_set_same k (v : V) d : dict_get eqb k (dict_set eqb k v d) = Some v.
  Proof.
    induction d as [|[k' v'] d IH]; simpl.
    - now rewrite eqb_refl.
    - destruct (eqb k k') eqn:E; simpl; rewrite E; auto.
  Qed.

  Lemma dict_get_set_other k k2 (v : V) d : k <> k2 ->
    dict_get eqb k2 (dict_set eqb k v d) = dict_get eqb k2 d.
  Proof.
    intros N. induction d as [|[k' v'] d IH]; simpl.
    - rewrite eqb_neq; auto.
    - destruct (eqb k k') eqn:E; simpl.
      + apply eqb_spec in E. subst k'. rewrite eqb_neq; auto.
      + now rewrite IH.
  Qed.

  Lemma dict_get_in k (v : V) d : dict_get eqb k d = Some v -> In (k, v) d.
  Proof.
    induction d as [|[k' v'] d IH]; simpl; [easy|].
    destruct (eqb k k') eqn:E.
    - apply eqb_spec in E. subst. intros [= ->]. auto.
    - auto.
  Qed.

  Lemma dict_get_none k (d : list (K * V)) : dict_get eqb k d = None <-> ~ In k (map fst d).
  Proof.
    induction d as [|[k' v'] d IH]; simpl; [easy|].
    destruct (eqb k k') eqn:E.
    - apply eqb_spec in E. subst. split; [discriminate|]. intros N. destruct N; auto.
    - rewrite IH. split; intros H; [intros [->|H']|]; auto.
      rewrite eqb_refl in E. discriminate.
  Qed.

  Lemma dict_in_get k (v : V) d : dict_wf d -> In (k, v) d -> dict_get eqb k d = Some v.
  Proof.
    unfold dict_wf. induction d as [|[k' v'] d IH]; simpl; [easy|].
    intros ND H. inversion ND; subst.
    destruct H as [[= -> ->]|H].
    - now rewrite eqb_refl.
    - rewrite eqb_neq; auto. intros ->. apply H2. change k' with (fst (k', v)). now apply in_map.
  Qed.

  Lemma dict_set_keys k (v : V) d :
    map fst (dict_set eqb k v d)
    = if dict_mem eqb k d then map fst d else map fst d ++ [k].
  Proof.
    unfold dict_mem. induction d as [|[k' v'] d IH]; simpl; auto.
    destruct (eqb k k') eqn:E; simpl; auto.
    rewrite IH. destruct (dict_get eqb k d); auto.
  Qed.

  Lemma dict_set_wf k (v : V) d : dict_wf d -> dict_wf (dict_set eqb k v d).
  Proof.
    unfold dict_wf. rewrite dict_set_keys. unfold dict_mem. intros H.
    destruct (dict_get eqb k d) eqn:E; auto.
    apply dict_get_none in E.
    apply Permutation_NoDup with (k :: map fst d).
    - apply Permutation_cons_append.
    - now constructor.
  Qed.

  Lemma dict_set_new k (v : V) d : ~ In k (map fst d) -> dict_set eqb k v d = d ++ [(k, v)].
  Proof.
    induction d as [|[k' v'] d IH]; simpl; auto.
    intros N. rewrite eqb_neq by (intros ->; auto). rewrite IH; auto.
  Qed.

  Lemma dict_mem_in k (d : list (K * V)) : dict_mem eqb k d = true <-> In k (map fst d).
  Proof.
    unfold dict_mem. destruct (dict_get eqb k d) eqn:E; split; auto; try discriminate.
    - intros _. apply dict_get_in in E. change k with (fst (k, v)). now apply in_map.
    - intros H. apply dict_get_none in E. contradiction.
  Qed.
End DictFacts.

(** Specialisations to string keys. *)
Lemma sget_sset_same {V} k (v : V) d : sget k (sset k v d) = Some v.
Proof. apply dict_get_set_same, str_eqb_eq. Qed.
Lemma sget_sset_other {V} k k2 (v : V) d : k <> k2 -> sget k2 (sset k v d) = sget k2 d.
Proof. apply dict_get_set_other, str_eqb_eq. Qed.
Lemma sget_in {V} k (v : V) d : sget k d = Some v -> In (k, v) d.
Proof. apply dict_get_in, str_eqb_eq. Qed.
Lemma sget_none {V} k (d : sdict V) : sget k d = None <-> ~ In k (map fst d).
Proof. apply dict_get_none, str_eqb_eq. Qed.
Lemma sin_get {V} k (v : V) d : dict_wf d -> In (k, v) d -> sget k d = Some v.
Proof. apply dict_in_get, str_eqb_eq. Qed.
Lemma sset_wf {V} k (v : V) d : dict_wf d -> dict_wf (sset k v d).
Proof. apply dict_set_wf, str_eqb_eq. Qed.
Lemma sset_new {V} k (v : V) d : ~ In k (map fst d) -> sset k v d = d ++ [(k, v)].
Proof. apply dict_set_new, str_eqb_eq. Qed.
Lemma sset_keys {V} k (v : V) d :
  map fst (sset k v d) = if smem k d then map fst d else map fst d ++ [k].
Proof. apply dict_set_keys. Qed.
Lemma smem_in {V} k (d : sdict V) : smem k d = true <-> In k (map fst d).
Proof. apply dict_mem_in, str_eqb_eq. Qed.

(** ** Stripping *)

Lemma dropwhile_nil_iff p s : dropwhile p s = [] <-> Forall (fun c => p c = true) s.
Proof.
  induction s as [|c s IH]; simpl.
  - split; constructor.
  - destruct (p c) eqn:E.
    + rewrite IH. split; intros H; [constructor; auto|inversion H; auto].
    + split; intros H; [discriminate|inversion H; congruence].
Qed.

Lemma dropwhile_head p s c t : dropwhile p s = c :: t -> p c = false.
Proof.
  induction s as [|x s IH]; simpl; [discriminate|].
  destruct (p x) eqn:E; auto. intros [= -> ->]. auto.
Qed.

Lemma dropwhile_id p s : (forall c t, s = c :: t -> p c = false) -> dropwhile p s = s.
Proof. destruct s as [|c t]; simpl; auto. intros H. now rewrite (H c t eq_refl). Qed.

Lemma dropwhile_suffix p s : exists pre, s = pre ++ dropwhile p s /\ Forall (fun c => p c = true) pre.
Proof.
  induction s as [|c s IH]; simpl.
  - exists []; auto.
  - destruct (p c) eqn:E.
    + destruct IH as (pre & H1 & H2). exists (c :: pre). split; [simpl; congruence|auto].
    + exists []; auto.
Qed.

(** A text is trimmed when it neither starts nor ends with a stripped character. *)
Definition trimmed_by (p : N -> bool) (s : pystr) : Prop :=
  (forall c t, s = c :: t -> p c = false) /\ (forall c t, s = t ++ [c] -> p c = false).

Lemma strip_by_id p s : trimmed_by p s -> strip_by p s = s.
Proof.
  intros [H1 H2]. unfold strip_by. rewrite (dropwhile_id p s H1).
  rewrite dropwhile_id.
  - apply rev_involutive.
  - intros c t E. apply (H2 c (rev t)).
    rewrite <- (rev_involutive s), E. simpl. auto.
Qed.

Lemma strip_by_trimmed p s : trimmed_by p (strip_by p s).
Proof.
  unfold strip_by. set (d := dropwhile p s).
  assert (Hd : forall c t, d = c :: t -> p c = false) by (intros; eapply dropwhile_head; eauto).
  split; intros c t E.
  - destruct (dropwhile_suffix p (rev d)) as (pre & H1 & _).
    assert (H3 : d = (c :: t) ++ rev pre).
    { rewrite <- E, <- rev_app_distr, <- H1, rev_involutive. auto. }
    eapply Hd. simpl in H3. eauto.
  - apply (f_equal (@rev N)) in E. rewrite rev_involutive, rev_app_distr in E. simpl in E.
    eapply dropwhile_head; eauto.
Qed.

Lemma strip_by_idem p s : strip_by p (strip_by p s) = strip_by p s.
Proof. apply strip_by_id, strip_by_trimmed. Qed.

Lemma strip_by_decomp p s :
  exists a b, s = a ++ strip_by p s ++ b
              /\ Forall (fun c => p c = true) a /\ Forall (fun c => p c = true) b.
Proof.
  unfold strip_by. destruct (dropwhile_suffix p s) as (a & Ha & Pa).
  destruct (dropwhile_suffix p (rev (dropwhile p s))) as (b & Hb & Pb).
  exists a, (rev b). split; [|split; auto].
  - rewrite Ha at 1. f_equal.
    rewrite <- rev_app_distr, <- Hb, rev_involutive. auto.
  - apply Forall_rev. auto.
Qed.

(** ** Numbers as text *)

Lemma digit_char_val base d : (d < base)%N -> (base <= 16)%N -> digit_val base (digit_char d) = Some d.
Proof.
  intros H1 H2. unfold digit_val, digit_char.
  destruct (N.ltb_spec d 10).
  - replace ((48 <=? 48 + d) && (48 + d <=? 57))%N with true
      by (symmetry; apply andb_true_iff; split; apply N.leb_le; lia).
    replace (48 + d - 48)%N with d by lia. apply N.ltb_lt in H1. now rewrite H1.
  - replace ((48 <=? 87 + d) && (87 + d <=? 57))%N with false
      by (symmetry; apply andb_false_iff; right; apply N.leb_gt; lia).
    replace ((97 <=? 87 + d) && (87 + d <=? 102))%N with true
      by (symmetry; apply andb_true_iff; split; apply N.leb_le; lia).
    replace (87 + d - 87)%N with d by lia. apply N.ltb_lt in H1. now rewrite H1.
Qed.

Lemma digit_char_not_us d : (d < 16)%N -> (digit_char d =? 95)%N = false.
Proof. intros. unfold digit_char. destruct (N.ltb_spec d 10); apply N.eqb_neq; lia. Qed.

Definition undigits (base : N) (l : list N) : N := fold_left (fun a d => (a * base + d)%N) l 0%N.

Lemma undigits_app base l d : undigits base (l ++ [d]) = (undigits base l * base + d)%N.
Proof. unfold undigits. now rewrite fold_left_app. Qed.

Lemma digits_rev_spec base fuel n : (2 <= base)%N -> (n < base ^ N.of_nat fuel)%N ->
  (0 < fuel)%nat ->
  undigits base (rev (digits_rev base fuel n)) = n
  /\ Forall (fun d => (d < base)%N) (digits_rev base fuel n)
  /\ digits_rev base fuel n <> [].
Proof.
  intros Hb. revert n. induction fuel as [|f IH]; intros n Hn Hf; [lia|].
  cbn [digits_rev].
  assert (M : (n mod base < base)%N) by (apply N.mod_lt; lia).
  assert (D : n = (base * (n / base) + n mod base)%N) by (apply N.div_mod; lia).
  destruct (N.eqb_spec (n / base) 0).
  - cbn. rewrite e in D. repeat split; try discriminate; auto. lia.
  - cbn [rev]. rewrite undigits_app.
    rewrite Nat2N.inj_succ, N.pow_succ_r' in Hn.
    assert (L : (n / base < base ^ N.of_nat f)%N) by (apply N.div_lt_upper_bound; lia).
    destruct f as [|f'].
    { change (N.of_nat 0) with 0%N in L. rewrite N.pow_0_r in L. apply N.lt_1_r in L. contradiction. }
    destruct (IH (n / base)%N L) as (H1 & H2 & H3); [lia|].
    rewrite H1. repeat split; try discriminate.
    + lia.
    + constructor; auto.
Qed.

Lemma size_nat_bound n : (n < 2 ^ N.of_nat (N.size_nat n))%N.
Proof.
  destruct n as [|p]; [reflexivity|].
  change (N.size_nat (N.pos p)) with (Pos.size_nat p).
  assert (H : (N.pos p < 2 ^ N.of_nat (Pos.size_nat p))%N).
  { induction p as [p IH|p IH|]; cbn [Pos.size_nat].
    - rewrite Nat2N.inj_succ, N.pow_succ_r'. lia.
    - rewrite Nat2N.inj_succ, N.pow_succ_r'. lia.
    - reflexivity. }
  exact H.
Qed.

Definition base_digits (base n : N) : list N := rev (digits_rev base (S (N.size_nat n)) n).

Lemma base_digits_spec base n : (2 <= base)%N ->
  undigits base (base_digits base n) = n
  /\ Forall (fun d => (d < base)%N) (base_digits base n)
  /\ base_digits base n <> [].
Proof.
  intros Hb. unfold base_digits.
  destruct (digits_rev_spec base (S (N.size_nat n)) n Hb) as (H1 & H2 & H3); [|lia|].
  - apply N.lt_le_trans with (2 ^ N.of_nat (N.size_nat n))%N.
    + apply size_nat_bound.
    + apply N.le_trans with (base ^ N.of_nat (N.size_nat n))%N.
      * apply N.pow_le_mono_l. lia.
      * apply N.pow_le_mono_r; lia.
  - repeat split; auto.
    + now apply Forall_rev.
    + intros E. apply H3. now rewrite <- (rev_involutive (digits_rev _ _ _)), E.
Qed.

Lemma int_digits_app base acc l :
  (base <= 16)%N -> Forall (fun d => (d < base)%N) l ->
  int_digits base acc false (map digit_char l)
  = Some (fold_left (fun a d => (a * base + d)%N) l acc).
Proof.
  intros Hb. revert acc. induction l as [|d l IH]; intros acc H; simpl; auto.
  inversion H; subst.
  rewrite digit_char_not_us by lia. rewrite digit_char_val by auto. apply IH; auto.
Qed.

Lemma int_body_digits base l :
  (base <= 16)%N -> Forall (fun d => (d < base)%N) l -> l <> [] ->
  int_body base (map digit_char l) = Some (undigits base l).
Proof.
  intros Hb H N. destruct l as [|d l]; [easy|]. simpl. inversion H; subst.
  rewrite digit_char_val by auto. rewrite int_digits_app by auto.
  reflexivity.
Qed.

(** Characters that [int] leaves untouched: printed digits and hyphens. *)
Lemma int_norm_digit d : (d < 16)%N -> int_norm (digit_char d) = digit_char d.
Proof.
  intros H.
  assert (E : forallb (fun d => N.eqb (int_norm (digit_char d)) (digit_char d))
                (map N.of_nat (seq 0 16)) = true) by (vm_compute; reflexivity).
  rewrite forallb_forall in E. specialize (E d).
  apply N.eqb_eq, E. apply in_map_iff. exists (N.to_nat d). split; [lia|]. apply in_seq. lia.
Qed.

Lemma int_space_digit d : (d < 16)%N -> int_space (digit_char d) = false.
Proof.
  intros H. unfold int_space, digit_char.
  destruct (N.ltb_spec d 10); repeat (apply orb_false_iff; split); try apply andb_false_iff;
    try (right; apply N.leb_gt; lia); apply N.eqb_neq; lia.
Qed.

Lemma map_int_norm_digits l : Forall (fun d => (d < 16)%N) l ->
  map int_norm (map digit_char l) = map digit_char l.
Proof.
  induction l; simpl; intros H; auto. inversion H; subst.
  rewrite int_norm_digit by auto. f_equal; auto.
Qed.

Lemma strip_digits l : Forall (fun d => (d < 16)%N) l ->
  strip_by int_space (map digit_char l) = map digit_char l.
Proof.
  intros H. apply strip_by_id. split; intros c t E.
  - destruct l as [|d l]; [discriminate|]. simpl in E. injection E as <- _.
    inversion H. now apply int_space_digit.
  - assert (I : In c (map digit_char l)) by (rewrite E; apply in_or_app; simpl; auto).
    apply in_map_iff in I as (d & <- & I). rewrite Forall_forall in H. apply int_space_digit; auto.
Qed.

Lemma digit_char_not_sign d : (d < 16)%N ->
  (digit_char d =? 45)%N = false /\ (digit_char d =? 43)%N = false.
Proof. intros. unfold digit_char. destruct (N.ltb_spec d 10); split; apply N.eqb_neq; lia. Qed.

Lemma int_prefix_digits base l : Forall (fun d => (d < 16)%N) l ->
  int_prefix base (map digit_char l) = map digit_char l.
Proof.
  destruct l as [|a [|b l]]; auto. simpl map. unfold int_prefix. intros H.
  inversion H as [|? ? Ha Hr]; subst. inversion Hr as [|? ? Hb Hr']; subst.
  replace ((digit_char b =? 120) || (digit_char b =? 88))%N with false.
  - now rewrite andb_false_r.
  - symmetry. apply orb_false_iff. unfold digit_char. destruct (N.ltb_spec b 10);
      split; apply N.eqb_neq; lia.
Qed.

Lemma Forall_lt_weaken (a b : N) l : (a <= b)%N -> Forall (fun d => (d < a)%N) l -> Forall (fun d => (d < b)%N) l.
Proof. intros H F. eapply Forall_impl; [|exact F]. simpl. intros. lia. Qed.

Lemma py_int_digits base l :
  (base <= 16)%N -> Forall (fun d => (d < base)%N) l -> l <> [] ->
  py_int base (map digit_char l) = Some (Z.of_N (undigits base l)).
Proof.
  intros Hb H N. unfold py_int.
  assert (H16 : Forall (fun d => (d < 16)%N) l) by (eapply Forall_lt_weaken; eauto).
  rewrite map_int_norm_digits, strip_digits by auto.
  destruct l as [|d l]; [easy|]. change (map digit_char (d :: l)) with (digit_char d :: map digit_char l).
  inversion H16 as [|? ? Hd Hl]; subst.
  destruct (digit_char_not_sign d Hd) as [E1 E2]. rewrite E1, E2.
  change (digit_char d :: map digit_char l) with (map digit_char (d :: l)).
  rewrite int_prefix_digits by auto.
  rewrite int_body_digits; auto.
Qed.

Lemma print_base_eq base n : print_base base n = map digit_char (base_digits base n).
Proof. reflexivity. Qed.

Theorem py_int_print_N n : py_int 10 (print_N n) = Some (Z.of_N n).
Proof.
  unfold print_N. rewrite print_base_eq.
  destruct (base_digits_spec 10 n) as (H1 & H2 & H3); [lia|].
  rewrite py_int_digits; auto; [congruence|lia].
Qed.

Theorem py_int_print_Z z : py_int 10 (print_Z z) = Some z.
Proof.
  destruct z as [|p|p]; cbn [print_Z]; try apply py_int_print_N.
  unfold print_N. rewrite print_base_eq.
  destruct (base_digits_spec 10 (N.pos p)) as (H1 & H2 & H3); [lia|].
  assert (H16 : Forall (fun d => (d < 16)%N) (base_digits 10 (N.pos p))) by (eapply Forall_lt_weaken; eauto; lia).
  unfold py_int.
  change (map int_norm (45%N :: map digit_char (base_digits 10 (N.pos p))))
    with (int_norm 45 :: map int_norm (map digit_char (base_digits 10 (N.pos p)))).
  rewrite map_int_norm_digits by auto.
  replace (int_norm 45) with 45%N by (vm_compute; reflexivity).
  rewrite strip_by_id.
  - rewrite N.eqb_refl. rewrite int_prefix_digits by auto. rewrite int_body_digits; auto; [|lia].
    cbn [option_map]. rewrite H1. reflexivity.
  - split; intros c t E.
    + injection E as <- _. reflexivity.
    + assert (I : In c (45%N :: map digit_char (base_digits 10 (N.pos p)))) by (rewrite E; apply in_or_app; simpl; auto).
      destruct I as [<-|I]; [reflexivity|].
      apply in_map_iff in I as (d & <- & I). rewrite Forall_forall in H16. apply int_space_digit; auto.
Qed.

(** ** Lists *)

Lemma update_length {A} i (f : A -> A) l : List.length (update i f l) = List.length l.
Proof. revert i; induction l as [|x l IH]; intros [|i]; simpl; auto. Qed.

Lemma update_nth {A} i (f : A -> A) l j :
  nth_error (update i f l) j = if Nat.eqb i j then option_map f (nth_error l j) else nth_error l j.
Proof.
  revert i j; induction l as [|x l IH]; intros [|i] [|j]; simpl; auto.
  destruct (Nat.eqb i j); reflexivity.
Qed.
