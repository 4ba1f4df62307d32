(** Facts about the comparison functions. *)
From Coq Require Import NArith ZArith List Bool SpecFloat Lia.
From Verif Require Import Base.PyBase Base.PyDate Base.PyVal Model.Attr Spec.Orders Proofs.BaseFacts.
Import ListNotations.
Local Open Scope Z_scope.

Lemma lex_lt_cmp a b : lex_lt a b <-> str_cmp a b = Lt.
Proof.
  split.
  - induction 1; simpl; auto.
    + destruct (N.compare_spec x y); auto; lia.
    + now rewrite N.compare_refl.
  - revert b; induction a as [|x a IH]; destruct b as [|y b]; simpl; try discriminate.
    + constructor.
    + destruct (N.compare_spec x y); try discriminate; intros; subst.
      * apply lex_later; auto.
      * apply lex_here; auto.
Qed.

(** ** Dyadic comparison *)

Lemma fin_cmp_scaled m1 e1 m2 e2 k : 0 <= e1 + k -> 0 <= e2 + k ->
  fin_cmp m1 e1 m2 e2 = (m1 * 2 ^ (e1 + k) ?= m2 * 2 ^ (e2 + k)).
Proof.
  intros H1 H2. unfold fin_cmp. set (e := Z.min e1 e2).
  assert (He : 0 <= e + k) by (unfold e; lia).
  replace (2 ^ (e1 + k)) with (2 ^ (e1 - e) * 2 ^ (e + k)).
  2:{ rewrite <- Z.pow_add_r by (unfold e; lia). f_equal. lia. }
  replace (2 ^ (e2 + k)) with (2 ^ (e2 - e) * 2 ^ (e + k)).
  2:{ rewrite <- Z.pow_add_r by (unfold e; lia). f_equal. lia. }
  rewrite !Z.mul_assoc. assert (P : 0 < 2 ^ (e + k)) by (apply Z.pow_pos_nonneg; lia).
  set (x := m1 * 2 ^ (e1 - e)). set (y := m2 * 2 ^ (e2 - e)).
  destruct (Z.compare_spec x y); symmetry.
  - apply Z.compare_eq_iff. congruence.
  - apply Z.compare_lt_iff. nia.
  - apply Z.compare_gt_iff. nia.
Qed.

Definition big_k (l : list Z) : Z := fold_right (fun e k => Z.max (- e) k) 0 l.

Lemma fin_cmp_refl m e : fin_cmp m e m e = Eq.
Proof. unfold fin_cmp. apply Z.compare_refl. Qed.

Lemma fin_cmp_antisym m1 e1 m2 e2 : fin_cmp m2 e2 m1 e1 = CompOpp (fin_cmp m1 e1 m2 e2).
Proof. unfold fin_cmp. rewrite (Z.min_comm e2 e1). apply Z.compare_antisym. Qed.

Lemma num_cmp_antisym a b c : num_cmp a b = Some c -> num_cmp b a = Some (CompOpp c).
Proof.
  destruct a as [|[]|], b as [|[]|]; simpl; intros [= <-]; auto.
  f_equal. apply fin_cmp_antisym.
Qed.

Lemma num_cmp_some a b : a <> NNan -> b <> NNan -> exists c, num_cmp a b = Some c.
Proof. destruct a as [|[]|], b as [|[]|]; simpl; intros; eauto; easy. Qed.

Lemma num_of_float_nan f : num_of_float f = NNan <-> f = S754_nan.
Proof. destruct f; simpl; split; easy. Qed.

Lemma float_value_num f m e : float_value f m e -> num_of_float f = NFin m e.
Proof. destruct 1; reflexivity. Qed.

Lemma num_float_value f m e : num_of_float f = NFin m e -> float_value f m e.
Proof. destruct f as [| | |[]]; simpl; intros [= <- <-]; constructor. Qed.

Lemma float_lt_cmp f g : float_lt f g <-> num_cmp (num_of_float f) (num_of_float g) = Some Lt.
Proof.
  split.
  - destruct 1 as [f g m1 e1 m2 e2 k H1 H2 K1 K2 L| f m e H | f m e H |].
    + rewrite (float_value_num _ _ _ H1), (float_value_num _ _ _ H2). simpl.
      rewrite (fin_cmp_scaled m1 e1 m2 e2 k) by auto. f_equal. now apply Z.compare_lt_iff.
    + rewrite (float_value_num _ _ _ H). reflexivity.
    + rewrite (float_value_num _ _ _ H). reflexivity.
    + reflexivity.
  - destruct (num_of_float f) as [|[]|m1 e1] eqn:F; destruct (num_of_float g) as [|[]|m2 e2] eqn:G; simpl; try discriminate; intros H.
    + destruct f; try discriminate F. injection F as ->. destruct g; try discriminate G. injection G as ->. constructor.
    + destruct f; try discriminate F. injection F as ->. eapply fl_neg_inf. apply num_float_value; eauto.
    + destruct g; try discriminate G. injection G as ->. eapply fl_pos_inf. apply num_float_value; eauto.
    + injection H as H. rewrite (fin_cmp_scaled m1 e1 m2 e2 (Z.max (- e1) (- e2))) in H by lia.
      apply Z.compare_lt_iff in H.
      eapply fl_fin with (k := Z.max (- e1) (- e2)); try apply num_float_value; eauto; lia.
Qed.

Lemma float_lt_trans f g h : float_lt f g -> float_lt g h -> float_lt f h.
Proof.
  rewrite !float_lt_cmp.
  destruct (num_of_float f) as [|[]|m1 e1], (num_of_float g) as [|[]|m2 e2], (num_of_float h) as [|[]|m3 e3];
    simpl; try discriminate; auto.
  set (k := big_k [e1; e2; e3]).
  assert (0 <= e1 + k /\ 0 <= e2 + k /\ 0 <= e3 + k) as (K1 & K2 & K3) by (subst k; unfold big_k; cbn [fold_right]; clear; lia).
  rewrite (fin_cmp_scaled m1 e1 m2 e2 k), (fin_cmp_scaled m2 e2 m3 e3 k), (fin_cmp_scaled m1 e1 m3 e3 k) by auto.
  intros [= A] [= B]. apply Z.compare_lt_iff in A, B. f_equal. apply Z.compare_lt_iff. eapply Z.lt_trans; eauto.
Qed.

(** ** Value comparison, kind by kind *)

Definition sign_of (c : comparison) : Z := match c with Eq => 0 | Lt => -1 | Gt => 1 end.

Definition kind_cmp (k : kind) (a b : attr) : comparison :=
  match k with
  | KList | KContainer => Eq
  | _ =>
    match a_val a, a_val b with
    | PStr x, PStr y => str_cmp x y
    | PInt x, PInt y => Z.compare x y
    | PBool x, PBool y => match x, y with false, true => Lt | true, false => Gt | _, _ => Eq end
    | PXid x, PXid y => N.compare x y
    | PFloat x, PFloat y => match num_cmp (num_of_float x) (num_of_float y) with Some c => c | None => Eq end
    | PDate x, PDate y => Z.compare (instant x) (instant y)
    | _, _ => Eq
    end
  end.

Lemma key_compare_sign a b : key_compare a b = Ok (sign_of (str_cmp (a_key a) (a_key b))).
Proof.
  unfold key_compare, compare_to_string. cbn [py_eq py_gt num_of].
  destruct (str_eqb_spec (a_key a) (a_key b)) as [->|N].
  - now rewrite str_cmp_refl.
  - destruct (str_cmp (a_key a) (a_key b)) eqn:E; auto.
    apply str_cmp_eq in E. contradiction.
Qed.

Section FIO.
Context `{FIO : FloatIO}.

Lemma fin0_cmp x y : fin_cmp x 0 y 0 = Z.compare x y.
Proof. unfold fin_cmp. simpl. now rewrite !Z.mul_1_r. Qed.

Lemma is_aware_some d : tz d <> None -> is_aware d = true.
Proof. unfold is_aware. destruct (tz d); easy. Qed.
Lemma is_aware_none d : tz d = None -> is_aware d = false.
Proof. unfold is_aware. destruct (tz d); easy. Qed.

Lemma date_cmp_sign x y : is_aware x = is_aware y ->
  (if py_eq (PDate x) (PDate y) then Ok 0
   else let! g := py_gt (PDate x) (PDate y) in Ok (if g then 1 else -1))
  = Ok (sign_of (instant x ?= instant y)).
Proof.
  intros H. cbn. unfold dt_eqb, dt_cmp. rewrite H, eqb_reflx. cbn.
  destruct (Z.compare_spec (instant x) (instant y)).
  - rewrite (proj2 (Z.eqb_eq _ _) H0). reflexivity.
  - rewrite (proj2 (Z.eqb_neq _ _)) by lia. reflexivity.
  - rewrite (proj2 (Z.eqb_neq _ _)) by lia. reflexivity.
Qed.

Lemma value_compare_sign k a b : has_kind k a -> has_kind k b ->
  value_compare (a_cls a) (a_val a) b = Ok (sign_of (kind_cmp k a b)).
Proof.
  intros Ha Hb. destruct Ha; inversion Hb; subst; unfold value_compare; cbn [a_cls a_val get_value is_collection bind].
  - unfold compare_to_string. cbn. destruct (str_eqb_spec s s0) as [->|N].
    + now rewrite str_cmp_refl.
    + destruct (str_cmp s s0) eqn:E; auto. apply str_cmp_eq in E; contradiction.
  - unfold compare_to_number. cbn. rewrite fin0_cmp. destruct (z ?= z0); reflexivity.
  - unfold compare_to_boolean. cbn. destruct b0, b1; reflexivity.
  - cbn. unfold xid_compare. destruct (N.compare_spec u u0).
    + subst. now rewrite N.eqb_refl.
    + rewrite (proj2 (N.eqb_neq _ _)) by lia. rewrite (proj2 (N.ltb_ge _ _)) by lia. reflexivity.
    + rewrite (proj2 (N.eqb_neq _ _)) by lia. rewrite (proj2 (N.ltb_lt _ _)) by lia. reflexivity.
  - cbn. unfold compare_to_number. cbn.
    destruct (num_cmp_some (num_of_float f) (num_of_float f0)) as [c' E].
    + now rewrite num_of_float_nan.
    + now rewrite num_of_float_nan.
    + rewrite E. destruct c'; reflexivity.
  - apply date_cmp_sign. rewrite !is_aware_some; auto.
  - apply date_cmp_sign. rewrite !is_aware_none; auto.
  - reflexivity.
  - reflexivity.
Qed.

Lemma value_eq_iff k a b : has_kind k a -> has_kind k b ->
  attr_eq false a b = str_eqb (a_key a) (a_key b) && match kind_cmp k a b with Eq => true | _ => false end.
Proof.
  intros Ha Hb. destruct Ha; inversion Hb; subst; unfold attr_eq; cbn [a_cls a_val a_key is_collection acls_eqb negb];
    try (apply f_equal2; [reflexivity|]); cbn; try (now rewrite andb_true_r).
  - destruct (str_eqb_spec s s0) as [->|N].
    + now rewrite str_cmp_refl.
    + destruct (str_cmp s s0) eqn:E; auto. apply str_cmp_eq in E; contradiction.
  - rewrite fin0_cmp. destruct (z ?= z0); auto.
  - destruct b0, b1; reflexivity.
  - destruct (N.compare_spec u u0).
    + subst. now rewrite N.eqb_refl.
    + apply N.eqb_neq; lia.
    + apply N.eqb_neq; lia.
  - destruct (num_cmp_some (num_of_float f) (num_of_float f0)) as [c' E].
    + now rewrite num_of_float_nan.
    + now rewrite num_of_float_nan.
    + rewrite E. destruct c'; reflexivity.
  - unfold dt_eqb. rewrite !is_aware_some by auto. cbn. destruct (Z.compare_spec (instant d) (instant d0)).
    + now apply Z.eqb_eq.
    + apply Z.eqb_neq; lia.
    + apply Z.eqb_neq; lia.
  - unfold dt_eqb. rewrite !is_aware_none by auto. cbn. destruct (Z.compare_spec (instant d) (instant d0)).
    + now apply Z.eqb_eq.
    + apply Z.eqb_neq; lia.
    + apply Z.eqb_neq; lia.
Qed.

Lemma kind_cmp_antisym k a b : has_kind k a -> has_kind k b -> kind_cmp k b a = CompOpp (kind_cmp k a b).
Proof.
  intros Ha Hb. destruct Ha; inversion Hb; subst; cbn; auto.
  - apply str_cmp_antisym.
  - apply Z.compare_antisym.
  - destruct b0, b1; auto.
  - apply N.compare_antisym.
  - destruct (num_cmp (num_of_float f) (num_of_float f0)) as [c'|] eqn:E.
    + rewrite (num_cmp_antisym _ _ _ E). auto.
    + destruct (num_cmp_some (num_of_float f) (num_of_float f0)) as [c' E'].
      * now rewrite num_of_float_nan.
      * now rewrite num_of_float_nan.
      * congruence.
  - apply Z.compare_antisym.
  - apply Z.compare_antisym.
Qed.

Lemma kind_cmp_lt k a b : has_kind k a -> has_kind k b ->
  kind_cmp k a b = Lt <-> (is_collection (a_cls a) = false /\ value_lt (a_val a) (a_val b)).
Proof.
  intros Ha Hb.
  destruct Ha; inversion Hb; subst; cbn; split; intros HX; try discriminate;
    try (match type of HX with _ /\ _ => destruct HX as [HC HX]; try discriminate HC end); try (split; [reflexivity|]).
  - constructor. now apply lex_lt_cmp.
  - inversion HX; subst. now apply lex_lt_cmp.
  - constructor. now apply Z.compare_lt_iff.
  - inversion HX; subst. now apply Z.compare_lt_iff.
  - destruct b0, b1; try discriminate. constructor.
  - inversion HX; subst. reflexivity.
  - constructor. now apply N.compare_lt_iff.
  - inversion HX; subst. now apply N.compare_lt_iff.
  - constructor. apply float_lt_cmp.
    destruct (num_cmp (num_of_float f) (num_of_float f0)); congruence.
  - inversion HX; subst. match goal with HF : float_lt _ _ |- _ => apply float_lt_cmp in HF; now rewrite HF end.
  - constructor. now apply Z.compare_lt_iff.
  - inversion HX; subst. now apply Z.compare_lt_iff.
  - constructor. now apply Z.compare_lt_iff.
  - inversion HX; subst. now apply Z.compare_lt_iff.
Qed.

(** Whole comparison. *)
Definition whole_cmp (k : kind) (a b : attr) : comparison :=
  match str_cmp (a_key a) (a_key b) with Eq => kind_cmp k a b | c => c end.

Lemma compare_to_sign k a b : has_kind k a -> has_kind k b ->
  compare_to a b = Ok (sign_of (whole_cmp k a b)).
Proof.
  intros Ha Hb. unfold compare_to, whole_cmp. rewrite key_compare_sign. cbn [bind].
  destruct (str_cmp (a_key a) (a_key b)); cbn [sign_of Z.eqb]; auto.
  now apply value_compare_sign.
Qed.

Lemma whole_cmp_antisym k a b : has_kind k a -> has_kind k b -> whole_cmp k b a = CompOpp (whole_cmp k a b).
Proof.
  intros Ha Hb. unfold whole_cmp. rewrite (str_cmp_antisym (a_key a) (a_key b)).
  destruct (str_cmp (a_key a) (a_key b)); cbn; auto. now apply kind_cmp_antisym.
Qed.

Lemma whole_cmp_lt k a b : has_kind k a -> has_kind k b -> whole_cmp k a b = Lt <-> attr_before a b.
Proof.
  intros Ha Hb. unfold whole_cmp, attr_before. rewrite lex_lt_cmp.
  destruct (str_cmp (a_key a) (a_key b)) eqn:E.
  - apply str_cmp_eq in E. rewrite (kind_cmp_lt k a b) by auto. split; [tauto|].
    intros [H|(_ & H)]; [discriminate|auto].
  - tauto.
  - split; [discriminate|]. intros [H|(H & _)]; [discriminate|]. rewrite H, str_cmp_refl in E. discriminate.
Qed.

Lemma whole_cmp_eq k a b : has_kind k a -> has_kind k b ->
  whole_cmp k a b = Eq <-> attr_eq false a b = true.
Proof.
  intros Ha Hb. rewrite (value_eq_iff k) by auto. unfold whole_cmp.
  destruct (str_eqb_spec (a_key a) (a_key b)) as [E|E].
  - rewrite E, str_cmp_refl. cbn. destruct (kind_cmp k a b); split; easy.
  - destruct (str_cmp (a_key a) (a_key b)) eqn:E2; split; try easy.
    apply str_cmp_eq in E2. contradiction.
Qed.

Lemma value_lt_trans u v w : value_lt u v -> value_lt v w -> value_lt u w.
Proof.
  intros H1 H2. destruct H1; inversion H2; subst; constructor; try lia.
  - apply lex_lt_cmp. rewrite lex_lt_cmp in *. eapply str_cmp_lt_trans; eauto.
  - eapply float_lt_trans; eauto.
Qed.

Lemma lex_lt_trans a b c : lex_lt a b -> lex_lt b c -> lex_lt a c.
Proof. rewrite !lex_lt_cmp. apply str_cmp_lt_trans. Qed.

Lemma attr_before_trans k a b c : has_kind k a -> has_kind k b -> has_kind k c ->
  attr_before a b -> attr_before b c -> attr_before a c.
Proof.
  intros Ha Hb Hc [H1|(H1 & C1 & V1)] [H2|(H2 & C2 & V2)]; unfold attr_before.
  - left. eapply lex_lt_trans; eauto.
  - left. now rewrite <- H2.
  - left. now rewrite H1.
  - right. repeat split; auto; [congruence|]. eapply value_lt_trans; eauto.
Qed.

Lemma attr_order_main k a b : has_kind k a -> has_kind k b ->
  exists r, compare_to a b = Ok r /\ compare_to b a = Ok (- r)
  /\ (r < 0 <-> attr_before a b) /\ (0 < r <-> attr_before b a)
  /\ (r = 0 <-> attr_eq false a b = true)
  /\ attr_lt a b = Ok (r <? 0) /\ attr_le a b = Ok (r <=? 0)
  /\ attr_gt a b = Ok (0 <? r) /\ attr_ge a b = Ok (0 <=? r)
  /\ attr_ne false a b = negb (r =? 0).
Proof.
  intros Ha Hb. exists (sign_of (whole_cmp k a b)).
  assert (C := compare_to_sign k a b Ha Hb).
  assert (A := whole_cmp_antisym k a b Ha Hb).
  assert (L1 := whole_cmp_lt k a b Ha Hb). assert (L2 := whole_cmp_lt k b a Hb Ha).
  assert (E := whole_cmp_eq k a b Ha Hb).
  rewrite A in L2.
  unfold attr_lt, attr_le, attr_gt, attr_ge, attr_ne. rewrite C, (compare_to_sign k b a Hb Ha), A.
  cbn [bind].
  repeat split; auto.
  - destruct (whole_cmp k a b); auto.
  - intros. apply L1. destruct (whole_cmp k a b); cbn in *; auto; lia.
  - intros H. apply L1 in H. rewrite H. cbn. lia.
  - intros. apply L2. destruct (whole_cmp k a b); cbn in *; auto; lia.
  - intros H. apply L2 in H. destruct (whole_cmp k a b); try discriminate. cbn. lia.
  - intros. apply E. destruct (whole_cmp k a b); cbn in *; auto; lia.
  - intros H. apply E in H. rewrite H. auto.
  - destruct (attr_eq false a b) eqn:Q.
    + rewrite (proj2 E eq_refl). auto.
    + destruct (whole_cmp k a b); auto. exfalso. assert (false = true) by (now apply E). discriminate.
Qed.

End FIO.
