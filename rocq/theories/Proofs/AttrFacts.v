(** Facts about attribute equality and hashing. *)
From Coq Require Import String NArith ZArith List Bool SpecFloat Lia.
From Verif Require Import Base.PyBase Base.PyDate Base.PyVal Model.Attr Spec.Orders Spec.Typing
  Proofs.BaseFacts Proofs.OrderFacts.
Import ListNotations.
Local Open Scope Z_scope.

Lemma num_cmp_sym_eq a b : match num_cmp a b with Some Eq => true | _ => false end
                         = match num_cmp b a with Some Eq => true | _ => false end.
Proof.
  destruct (num_cmp a b) as [c|] eqn:E.
  - rewrite (num_cmp_antisym _ _ _ E). destruct c; auto.
  - destruct a as [|[]|], b as [|[]|]; simpl in *; try discriminate; auto.
Qed.

Lemma dt_eqb_sym a b : dt_eqb a b = dt_eqb b a.
Proof. unfold dt_eqb. rewrite (Z.eqb_sym (instant a)). f_equal. destruct (is_aware a), (is_aware b); auto. Qed.

Lemma py_eq_sym a b : py_eq a b = py_eq b a.
Proof.
  unfold py_eq. destruct (num_of a) as [x|] eqn:A, (num_of b) as [y|] eqn:B; auto.
  - apply num_cmp_sym_eq.
  - destruct a, b; try discriminate; auto.
    + apply str_eqb_sym.
    + apply dt_eqb_sym.
    + apply N.eqb_sym.
Qed.

Lemma acls_eqb_eq a b : acls_eqb a b = true <-> a = b.
Proof. destruct a, b; simpl; split; easy. Qed.

Lemma acls_eqb_refl a : acls_eqb a a = true.
Proof. now apply acls_eqb_eq. Qed.

Lemma attr_eq_collection a b : is_collection (a_cls a) = true ->
  attr_eq false a b = str_eqb (a_key a) (a_key b).
Proof. unfold attr_eq. now intros ->. Qed.

Lemma attr_eq_sym_cases a b :
  attr_eq false a b <> attr_eq false b a
  <-> (is_collection (a_cls a) <> is_collection (a_cls b) /\ a_key a = a_key b).
Proof.
  unfold attr_eq. destruct (is_collection (a_cls a)) eqn:A, (is_collection (a_cls b)) eqn:B.
  - rewrite str_eqb_sym. tauto.
  - assert (C : acls_eqb (a_cls b) (a_cls a) = false)
      by (destruct (a_cls a), (a_cls b); simpl in *; try discriminate; auto).
    rewrite C. simpl. destruct (str_eqb_spec (a_key a) (a_key b)); split; intuition congruence.
  - assert (C : acls_eqb (a_cls a) (a_cls b) = false)
      by (destruct (a_cls a), (a_cls b); simpl in *; try discriminate; auto).
    rewrite C. simpl. rewrite str_eqb_sym. destruct (str_eqb_spec (a_key a) (a_key b)); split; intuition congruence.
  - replace (acls_eqb (a_cls b) (a_cls a)) with (acls_eqb (a_cls a) (a_cls b))
      by (destruct (a_cls a), (a_cls b); auto).
    rewrite (str_eqb_sym (a_key b)), (py_eq_sym (a_val b)). tauto.
Qed.

Lemma attr_eq_types a b : is_collection (a_cls a) = false -> a_cls a <> a_cls b ->
  attr_eq false a b = false.
Proof.
  intros A N. unfold attr_eq. rewrite A. destruct (acls_eqb (a_cls a) (a_cls b)) eqn:E; auto.
  apply acls_eqb_eq in E. contradiction.
Qed.

Section FIO.
Context `{FIO : FloatIO}.

Lemma attr_eq_hash a b : well_typed a -> well_typed b ->
  is_collection (a_cls a) = is_collection (a_cls b) ->
  attr_eq false a b = true ->
  exists x y, attr_hash a = Ok x /\ attr_hash b = Ok y /\ hash_arg_eq x y.
Proof.
  unfold well_typed, attr_eq, attr_hash. intros Ta Tb C E.
  destruct (is_collection (a_cls a)) eqn:Ca.
  - apply str_eqb_eq in E.
    destruct (a_cls a), (a_cls b); try discriminate; repeat eexists; simpl; auto.
  - destruct (acls_eqb (a_cls a) (a_cls b)) eqn:Q; [|discriminate]. simpl in E.
    apply acls_eqb_eq in Q. rewrite <- Q in *. apply andb_true_iff in E as [E1 E2]. apply str_eqb_eq in E1.
    destruct (a_cls a); try discriminate; try (repeat eexists; simpl; auto; fail).
    destruct (a_val a), (a_val b); try contradiction. simpl. repeat eexists; auto.
Qed.

Lemma attr_collection_hash a b :
  well_typed b -> is_collection (a_cls a) = true -> is_collection (a_cls b) = false ->
  a_key a = a_key b ->
  attr_eq false a b = true
  /\ exists x y, attr_hash a = Ok x /\ attr_hash b = Ok y
     /\ (hash_arg_eq x y <-> a_cls b = CTimestamp).
Proof.
  intros T Ca Cb K. split; [unfold attr_eq; rewrite Ca, K; apply str_eqb_refl|].
  assert (Ha : attr_hash a = Ok (HKey (a_key a))) by (unfold attr_hash; now destruct (a_cls a)).
  rewrite Ha. unfold well_typed in T. unfold attr_hash.
  destruct (a_cls b) eqn:E; try discriminate Cb;
    try (eexists _, _; split; [reflexivity|]; split; [reflexivity|]; split; [intros [] | intros Z; discriminate Z]).
  - eexists _, _. split; [reflexivity|]. split; [reflexivity|]. split; [reflexivity | intros _; exact K].
  - destruct (a_val b); try destruct T. cbn [py_float bind].
    eexists _, _. split; [reflexivity|]. split; [reflexivity|]. split; [intros [] | intros Z; discriminate Z].
Qed.
End FIO.

Lemma attr_get_extensions_nil : forall a, attr_get_extensions a = Ok [].
Proof.
  fix IH 1. intros [c k e v coll meta]. cbn [attr_get_extensions].
  induction meta as [|[k' x] m IHm]; auto.
  rewrite (IH x). exact IHm.
Qed.
