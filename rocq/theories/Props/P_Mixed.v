(** Property C88: comparing attributes of different classes. *)
From Coq Require Import String NArith ZArith List Bool SpecFloat.
From Verif Require Import Base.PyBase Base.PyDate Base.PyVal Model.Attr Spec.Orders Spec.Typing Spec.Mixed Proofs.MixedFacts.
Import ListNotations.
Local Open Scope Z_scope.

(** With different keys any two attributes can be compared, whatever their values: the keys
    decide, and the two sides agree. *)
Theorem C88_keys : forall (FIO : FloatIO) a b, a_key a <> a_key b ->
  exists r, compare_to a b = Ok r /\ compare_to b a = Ok (- r) /\ r <> 0
  /\ (r < 0 <-> lex_lt (a_key a) (a_key b)) /\ (0 < r <-> lex_lt (a_key b) (a_key a)).
Proof. exact (fun FIO => @by_key FIO). Qed.
Print Assumptions C88_keys.

(** With the same key, exactly these pairs of classes have an answer; and which exception
    there is otherwise. *)
Theorem C88_same_key : forall (FIO : FloatIO) a b, well_typed a -> well_typed b -> a_key a = a_key b ->
  ((exists r, compare_to a b = Ok r) <-> comparable a b) /\ (forall e, compare_to a b = Raise e -> order_error a b e).
Proof. exact (fun FIO => @answers FIO). Qed.
Print Assumptions C88_same_key.

(** A boolean and a whole number under the same key: the two sides agree exactly when the
    number is not negative; otherwise each says that it is the smaller one. *)
Theorem C88_boolean_and_number : forall (FIO : FloatIO) b z k x x' co co' m m',
  let p := mk_attr CBoolean k x (PBool b) co m in let q := mk_attr CDiscrete k x' (PInt z) co' m' in
  exists r s, compare_to p q = Ok r /\ compare_to q p = Ok s /\ (r = - s <-> 0 <= z) /\ (z < 0 -> r = -1 /\ s = -1)
  /\ (r = 0 <-> z = if b then 1 else 0).
Proof. exact (fun FIO => @bool_int FIO). Qed.
Print Assumptions C88_boolean_and_number.

Definition of_class (c : acls) (v : pyval) : attr := mk_attr c (py "k") None v [] [].
Example C88_example :
  @compare_to no_floats (of_class CDiscrete (PInt 3)) (of_class CBoolean (PBool true)) = Ok 1
  /\ @compare_to no_floats (of_class CLiteral (PStr (py "3"))) (of_class CDiscrete (PInt 3)) = Raise TypeError
  /\ @compare_to no_floats (of_class CContinuous (PFloat (S754_zero false))) (of_class CLiteral (PStr (py "x"))) = Raise ValueError
  /\ @compare_to no_floats (of_class CBoolean (PBool true)) (of_class CLiteral (PStr (py "x"))) = Ok (-1).
Proof. vm_compute. auto. Qed.

(** One side answers while the other raises. *)
Theorem C88_one_sided_refuted : forall (FIO : FloatIO), exists a b, well_typed a /\ well_typed b /\ a_key a = a_key b
  /\ compare_to a b = Ok 0 /\ compare_to b a = Raise AttributeError.
Proof.
  exact (fun FIO => ex_intro _ (of_class CList PNone) (ex_intro _ (of_class CDiscrete (PInt 1))
    (conj I (conj I (conj eq_refl (conj eq_refl eq_refl)))))).
Qed.
Print Assumptions C88_one_sided_refuted.

(** A whole number is greater than a float, which says that they are equal. *)
Theorem C88_rounding_refuted : forall (FIO : FloatIO), exists a b, well_typed a /\ well_typed b /\ a_key a = a_key b
  /\ compare_to a b = Ok 1 /\ compare_to b a = Ok 0.
Proof.
  exact (fun FIO => ex_intro _ (of_class CDiscrete (PInt 9007199254740993))
    (ex_intro _ (of_class CContinuous (PFloat (S754_finite false 4503599627370496 1)))
      (conj I (conj I (conj eq_refl (conj eq_refl eq_refl)))))).
Qed.
Print Assumptions C88_rounding_refuted.
