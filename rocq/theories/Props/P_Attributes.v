(** Properties C01-C04: ordering, equality and hashing of attributes; identifiers. *)
From Coq Require Import String NArith ZArith List Bool SpecFloat.
From Verif Require Import Base.PyBase Base.PyDate Base.PyVal Model.Attr Spec.Orders Spec.Typing
  Proofs.BaseFacts Proofs.OrderFacts Proofs.AttrFacts Proofs.XidFacts.
Import ListNotations.
Local Open Scope Z_scope.

(** C01.  Two attributes of one kind: no comparison raises, and all comparison operators
    agree with the order "first key, then value". *)
Theorem C01_attribute_order : forall (FIO : FloatIO) k a b, has_kind k a -> has_kind k b ->
  exists r, compare_to a b = Ok r /\ compare_to b a = Ok (- r)
  /\ (r < 0 <-> attr_before a b) /\ (0 < r <-> attr_before b a)
  /\ (r = 0 <-> attr_eq false a b = true)
  /\ attr_lt a b = Ok (r <? 0) /\ attr_le a b = Ok (r <=? 0)
  /\ attr_gt a b = Ok (0 <? r) /\ attr_ge a b = Ok (0 <=? r)
  /\ attr_ne false a b = negb (r =? 0).
Proof. exact (fun FIO => @attr_order_main FIO). Qed.
Print Assumptions C01_attribute_order.

(** C01.  That order is transitive. *)
Theorem C01_attribute_order_transitive : forall k a b c,
  has_kind k a -> has_kind k b -> has_kind k c ->
  attr_before a b -> attr_before b c -> attr_before a c.
Proof. exact attr_before_trans. Qed.
Print Assumptions C01_attribute_order_transitive.

Example C01_example :
  let a := mk_attr CTimestamp (py "time:timestamp") None
             (PDate (mk_dt 2020 1 1 12 0 0 0 (Some (mk_tz (2 * 3600000000) None)))) [] [] in
  let b := mk_attr CTimestamp (py "time:timestamp") None
             (PDate (mk_dt 2020 1 1 11 0 0 0 (Some (mk_tz 0 None)))) [] [] in
  has_kind KAware a /\ has_kind KAware b /\ attr_before a b
  /\ @compare_to no_floats a b = Ok (-1).
Proof. cbv zeta. repeat split; try (constructor; discriminate). right. repeat split. constructor. reflexivity. Qed.

(** C01, limits: with NaN each of two continuous attributes is less than the other... *)
Theorem C01_nan_refuted : forall (FIO : FloatIO),
  exists a b, a_cls a = CContinuous /\ a_cls b = CContinuous
  /\ attr_lt a b = Ok true /\ attr_lt b a = Ok true.
Proof.
  exact (fun FIO => ex_intro _ (mk_attr CContinuous (py "x") None (PFloat S754_nan) [] [])
    (ex_intro _ (mk_attr CContinuous (py "x") None (PFloat S754_nan) [] [])
      (conj eq_refl (conj eq_refl (conj eq_refl eq_refl))))).
Qed.
Print Assumptions C01_nan_refuted.

(** ... and with integers stored in continuous attributes [compare_to] can be 0 although
    the attributes differ. *)
Theorem C01_continuous_int_refuted : forall (FIO : FloatIO),
  exists a b, a_cls a = CContinuous /\ a_cls b = CContinuous
  /\ compare_to a b = Ok 0 /\ attr_eq false a b = false.
Proof.
  exact (fun FIO => ex_intro _ (mk_attr CContinuous (py "x") None (PInt 9007199254740992) [] [])
    (ex_intro _ (mk_attr CContinuous (py "x") None (PInt 9007199254740993) [] [])
      (conj eq_refl (conj eq_refl (conj eq_refl eq_refl))))).
Qed.
Print Assumptions C01_continuous_int_refuted.

(** C02.  Equality of two different attribute objects disagrees with the reversed equality
    exactly for a collection and a non-collection with the same key. *)
Theorem C02_equality_asymmetry : forall a b,
  attr_eq false a b <> attr_eq false b a
  <-> (is_collection (a_cls a) <> is_collection (a_cls b) /\ a_key a = a_key b).
Proof. exact attr_eq_sym_cases. Qed.
Print Assumptions C02_equality_asymmetry.

(** C02.  Non-collections of different classes are never equal; a collection equals
    whatever has the same key. *)
Theorem C02_equality_across_types : forall a b,
  (is_collection (a_cls a) = false -> a_cls a <> a_cls b -> attr_eq false a b = false)
  /\ (is_collection (a_cls a) = true -> (attr_eq false a b = true <-> a_key a = a_key b)).
Proof.
  exact (fun a b => conj (attr_eq_types a b)
    (fun H => eq_ind_r (fun x => x = true <-> a_key a = a_key b)
                (str_eqb_eq (a_key a) (a_key b)) (attr_eq_collection a b H))).
Qed.
Print Assumptions C02_equality_across_types.

Example C02_example :
  let l := mk_attr CList (py "k") None PNone [] [] in
  let s := mk_attr CLiteral (py "k") None (PStr (py "v")) [] [] in
  attr_eq false l s = true /\ attr_eq false s l = false.
Proof. vm_compute. auto. Qed.

(** C03.  Equal attributes pass equal arguments to [hash]. *)
Theorem C03_equal_attributes_hash_alike : forall (FIO : FloatIO) a b,
  well_typed a -> well_typed b ->
  is_collection (a_cls a) = is_collection (a_cls b) ->
  attr_eq false a b = true ->
  exists x y, attr_hash a = Ok x /\ attr_hash b = Ok y /\ hash_arg_eq x y.
Proof. exact (fun FIO => @attr_eq_hash FIO). Qed.
Print Assumptions C03_equal_attributes_hash_alike.

Example C03_example :
  let d1 := mk_dt 2020 1 1 12 0 0 0 (Some (mk_tz 0 None)) in
  let d2 := mk_dt 2020 1 1 13 0 0 0 (Some (mk_tz 3600000000 None)) in
  let a := mk_attr CTimestamp (py "t") None (PDate d1) [] [] in
  let b := mk_attr CTimestamp (py "t") None (PDate d2) [] [] in
  well_typed a /\ well_typed b /\ attr_eq false a b = true /\ a <> b.
Proof. cbv zeta. repeat split. intros [=]. Qed.

(** C03.  A collection equals every attribute with the same key; if that is no collection,
    the two hash alike exactly when it is a timestamp. *)
Theorem C03_collection : forall (FIO : FloatIO) a b,
  well_typed b -> is_collection (a_cls a) = true -> is_collection (a_cls b) = false ->
  a_key a = a_key b ->
  attr_eq false a b = true
  /\ exists x y, attr_hash a = Ok x /\ attr_hash b = Ok y
     /\ (hash_arg_eq x y <-> a_cls b = CTimestamp).
Proof. exact (fun FIO => @attr_collection_hash FIO). Qed.
Print Assumptions C03_collection.

(** C03, limit: a list and a text attribute with the same key are equal (seen from the
    list) but hash different things. *)
Theorem C03_collection_refuted : forall (FIO : FloatIO),
  exists a b x y, attr_eq false a b = true /\ attr_hash a = Ok x /\ attr_hash b = Ok y
  /\ ~ hash_arg_eq x y.
Proof.
  exact (fun FIO => ex_intro _ (mk_attr CList (py "k") None PNone [] [])
    (ex_intro _ (mk_attr CLiteral (py "k") None (PStr (py "v")) [] [])
    (ex_intro _ (HKey (py "k")) (ex_intro _ (HPair (py "k") (PStr (py "v")))
      (conj eq_refl (conj eq_refl (conj eq_refl (fun H => H)))))))).
Qed.
Print Assumptions C03_collection_refuted.

(** C04.  Whatever the letter case of the text, parsing the printed identifier gives it back. *)
Theorem C04_xid_roundtrip : forall u s, (u < 2 ^ 128)%N ->
  upper s = xid_str u -> uuid_of_str s = Some u.
Proof. exact uuid_of_xid_str. Qed.
Print Assumptions C04_xid_roundtrip.

Theorem C04_xid_print_parse : forall u, (u < 2 ^ 128)%N -> uuid_of_str (xid_str u) = Some u.
Proof. exact xid_roundtrip. Qed.
Print Assumptions C04_xid_print_parse.

(** C04.  Different identifiers print differently. *)
Theorem C04_xid_print_injective : forall u v, (u < 2 ^ 128)%N -> (v < 2 ^ 128)%N ->
  xid_str u = xid_str v -> u = v.
Proof. exact xid_str_inj. Qed.
Print Assumptions C04_xid_print_injective.

(** C04.  [compare_to] orders identifiers as numbers. *)
Theorem C04_xid_order : forall a b,
  (xid_compare a b < 0 <-> (a < b)%N) /\ (xid_compare a b = 0 <-> a = b)
  /\ (0 < xid_compare a b <-> (b < a)%N) /\ xid_compare b a = - xid_compare a b.
Proof. exact xid_compare_spec. Qed.
Print Assumptions C04_xid_order.

Example C04_example :
  xid_str 0x00112233445566778899aabbccddeeff%N = py "00112233-4455-6677-8899-AABBCCDDEEFF"
  /\ uuid_of_str (py "00112233-4455-6677-8899-aabbCCDDEEFF") = Some 0x00112233445566778899aabbccddeeff%N.
Proof. vm_compute. auto. Qed.
