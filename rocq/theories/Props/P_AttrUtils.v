(** C103: types of attributes and their prototypes. *)
From Coq Require Import String NArith ZArith List Bool.
From Verif Require Import Base.PyBase Base.PyVal Model.Attr Model.AttrUtils Model.LogInfo Spec.Info Spec.AttrUtils
  Proofs.InfoFacts Proofs.AttrUtilFacts.
Import ListNotations.

(** The type of an attribute is its class, and its type string the name of that class; other
    objects raise TypeError. *)
Theorem C103_type :
  (forall a, exists s, get_type_string (AnAttribute a) = Ok s /\ In (a_cls a, s) type_names
                       /\ get_type (AnAttribute a) = Ok (a_cls a))
  /\ get_type_string AnotherObject = Raise TypeError /\ get_type AnotherObject = Raise TypeError.
Proof. exact (conj type_string (conj eq_refl eq_refl)). Qed.
Print Assumptions C103_type.
(** So type strings tell the types apart. *)
Theorem C103_apart : forall a b, get_type_string (AnAttribute a) = get_type_string (AnAttribute b) <-> a_cls a = a_cls b.
Proof. exact same_type_string. Qed.
Print Assumptions C103_apart.

(** A prototype has the class, key and extension of the attribute, the default value of the
    class, and nothing nested. *)
Theorem C103_prototype : forall a id, has_prototype a = true ->
  exists p, derive_prototype id a = Ok p /\ a_cls p = a_cls a /\ a_key p = a_key a /\ a_ext p = a_ext a
  /\ a_coll p = [] /\ a_meta p = [] /\ default_value (a_cls a) (a_val p).
Proof. exact derive_has. Qed.
Print Assumptions C103_prototype.
(** For time stamps, lists, containers, and ids with another value, there is none. *)
Theorem C103_none : forall a id, has_prototype a = false -> derive_prototype id a = Raise AttributeError.
Proof. exact derive_has_not. Qed.
Print Assumptions C103_none.
(** It depends on class, key and extension only. *)
Theorem C103_forgets : forall a b id, has_prototype a = true -> has_prototype b = true ->
  a_cls a = a_cls b -> a_key a = a_key b -> a_ext a = a_ext b -> derive_prototype id a = derive_prototype id b.
Proof. exact prototype_forgets. Qed.
Print Assumptions C103_forgets.
(** The prototype of a prototype is a prototype of the attribute. *)
Theorem C103_again : forall a id id' p, derive_prototype id a = Ok p -> derive_prototype id' p = derive_prototype id' a.
Proof. exact prototype_again. Qed.
Print Assumptions C103_again.

Definition amount : attr := mk_attr CDiscrete (py "n") (Some (mk_xext (py "N") (py "n") (py "u"))) (PInt 7) []
  [(py "m", mk_attr CBoolean (py "m") None (PBool false) [] [])].
Example C103_amount : get_type_string (AnAttribute amount) = Ok (py "DISCRETE") /\ has_prototype amount = true
  /\ derive_prototype 3 amount = Ok (mk_attr CDiscrete (py "n") (Some (mk_xext (py "N") (py "n") (py "u"))) (PInt 0) [] [])
  /\ derive_prototype 3 (mk_attr CList (py "l") None PNone [] []) = Raise AttributeError.
Proof. repeat split. Qed.

(** It is not, as documented, equal in all respects but the value: nested attributes are lost. *)
Theorem C103_all_but_value_refuted : exists a id p, derive_prototype id a = Ok p /\ a_meta p <> a_meta a.
Proof. exists amount, 3%N. eexists. split; [reflexivity|]. discriminate. Qed.
Print Assumptions C103_all_but_value_refuted.
