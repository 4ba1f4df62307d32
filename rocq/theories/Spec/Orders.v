(** Orders used in the statements about attributes, identifiers and classifiers.
    Independent of the comparison functions of the model. *)
From Coq Require Import NArith ZArith List Bool SpecFloat.
From Verif Require Import Base.PyBase Base.PyDate Base.PyVal Model.Attr.
Import ListNotations.
Local Open Scope Z_scope.

(** Dictionary order of texts by code point. *)
Inductive lex_lt : pystr -> pystr -> Prop :=
| lex_end c t : lex_lt [] (c :: t)
| lex_here x y a b : (x < y)%N -> lex_lt (x :: a) (y :: b)
| lex_later x a b : lex_lt a b -> lex_lt (x :: a) (x :: b).

(** Signed mantissa and exponent of a finite float: its value is [m * 2^e]. *)
Inductive float_value : spec_float -> Z -> Z -> Prop :=
| fv_zero s : float_value (S754_zero s) 0 0
| fv_pos m e : float_value (S754_finite false m e) (Zpos m) e
| fv_neg m e : float_value (S754_finite true m e) (Zneg m) e.

(** Numeric order of floats other than NaN.  Finite values are compared after
    multiplication with a power of two that makes both integers. *)
Inductive float_lt : spec_float -> spec_float -> Prop :=
| fl_fin f g m1 e1 m2 e2 k :
    float_value f m1 e1 -> float_value g m2 e2 -> 0 <= e1 + k -> 0 <= e2 + k ->
    m1 * 2 ^ (e1 + k) < m2 * 2 ^ (e2 + k) -> float_lt f g
| fl_neg_inf f m e : float_value f m e -> float_lt (S754_infinity true) f
| fl_pos_inf f m e : float_value f m e -> float_lt f (S754_infinity false)
| fl_infs : float_lt (S754_infinity true) (S754_infinity false).

(** The seven kinds of attributes whose values are ordered, and collections. *)
Inductive kind : Type :=
| KText | KInt | KBool | KId | KFloat | KAware | KNaive | KList | KContainer.

Inductive has_kind : kind -> attr -> Prop :=
| hk_text k e s c m : has_kind KText (mk_attr CLiteral k e (PStr s) c m)
| hk_int k e z c m : has_kind KInt (mk_attr CDiscrete k e (PInt z) c m)
| hk_bool k e b c m : has_kind KBool (mk_attr CBoolean k e (PBool b) c m)
| hk_id k e u c m : has_kind KId (mk_attr CID k e (PXid u) c m)
| hk_float k e f c m : f <> S754_nan -> has_kind KFloat (mk_attr CContinuous k e (PFloat f) c m)
| hk_aware k e d c m : tz d <> None -> has_kind KAware (mk_attr CTimestamp k e (PDate d) c m)
| hk_naive k e d c m : tz d = None -> has_kind KNaive (mk_attr CTimestamp k e (PDate d) c m)
| hk_list k e v c m : has_kind KList (mk_attr CList k e v c m)
| hk_container k e v c m : has_kind KContainer (mk_attr CContainer k e v c m).

(** Order of values of one kind: texts in dictionary order, numbers by size, False
    before True, identifiers by their 128-bit number, date-times by instant.
    Members of a collection do not matter. *)
Inductive value_lt : pyval -> pyval -> Prop :=
| vl_str a b : lex_lt a b -> value_lt (PStr a) (PStr b)
| vl_int a b : a < b -> value_lt (PInt a) (PInt b)
| vl_bool : value_lt (PBool false) (PBool true)
| vl_id a b : (a < b)%N -> value_lt (PXid a) (PXid b)
| vl_float f g : float_lt f g -> value_lt (PFloat f) (PFloat g)
| vl_date a b : instant a < instant b -> value_lt (PDate a) (PDate b).

(** First by key, then (except for collections) by value. *)
Definition attr_before (a b : attr) : Prop :=
  lex_lt (a_key a) (a_key b)
  \/ (a_key a = a_key b /\ is_collection (a_cls a) = false /\ value_lt (a_val a) (a_val b)).
