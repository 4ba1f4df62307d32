(** Attributes: /repo/src/opyenxes/model/XAttribute*.py and utils/CompareUtils.py. *)
From Coq Require Import String NArith ZArith List Bool.
From Verif Require Import Base.PyBase Base.PyDate Base.PyVal.
Import ListNotations.
Local Open Scope Z_scope.

(** The identity of an extension as used by attributes and logs:
    extension/XExtension.py:16-24 (name, prefix, URI).  Simplification: the URI is
    kept as text; [urlparse] is not modelled. *)
Record xext : Type := mk_xext { x_name : pystr; x_prefix : pystr; x_uri : pystr }.

(** [XExtension.__eq__]: extension/XExtension.py:107-110, equality of URIs. *)
Definition xext_eqb (a b : xext) : bool := str_eqb (x_uri a) (x_uri b).

(** The concrete attribute classes of model/. *)
Inductive acls : Type :=
| CLiteral | CTimestamp | CDiscrete | CContinuous | CBoolean | CID
| CList | CContainer.

Definition acls_eqb (a b : acls) : bool :=
  match a, b with
  | CLiteral, CLiteral | CTimestamp, CTimestamp | CDiscrete, CDiscrete
  | CContinuous, CContinuous | CBoolean, CBoolean | CID, CID
  | CList, CList | CContainer, CContainer => true
  | _, _ => false
  end.

(** [isinstance(a, XAttributeCollection)]: XAttributeList.py:4, XAttributeContainer.py:4. *)
Definition is_collection (c : acls) : bool :=
  match c with CList | CContainer => true | _ => false end.

(** An attribute as a tree: XAttribute.__init__ (XAttribute.py:17-20: key, extension),
    the value of the typed classes (e.g. XAttributeLiteral.py:15-17), the member list of
    collections (XAttributeCollection.py:14-16) and the map of nested attributes
    (XAttributable.py:12-16).  [val] is not used for collections and [coll] only for them. *)
Inductive attr : Type :=
| mk_attr (cls : acls) (key : pystr) (ext : option xext) (val : pyval)
          (coll : list attr) (meta : list (pystr * attr)).

Definition a_cls (a : attr) : acls := let '(mk_attr c _ _ _ _ _) := a in c.
(** XAttribute.get_key: XAttribute.py:22-28. *)
Definition a_key (a : attr) : pystr := let '(mk_attr _ k _ _ _ _) := a in k.
(** XAttribute.get_extension: XAttribute.py:30-37. *)
Definition a_ext (a : attr) : option xext := let '(mk_attr _ _ e _ _ _) := a in e.
Definition a_val (a : attr) : pyval := let '(mk_attr _ _ _ v _ _) := a in v.
(** XAttributeCollection.get_collection: XAttributeCollection.py:27-35 (a copy). *)
Definition a_coll (a : attr) : list attr := let '(mk_attr _ _ _ _ c _) := a in c.
(** XAttributable.get_attributes: XAttributable.py:32-38. *)
Definition a_meta (a : attr) : sdict attr := let '(mk_attr _ _ _ _ _ m) := a in m.

(** [get_value()]: e.g. XAttributeLiteral.py:19-25; collections have no such method. *)
Definition get_value (a : attr) : res pyval :=
  if is_collection (a_cls a) then Raise AttributeError else Ok (a_val a).

(** ** Comparison: utils/CompareUtils.py *)

(** compare_to_string: CompareUtils.py:1-13. *)
Definition compare_to_string (a b : pyval) : res Z :=
  if py_eq a b then Ok 0
  else let! g := py_gt a b in Ok (if g then 1 else -1).

(** compare_to_boolean: CompareUtils.py:16-29. *)
Definition compare_to_boolean (a b : pyval) : res Z :=
  if py_eq a b then Ok 0
  else Ok (if truthy a && negb (truthy b) then 1 else -1).

(** compare_to_number: CompareUtils.py:32-44. *)
Definition compare_to_number (a b : pyval) : res Z :=
  if py_eq a b then Ok 0
  else let! g := py_gt a b in Ok (if g then 1 else -1).

(** XID.compare_to: id/XID.py:53-64. *)
Definition xid_compare (a b : N) : Z :=
  if N.eqb a b then 0 else if N.ltb b a then 1 else -1.

(** XAttribute.compare_to: XAttribute.py:39-48. *)
Definition key_compare (a b : attr) : res Z :=
  compare_to_string (PStr (a_key a)) (PStr (a_key b)).

Section WithFloatIO.
Context `{FIO : FloatIO}.

(** The value part of [compare_to] in each class. *)
Definition value_compare (c : acls) (v : pyval) (other : attr) : res Z :=
  match c with
  | CLiteral =>            (* XAttributeLiteral.py:46-58 *)
      let! w := get_value other in compare_to_string v w
  | CDiscrete =>           (* XAttributeDiscrete.py:46-58 *)
      let! w := get_value other in compare_to_number v w
  | CContinuous =>         (* XAttributeContinuous.py:46-59 *)
      let! f := py_float v in
      let! w := get_value other in
      let! g := py_float w in
      compare_to_number (PFloat f) (PFloat g)
  | CBoolean =>            (* XAttributeBoolean.py:46-58 *)
      let! w := get_value other in compare_to_boolean v w
  | CID =>                 (* XAttributeID.py:45-57 *)
      match v with
      | PXid x => let! w := get_value other in
                  match w with
                  | PXid y => Ok (xid_compare x y)
                  | _ => Raise AttributeError
                  end
      | _ => Raise AttributeError
      end
  | CTimestamp =>          (* XAttributeTimestamp.py:59-73 *)
      let! w := get_value other in
      if py_eq v w then Ok 0
      else let! g := py_gt v w in Ok (if g then 1 else -1)
  | CList | CContainer => Ok 0   (* not overridden: XAttribute.compare_to only *)
  end.

(** [a.compare_to(b)] *)
Definition compare_to (a b : attr) : res Z :=
  let! r := key_compare a b in
  if r =? 0 then value_compare (a_cls a) (a_val a) b else Ok r.

(** [<], [<=], [>], [>=]: the same four lines in every class, e.g. XAttribute.py:53-71. *)
Definition attr_lt (a b : attr) : res bool := let! r := compare_to a b in Ok (r <? 0).
Definition attr_le (a b : attr) : res bool := let! r := compare_to a b in Ok (r <=? 0).
Definition attr_gt (a b : attr) : res bool := let! r := compare_to a b in Ok (0 <? r).
Definition attr_ge (a b : attr) : res bool := let! r := compare_to a b in Ok (0 <=? r).

(** [a == b]; [same] tells whether the two are the same object ([other is self]).
    Collections: XAttribute.py:59-62 (any attribute with an equal key).
    Others: e.g. XAttributeLiteral.py:72-78 (same class, key and value).
    Simplification for XAttributeID.py:71-77: with a value that is not an XID,
    [__eq__] is taken to be [==]. *)
Definition attr_eq (same : bool) (a b : attr) : bool :=
  if is_collection (a_cls a) then str_eqb (a_key a) (a_key b)
  else if same then true
  else if negb (acls_eqb (a_cls a) (a_cls b)) then false
  else str_eqb (a_key a) (a_key b) && py_eq (a_val a) (a_val b).

(** [a != b]: e.g. XAttribute.py:64-65. *)
Definition attr_ne (same : bool) (a b : attr) : bool := negb (attr_eq same a b).

(** What [__hash__] passes to the built-in [hash]: the key alone
    (XAttribute.py:50-51, XAttributeTimestamp.py:75-76) or the pair of key and value
    (XAttributeLiteral.py:63-64 etc.; XAttributeContinuous.py:64-65 converts with
    [float]). *)
Inductive hash_arg : Type :=
| HKey (k : pystr)
| HPair (k : pystr) (v : pyval).

Definition attr_hash (a : attr) : res hash_arg :=
  match a_cls a with
  | CList | CContainer | CTimestamp => Ok (HKey (a_key a))
  | CContinuous => let! f := py_float (a_val a) in Ok (HPair (a_key a) (PFloat f))
  | _ => Ok (HPair (a_key a) (a_val a))
  end.

(** ** Text: [__str__] *)

(** XAttributeTimestamp.__str__: XAttributeTimestamp.py:78-98. *)
Definition dt_digits (d : datetime) : pystr :=
  pad0 4 (print_Z (yr d)) ++ py "-" ++ p2 (mo d) ++ py "-" ++ p2 (dy d) ++ py "T"
  ++ p2 (hh d) ++ py ":" ++ p2 (mi d) ++ py ":" ++ p2 (ss d)
  ++ py "." ++ pad0 3 (print_Z (us d / 1000)).

Definition dt_zone_text (z : option tzone) : pystr :=
  match z with
  | None => py "Z"
  | Some z =>
      replace (py "-00:00") (py "Z")
        (replace (py "+00:00") (py "Z") (replace (py "UTC") [] (tz_name z)))
  end.

Definition timestamp_str (d : datetime) : pystr := dt_digits d ++ dt_zone_text (tz d).

(** [str(attribute)] by class: XAttributeLiteral.py:60-61, XAttributeDiscrete.py:60-61,
    XAttributeContinuous.py:61-62, XAttributeBoolean.py:60-61 (lower-cased),
    XAttributeID.py:59-60, XAttributeTimestamp.py:78-98 and
    XAttributeCollection.py:37-51 ("[k:v,k:v]"). *)
Fixpoint attr_str (a : attr) : res pystr :=
  match a with
  | mk_attr c _ _ v coll _ =>
      match c with
      | CLiteral | CDiscrete | CContinuous | CID => Ok (py_str v)
      | CBoolean => Ok (lower (py_str v))
      | CTimestamp => match v with
                      | PDate d => Ok (timestamp_str d)
                      | _ => Raise AttributeError
                      end
      | CList | CContainer =>
          let fix items (l : list attr) : res (list pystr) :=
            match l with
            | [] => Ok []
            | x :: t => match attr_str x with
                        | Ok s => match items t with
                                  | Ok r => Ok ((a_key x ++ py ":" ++ s) :: r)
                                  | Raise e => Raise e
                                  end
                        | Raise e => Raise e
                        end
            end in
          let! parts := items coll in
          Ok (py "[" ++ join (py ",") parts ++ py "]")
      end
  end.

(** ** Copying: [clone()] *)

(** XAttributeLiteral.py:35-44 and the same in the other typed classes: a new object
    with the same key, value and extension and an empty attribute map.  XAttributeID
    (XAttributeID.py:34-43) clones its XID (AttributeError for other values);
    XAttributeTimestamp (XAttributeTimestamp.py:49-57) keeps a datetime value.
    Simplifications: an int timestamp value would be converted by the constructor; it
    cannot occur after construction unless set by [set_value]; a timestamp clone of a value
    that is neither has no value and is not modelled further.
    Collections inherit no [clone]: AttributeError. *)
Definition attr_clone (a : attr) : res attr :=
  match a_cls a with
  | CList | CContainer => Raise AttributeError
  | CID => match a_val a with
           | PXid _ => Ok (mk_attr CID (a_key a) (a_ext a) (a_val a) [] [])
           | _ => Raise AttributeError
           end
  | c => Ok (mk_attr c (a_key a) (a_ext a) (a_val a) [] [])
  end.

End WithFloatIO.

(** XAttributable.get_extensions: XAttributable.py:18-30.  The recursive call is on each
    attribute of the map; a non-empty sub-result is a set, and adding a set to a set raises
    TypeError (unhashable). *)
Fixpoint attr_get_extensions (a : attr) : res (list xext) :=
  match a with
  | mk_attr _ _ _ _ _ meta =>
      let fix loop (m : list (pystr * attr)) (acc : list xext) : res (list xext) :=
        match m with
        | [] => Ok acc
        | (_, x) :: t => match attr_get_extensions x with
                         | Ok [] => loop t acc
                         | Ok (_ :: _) => Raise TypeError
                         | Raise e => Raise e
                         end
        end in
      loop meta []
  end.

(** The same loop for an event, trace or log with attribute map [m]. *)
Fixpoint map_get_extensions (m : sdict attr) (acc : list xext) : res (list xext) :=
  match m with
  | [] => Ok acc
  | (_, x) :: t => match attr_get_extensions x with
                   | Ok [] => map_get_extensions t acc
                   | Ok (_ :: _) => Raise TypeError
                   | Raise e => Raise e
                   end
  end.

(** ** Events, traces and logs as trees *)

(** XEvent: model/XEvent.py:18-25 (id and attribute map). *)
Record event : Type := mk_event { ev_id : N; ev_attrs : sdict attr }.

(** XTrace: model/XTrace.py:13-14 (attribute map, list of events). *)
Record trace : Type := mk_trace { tr_attrs : sdict attr; tr_events : list event }.
