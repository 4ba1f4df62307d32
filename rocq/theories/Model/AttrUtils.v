(** Types of attributes: /repo/src/opyenxes/utils/XAttributeUtils.py.  derive_prototype is in
    Model/LogInfo.v. *)
From Coq Require Import String NArith List Bool.
From Verif Require Import Base.PyBase Base.PyVal Model.Attr.
Import ListNotations.

(** [isinstance(attribute, c)]: no attribute class is a subclass of another; other objects are
    instances of none of them. *)
Inductive typed_object : Type := AnAttribute (a : attr) | AnotherObject.
Definition instance (o : typed_object) (c : acls) : bool :=
  match o with AnAttribute a => acls_eqb (a_cls a) c | AnotherObject => false end.
(** get_type: XAttributeUtils.py:28-55. *)
Definition get_type (o : typed_object) : res acls :=
  if instance o CDiscrete then Ok CDiscrete
  else if instance o CLiteral then Ok CLiteral
  else if instance o CContinuous then Ok CContinuous
  else if instance o CBoolean then Ok CBoolean
  else if instance o CID then Ok CID
  else if instance o CList then Ok CList
  else if instance o CContainer then Ok CContainer
  else if instance o CTimestamp then Ok CTimestamp
  else Raise TypeError.
(** get_type_string: XAttributeUtils.py:57-84, with the enumeration of lines 13-21. *)
Definition get_type_string (o : typed_object) : res pystr :=
  if instance o CDiscrete then Ok (py "DISCRETE")
  else if instance o CLiteral then Ok (py "LITERAL")
  else if instance o CContinuous then Ok (py "CONTINUOUS")
  else if instance o CBoolean then Ok (py "BOOLEAN")
  else if instance o CID then Ok (py "ID")
  else if instance o CList then Ok (py "LIST")
  else if instance o CContainer then Ok (py "CONTAINER")
  else if instance o CTimestamp then Ok (py "TIMESTAMP")
  else Raise TypeError.
