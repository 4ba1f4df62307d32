(** The names of the attribute types. *)
From Coq Require Import String NArith List.
From Verif Require Import Base.PyBase Base.PyVal Model.Attr.
Import ListNotations.

Definition type_names : list (acls * pystr) :=
  [(CLiteral, py "LITERAL"); (CDiscrete, py "DISCRETE"); (CContinuous, py "CONTINUOUS"); (CBoolean, py "BOOLEAN");
   (CTimestamp, py "TIMESTAMP"); (CID, py "ID"); (CList, py "LIST"); (CContainer, py "CONTAINER")].
