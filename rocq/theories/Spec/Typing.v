(** Attributes whose value has the type documented for their class. *)
From Coq Require Import NArith ZArith List Bool SpecFloat.
From Verif Require Import Base.PyBase Base.PyDate Base.PyVal Model.Attr.
Import ListNotations.

Definition value_fits (c : acls) (v : pyval) : Prop :=
  match c, v with
  | CLiteral, PStr _ | CDiscrete, PInt _ | CContinuous, PFloat _ | CBoolean, PBool _
  | CID, PXid _ | CTimestamp, PDate _ => True
  | (CList | CContainer), _ => True
  | _, _ => False
  end.

Definition well_typed (a : attr) : Prop := value_fits (a_cls a) (a_val a).

(** A trivial text conversion of floats, only used to state examples in which no float
    occurs. *)
Definition no_floats : FloatIO :=
  {| float_repr := fun _ => []; float_of_str := fun _ => None |}.

(** Two arguments of [hash] that Python considers equal (and so hash alike). *)
Definition hash_arg_eq (x y : hash_arg) : Prop :=
  match x, y with
  | HKey k, HKey k' => k = k'
  | HPair k v, HPair k' v' => k = k' /\ py_eq v v' = true
  | _, _ => False
  end.
