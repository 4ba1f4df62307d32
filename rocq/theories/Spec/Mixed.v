(** Comparing attributes of different classes. *)
From Coq Require Import NArith ZArith List Bool SpecFloat.
From Verif Require Import Base.PyBase Base.PyDate Base.PyVal Model.Attr Spec.Typing.
Import ListNotations.

(** [a] and [b] have the same key, values as documented, and a question put to [a] about its
    order relative to [b] has an answer. *)
Definition comparable `{FIO : FloatIO} (a b : attr) : Prop :=
  match a_cls a, a_cls b with
  | (CList | CContainer), _ => True
  | _, (CList | CContainer) => False
  | CBoolean, _ => True
  | CLiteral, CLiteral | CID, CID => True
  | CDiscrete, (CDiscrete | CContinuous | CBoolean) => True
  | CContinuous, (CContinuous | CBoolean) => True
  | CContinuous, (CDiscrete | CLiteral) => exists f, py_float (a_val b) = Ok f
  | CTimestamp, CTimestamp =>
      match a_val a, a_val b with PDate d, PDate d' => tz d = None <-> tz d' = None | _, _ => False end
  | _, _ => False
  end.

(** The exception there is otherwise. *)
Definition order_error (a b : attr) (e : exn) : Prop :=
  match a_cls a, a_cls b with
  | _, (CList | CContainer) => e = AttributeError
  | CID, _ => e = AttributeError
  | CContinuous, CLiteral => e = ValueError
  | CContinuous, CDiscrete => e = OverflowError
  | CContinuous, _ => e = TypeError
  | _, CID => e = AttributeError
  | _, _ => e = TypeError
  end.
