(** What the relations of a log say about the traces its net can replay. *)
From Coq Require Import String NArith List Bool.
From Verif Require Import Base.PyBase Spec.AlphaNet.
Import ListNotations.

(** Activities that the log treats alike: same predecessors and successors, both or none first, both
    or none last. *)
Definition treated_alike (log : list (list pystr)) (x y : pystr) : Prop :=
  occurs log x /\ occurs log y /\ (starts log x <-> starts log y) /\ (ends log x <-> ends log y)
  /\ forall z, (follows log z x <-> follows log z y) /\ (follows log x z <-> follows log y z).

(** Logs with the same activities, first and last activities, and direct successions. *)
Definition same_relations (u v : list (list pystr)) : Prop :=
  forall x, (occurs u x <-> occurs v x) /\ (starts u x <-> starts v x) /\ (ends u x <-> ends v x)
            /\ forall y, follows u x y <-> follows v x y.

(** Neighbours change places, any number of times, but never when the first causes the second. *)
Inductive rearranged (log : list (list pystr)) : list pystr -> list pystr -> Prop :=
| rearranged_none t : rearranged log t t
| rearranged_swap u x y v t : ~ causes log x y -> rearranged log (u ++ y :: x :: v) t ->
    rearranged log (u ++ x :: y :: v) t.
