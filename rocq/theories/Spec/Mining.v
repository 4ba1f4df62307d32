(** Nets that say the same. *)
From Coq Require Import String NArith List Bool.
From Verif Require Import Base.PyBase Model.Alpha Spec.AlphaNet.
Import ListNotations.

(** As many pairs on both sides, and each has its counterpart with the same two sets. *)
Definition counterpart (P Q : list (list pystr * list pystr)) : Prop :=
  forall A B, In (A, B) P -> exists C D, In (C, D) Q /\ same_set A C /\ same_set B D.
Definition same_pairs (P Q : list (list pystr * list pystr)) : Prop :=
  counterpart P Q /\ counterpart Q P /\ List.length P = List.length Q.

Definition same_net (a b : alpha) : Prop :=
  same_set (al_starting a) (al_starting b) /\ same_set (al_ending a) (al_ending b) /\ same_set (al_all a) (al_all b)
  /\ (forall x y, In (x, y) (f_direct (al_footprint a)) <-> In (x, y) (f_direct (al_footprint b)))
  /\ (forall x y, In (x, y) (f_causal (al_footprint a)) <-> In (x, y) (f_causal (al_footprint b)))
  /\ (forall x y, In (x, y) (f_choice (al_footprint a)) <-> In (x, y) (f_choice (al_footprint b)))
  /\ (forall x y, In (x, y) (f_parallel (al_footprint a)) <-> In (x, y) (f_parallel (al_footprint b)))
  /\ same_pairs (al_pairs a) (al_pairs b) /\ same_pairs (al_places a) (al_places b).
