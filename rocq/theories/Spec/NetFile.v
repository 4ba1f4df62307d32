(** What the text of a net is meant to tell. *)
From Coq Require Import String NArith List Bool.
From Verif Require Import Base.PyBase Model.Alpha Spec.AlphaNet Spec.Mining.
Import ListNotations.

(** The names of the activities have no double quotes. *)
Definition unquoted (a : alpha) : Prop := forall e, In e (al_all a) -> ~ In 34%N e.

(** The same activities, first and last place, and inner places. *)
Definition drawn_alike (a b : alpha) : Prop :=
  same_set (al_all a) (al_all b) /\ same_set (al_starting a) (al_starting b)
  /\ same_set (al_ending a) (al_ending b) /\ same_pairs (al_places a) (al_places b).
