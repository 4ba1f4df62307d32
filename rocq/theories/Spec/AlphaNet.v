(** The alpha algorithm as in the literature: relations between activities of a log,
    pairs of activity sets, maximal pairs, and the text of a net. *)
From Coq Require Import String NArith List Bool Permutation.
From Verif Require Import Base.PyBase.
Import ListNotations.

Section Log.
Variable log : list (list pystr).

(** [a] occurs in the log; [b] directly follows [a] in some trace. *)
Definition occurs (a : pystr) : Prop := exists t, In t log /\ In a t.
Definition follows (a b : pystr) : Prop :=
  exists pre post, In (pre ++ a :: b :: post) log.

Definition causes (a b : pystr) : Prop := follows a b /\ ~ follows b a.
Definition concurrent (a b : pystr) : Prop := follows a b /\ follows b a.
Definition unrelated (a b : pystr) : Prop := ~ follows a b /\ ~ follows b a.

Definition starts (a : pystr) : Prop := exists t, In (a :: t) log.
Definition ends (a : pystr) : Prop := exists t, In (t ++ [a]) log.

(** Two non-empty sets of activities; inside each no activity follows another or
    itself, and every activity of the first causes every one of the second. *)
Definition pair_of_sets (A B : list pystr) : Prop :=
  A <> [] /\ B <> [] /\
  (forall x, In x A -> occurs x) /\ (forall x, In x B -> occurs x) /\
  (forall x y, In x A -> In y A -> ~ follows x y) /\
  (forall x y, In x B -> In y B -> ~ follows x y) /\
  (forall x y, In x A -> In y B -> causes x y).
End Log.

Definition same_set (A B : list pystr) : Prop := forall x, In x A <-> In x B.

(** A pair is below another. *)
Definition below (p q : list pystr * list pystr) : Prop :=
  incl (fst p) (fst q) /\ incl (snd p) (snd q).

(** ** Text of a net

    Place 0 feeds the starting events, place 1 collects the ending ones, the others feed
    their second set and are fed by their first. *)
Section Text.
Variables (starting ending : list pystr) (order : list (list pystr * list pystr)).

Definition is_in (e : pystr) (l : list pystr) : bool := existsb (str_eqb e) l.

Definition producers : list (list pystr) := [] :: ending :: map fst order.
Definition consumers : list (list pystr) := starting :: [] :: map snd order.

(** Numbers of the sets that contain the event. *)
Definition places_with (e : pystr) (sides : list (list pystr)) : list nat :=
  filter (fun n => is_in e (nth n sides [])) (seq 0 (List.length sides)).

Definition name_of (n : nat) : pystr := py "place_" ++ print_N (N.of_nat n).
Definition names (l : list nat) : pystr :=
  join (py " ") (map (fun n => py """" ++ name_of n ++ py """") l).

Definition net_places : list pystr :=
  map (fun n => py "Place """ ++ name_of n ++ py """"
                ++ (if Nat.eqb n 0 then py " init 1" else []) ++ py ";")
      (seq 0 (2 + List.length order)).

Definition net_transition (n : nat) (e : pystr) : pystr :=
  py "trans ""t_" ++ print_N (N.of_nat n) ++ py """~""" ++ e ++ py "+complete"" in "
  ++ names (places_with e consumers) ++ py " out " ++ names (places_with e producers)
  ++ py " ;".

Fixpoint net_transitions (n : nat) (events : list pystr) : list pystr :=
  match events with
  | [] => []
  | e :: t => net_transition n e :: net_transitions (S n) t
  end.

Definition net_text (events : list pystr) : pystr :=
  join [10%N] (net_places ++ net_transitions (3 + List.length order) events).
End Text.
