(** Which classifiers are the keys of the dictionary of a summary. *)
From Coq Require Import ZArith List Arith.
From Verif Require Import Base.PyBase Base.PyVal Model.Attr Model.Log Model.Classify Model.Renamed.
Import ListNotations.

(** [r] is in the list before all others with its name and keys. *)
Definition first_of (c : contents) (rs : list nat) (r : nat) : Prop :=
  exists a b, rs = a ++ r :: b /\ forall x, In x a -> c x <> c r.
(** [r] is in the list after all others with its name and keys. *)
Definition last_of (c : contents) (rs : list nat) (r : nat) : Prop :=
  exists a b, rs = a ++ r :: b /\ forall x, In x b -> c x <> c r.
(** Name and keys of a classifier after some changes: those of the last one made to it. *)
Definition at_last (h : list (nat * pystr * list pystr)) (r : nat) (before : classifier) : classifier :=
  match find (fun x => Nat.eqb (fst (fst x)) r) (rev h) with
  | Some (_, n, ks) => mk_cl n ks
  | None => before
  end.
