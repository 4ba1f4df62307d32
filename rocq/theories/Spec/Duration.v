(** The value of a double, for the durations. *)
From Coq Require Import ZArith List Bool SpecFloat.
From Verif Require Import Base.PyBase Base.PyVal Base.PyFloat.
Import ListNotations.
Local Open Scope Z_scope.

(** [f] is the double whose value is [u] times [2 ^ -1074]; every double that is zero or more
    has such a [u]. *)
Definition smallest : Z := 2 ^ 1074.                         (* the number of these units in 1 *)
Definition worth (f : spec_float) (u : Z) : Prop :=
  match f with
  | S754_zero _ => u = 0
  | S754_finite false m e => valid_binary 53 1024 f = true /\ u = Zpos m * 2 ^ (e + 1074)
  | _ => False
  end.
(** A number and its label, nothing for zero. *)
Definition part_float `{FloatIO} (n : Z) (label : pystr) : pystr :=
  if n =? 0 then [] else float_repr (f_norm n 0) ++ label.
(** [f] is the double whose value is [z] times [2 ^ -1074], of either sign. *)
Definition amount (f : spec_float) (z : Z) : Prop :=
  match f with
  | S754_finite s m e => valid_binary 53 1024 f = true /\ z = (if s then - (Zpos m * 2 ^ (e + 1074)) else Zpos m * 2 ^ (e + 1074))
  | _ => worth f z
  end.
