(** What equality of elements looks at. *)
From Coq Require Import NArith List.
From Verif Require Import Base.PyBase Model.Heap Spec.Clone.
Import ListNotations.

(** The ids in a log, trace by trace. *)
Definition ids_by_trace (v : log_content) : list (list N) := map trace_ids (v_traces v).

(** The ids drawn from a moment on do not occur in the list. *)
Definition fresh_from (draw : nat -> N) (s : st) (ids : list N) : Prop :=
  forall k, drawn s <= k -> ~ In (draw k) ids.

(** [i] is the first place where [P] holds. *)
Definition first_place {A} (P : A -> Prop) (l : list A) (i : nat) : Prop :=
  (exists x, nth_error l i = Some x /\ P x)
  /\ forall j x, j < i -> nth_error l j = Some x -> ~ P x.
