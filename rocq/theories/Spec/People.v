(** What a chart of the events per resource shows. *)
From Coq Require Import String NArith List Bool.
From Verif Require Import Base.PyBase Base.PyDate Base.PyVal Model.Attr Model.Log.
Import ListNotations.

(** The events of some logs, in order. *)
Definition all_events (logs : list xlog) : list event :=
  flat_map (fun l => flat_map tr_events (lg_traces l)) logs.

Section WithFloatIO.
Context `{FIO : FloatIO}.
(** The resource of an event, as a text: that of its attribute "Resource", empty without one. *)
Inductive resource_is (e : event) : res pystr -> Prop :=
| no_resource : sget (py "Resource") (ev_attrs e) = None -> resource_is e (Ok [])
| some_resource a : sget (py "Resource") (ev_attrs e) = Some a -> resource_is e (attr_str a).
End WithFloatIO.

(** The different texts of a list, in the order of their first occurrences. *)
Fixpoint distinct_texts (l : list pystr) : list pystr :=
  match l with
  | [] => []
  | x :: t => x :: filter (fun y => negb (str_eqb x y)) (distinct_texts t)
  end.
Definition times (x : pystr) (l : list pystr) : nat := List.length (filter (str_eqb x) l).
