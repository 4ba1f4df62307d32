(** Anonymous logs and what else is done with logs. *)
From Coq Require Import String NArith List Bool.
From Verif Require Import Base.PyBase Base.PyVal Model.Attr Model.Log Model.Classify Spec.Transform.
Import ListNotations.

(** The classifier does not look at resources. *)
Definition blind (c : classifier) (l : xlog) : Prop :=
  forall e k a, In e (log_events l) -> In k (cl_keys c) -> sget k (ev_attrs e) = Some a -> ~ hidden_key (a_key a).

(** What is stored under "Resource" is a text with this key. *)
Definition text_resources (l : xlog) : Prop :=
  forall e a, In e (log_events l) -> sget (py "Resource") (ev_attrs e) = Some a ->
  a_key a = py "Resource" /\ a_cls a = CLiteral.
