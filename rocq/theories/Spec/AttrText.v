(** The text of an attribute ([str(attribute)]), lists and containers included. *)
From Coq Require Import String NArith ZArith List Bool.
From Verif Require Import Base.PyBase Base.PyVal Model.Attr Spec.XesWritten.
Import ListNotations.

(** The attribute itself and the members of lists and containers at any depth. *)
Inductive shown_in : attr -> attr -> Prop :=
| shown_self a : shown_in a a
| shown_member a m b : is_collection (a_cls a) = true -> In m (a_coll a) -> shown_in m b -> shown_in a b.

(** Values as in a file; members as "key:text" with commas between, in brackets. *)
Inductive shows `{FIO : FloatIO} : attr -> pystr -> Prop :=
| shows_value a tag t : is_collection (a_cls a) = false -> typed_text (a_val a) tag t -> shows a t
| shows_members a t : is_collection (a_cls a) = true -> listing (a_coll a) t -> shows a (py "[" ++ t ++ py "]")
with listing `{FIO : FloatIO} : list attr -> pystr -> Prop :=
| listing_none : listing [] []
| listing_one a t : shows a t -> listing [a] (a_key a ++ py ":" ++ t)
| listing_more a t b l r : shows a t -> listing (b :: l) r -> listing (a :: b :: l) (a_key a ++ py ":" ++ t ++ py "," ++ r).

(** Attributes that differ at most in their key, extension, nested attributes and, for lists,
    value. *)
Inductive looks_alike : attr -> attr -> Prop :=
| alike_value c k k' e e' v coll coll' meta meta' : is_collection c = false ->
    looks_alike (mk_attr c k e v coll meta) (mk_attr c k' e' v coll' meta')
| alike_members c c' k k' e e' v v' coll coll' meta meta' : is_collection c = true -> is_collection c' = true ->
    Forall2 (fun m m' => a_key m = a_key m' /\ looks_alike m m') coll coll' ->
    looks_alike (mk_attr c k e v coll meta) (mk_attr c' k' e' v' coll' meta').

(** A time stamp without a date-time. *)
Definition undated (b : attr) : Prop := a_cls b = CTimestamp /\ forall d, a_val b <> PDate d.

(** No colon or comma in the keys of the members, no comma in their texts. *)
Definition comma_free `{FIO : FloatIO} (coll : list attr) : Prop := forall m t, In m coll -> attr_str m = Ok t ->
  ~ In 58%N (a_key m) /\ ~ In 44%N (a_key m) /\ ~ In 44%N t.
