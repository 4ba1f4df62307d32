(** When two logs are the same as far as their XES file goes. *)
From Coq Require Import String NArith ZArith List Bool.
From Verif Require Import Base.PyBase Base.PyDate Base.PyVal Model.Attr Model.Log Spec.Registries.
Import ListNotations.

(** The same moment up to the millisecond, told with the same offset: without a zone is not
    the same as in UTC. *)
Definition same_date (d e : datetime) : Prop :=
  yr d = yr e /\ mo d = mo e /\ dy d = dy e /\ hh d = hh e /\ mi d = mi e /\ ss d = ss e
  /\ (us d / 1000 = us e / 1000)%Z /\ option_map tz_off (tz d) = option_map tz_off (tz e).

Section Same.
Context `{FIO : FloatIO}.

Definition same_val (v w : pyval) : Prop :=
  match v, w with
  | PDate d, PDate e => same_date d e
  | PFloat f, PFloat g => float_repr f = float_repr g
  | _, _ => v = w
  end.

(** Class and key; the value and the attributes of an attribute, but only the members of a
    collection.  The extension does not count, nor the names by which attributes are kept. *)
Inductive same_attr : attr -> attr -> Prop :=
| same_typed c k e e2 v w coll coll2 meta meta2 : is_collection c = false -> same_val v w ->
    Forall2 same_attr (map snd meta) (map snd meta2) ->
    same_attr (mk_attr c k e v coll meta) (mk_attr c k e2 w coll2 meta2)
| same_coll c k e e2 v w coll coll2 meta meta2 : is_collection c = true -> Forall2 same_attr coll coll2 ->
    same_attr (mk_attr c k e v coll meta) (mk_attr c k e2 w coll2 meta2).

Definition same_attrs (m n : sdict attr) : Prop := Forall2 same_attr (map snd m) (map snd n).
Definition same_keys (ks ls : list pystr) : Prop :=
  let text l := join (py " ") (map quoted (filter (fun k => negb (Nat.eqb (List.length k) 0)) l)) in text ks = text ls.
(** Identifiers of events do not count. *)
Definition same_event (e f : event) : Prop := same_attrs (ev_attrs e) (ev_attrs f).
Definition same_case (t u : trace) : Prop := same_attrs (tr_attrs t) (tr_attrs u) /\ Forall2 same_event (tr_events t) (tr_events u).
Definition same_log (l m : xlog) : Prop :=
  lg_exts l = lg_exts m
  /\ Forall2 (fun c d => cl_name c = cl_name d /\ same_keys (cl_keys c) (cl_keys d)) (lg_classifiers l) (lg_classifiers m)
  /\ Forall2 same_attr (lg_gtrace l) (lg_gtrace m) /\ Forall2 same_attr (lg_gevent l) (lg_gevent m)
  /\ same_attrs (lg_attrs l) (lg_attrs m) /\ Forall2 same_case (lg_traces l) (lg_traces m).
End Same.
