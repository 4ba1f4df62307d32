(** Values that do not fit the class of their attribute: the setters do not check. *)
From Coq Require Import String NArith ZArith List Bool.
From Verif Require Import Base.PyBase Base.PyDate Base.PyVal Base.Xml Model.Attr Model.DateConv Model.Log Model.Registry
  Model.XesWrite Model.XesRead Spec.DateText Spec.Xes.
Import ListNotations.

(** All attributes that are written for a log, nested ones and members of lists included. *)
Definition written_attrs (l : xlog) : list attr :=
  flat_map post_order (lg_gtrace l) ++ flat_map post_order (lg_gevent l) ++ flat_map post_order (map snd (lg_attrs l))
  ++ flat_map (fun t => flat_map post_order (map snd (tr_attrs t))
                        ++ flat_map (fun e => flat_map post_order (map snd (ev_attrs e))) (tr_events t)) (lg_traces l).

(** A time stamp holds a date-time. *)
Definition dated (a : attr) : Prop := a_cls a = CTimestamp -> exists d, a_val a = PDate d.
(** If it holds one, it is one that can be printed and read (see C05). *)
Definition plain_date (a : attr) : Prop :=
  forall d, a_cls a = CTimestamp -> a_val a = PDate d -> valid_dt d = true /\ minute_zone d.

Section WithFloatIO.
Context `{FIO : FloatIO}.

(** What becomes of a value: [str(v)], [int(str(v))], [float(str(v))], [UUID(str(v))], and
    whether [str(v)] is "true" in any case; date-times to the millisecond. *)
Definition converted (c : acls) (v : pyval) : option pyval :=
  match c with
  | CLiteral => Some (PStr (py_str v))
  | CDiscrete => option_map PInt (py_int 10 (py_str v))
  | CContinuous => option_map PFloat (float_of_str (py_str v))
  | CBoolean => Some (PBool (str_eqb (lower (py_str v)) (py "true")))
  | CID => option_map PXid (uuid_of_str (py_str v))
  | CTimestamp => match v with PDate d => Some (PDate (to_millis d)) | _ => None end
  | CList | CContainer => Some PNone
  end.
Definition convertible (a : attr) : Prop := converted (a_cls a) (a_val a) <> None.

(** [b] is [a] with its values converted. *)
Variable mgr : manager xext.
Inductive turned : attr -> attr -> Prop :=
| turned_coll c k e v meta v' coll coll' : is_collection c = true ->
    Forall2 turned coll coll' ->
    turned (mk_attr c k e v coll meta) (mk_attr c k (key_extension mgr k) v' coll' (index coll'))
| turned_plain c k e v coll meta v' meta' : is_collection c = false -> converted c v = Some v' ->
    Forall2 (fun x y => fst x = fst y /\ turned (snd x) (snd y)) meta meta' ->
    turned (mk_attr c k e v coll meta) (mk_attr c k (key_extension mgr k) v' [] meta').
Definition turned_map (m m' : sdict attr) : Prop :=
  Forall2 (fun x y => fst x = fst y /\ turned (snd x) (snd y)) m m'.
Definition turned_trace (t t' : trace) : Prop :=
  turned_map (tr_attrs t) (tr_attrs t')
  /\ Forall2 (fun e e' => turned_map (ev_attrs e) (ev_attrs e')) (tr_events t) (tr_events t').
End WithFloatIO.
