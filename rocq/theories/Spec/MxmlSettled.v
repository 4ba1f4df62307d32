(** Writing a log to MXML and reading it, again and again. *)
From Coq Require Import String NArith ZArith List Bool.
From Verif Require Import Base.PyBase Base.PyDate Base.PyVal Base.Xml Model.Attr Model.DateConv Model.Log
  Model.StdExt Model.XmlText Model.MxmlRead Model.MxmlWrite Spec.Mxml.
Import ListNotations.

(** [l'] is the one log read from what [l] is written as. *)
Definition reloaded `{FIO : FloatIO} (draw : nat -> N) (l l' : xlog) : Prop :=
  exists doc s m, mxml_serialize l = Ok doc /\ mxml_parse draw (pretty 0 doc) = Ok s
                  /\ m_logs s = [m] /\ log_is (m_sources s) m l'.

(** The log has a name that is not blank, and no trace with events a blank one. *)
Definition lasting (l : xlog) : Prop :=
  (exists n, text_of "concept:name" (lg_attrs l) = Some n /\ blank n = false)
  /\ forall t n, In t (lg_traces l) -> tr_events t <> [] -> text_of "concept:name" (tr_attrs t) = Some n -> blank n = false.

(** The attributes of the events. *)
Definition event_maps (l : xlog) : list (list (sdict attr)) := map (fun t => map ev_attrs (tr_events t)) (lg_traces l).
