(** Logs as trees: /repo/src/opyenxes/model/XLog.py:13-21.  Classifiers:
    classification/XEventAttributeClassifier.py. *)
From Coq Require Import String NArith ZArith List Bool.
From Verif Require Import Base.PyBase Base.PyDate Base.PyVal Model.Attr.
Import ListNotations.

(** XEventAttributeClassifier.__init__: XEventAttributeClassifier.py:14-16.
    Simplification: the key list is a value (it is not changed after construction). *)
Record classifier : Type := mk_cl { cl_name : pystr; cl_keys : list pystr }.

(** XLog.__init__: XLog.py:13-21.  [lg_exts] is the set of extensions in the order it is
    iterated; [lg_features] holds the textual features.  The info cache of lines 18-19 is
    modelled separately (Model/LogInfo.v). *)
Record xlog : Type := mk_log {
  lg_attrs : sdict attr;
  lg_traces : list trace;
  lg_exts : list xext;
  lg_classifiers : list classifier;
  lg_gtrace : list attr;
  lg_gevent : list attr;
  lg_features : sdict pystr
}.

Definition log_events (l : xlog) : list event := flat_map tr_events (lg_traces l).
