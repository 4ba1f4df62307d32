(** What is computed from a log and should not change when the log is stored in a file. *)
From Coq Require Import String NArith ZArith List Bool.
From Verif Require Import Base.PyBase Base.PyDate Base.PyVal Base.Xml Model.Attr Model.Log Model.Classify
  Model.Registry Model.XesWrite Model.XesRead Model.XmlText Model.XmlChars Spec.Xes Spec.XmlNorm.
Import ListNotations.

(** Every time stamp that is printed with the attribute has a zone. *)
Inductive zoned : attr -> Prop :=
| zoned_intro a : (forall d, a_val a = PDate d -> tz d <> None) -> Forall zoned (a_coll a) -> zoned a.

(** The attributes a classifier looks at are such. *)
Definition zoned_for (c : classifier) (l : xlog) : Prop :=
  forall t e k a, In t (lg_traces l) -> In e (tr_events t) -> In k (cl_keys c) ->
  sget k (ev_attrs e) = Some a -> zoned a.

(** [l'] is read from the file that [l] was written to. *)
Definition stored `{FIO : FloatIO} (mgr : manager xext) (urlparse : pystr -> option pystr) (draw : nat -> N)
  (l l' : xlog) : Prop :=
  exists doc text es s r, xes_serialize l = Ok doc /\ write_xml xes_comments doc = Some text
  /\ read_xml text = Some es /\ xes_run mgr urlparse draw es ps_init = Ok s
  /\ p_log s = Some r /\ log_in (p_heap s) r l'.

(** No line breaks and tabs in keys and values (files do not keep them, see C40). *)
Definition calm_log `{FIO : FloatIO} (l : xlog) : Prop :=
  forall doc, xes_serialize l = Ok doc -> calm_tree doc = true.

(** No lists and containers anywhere among the attributes. *)
Inductive no_lists : attr -> Prop :=
| no_lists_intro c k e v meta : is_collection c = false ->
    Forall no_lists (map snd meta) -> no_lists (mk_attr c k e v [] meta).
Definition no_lists_map (m : sdict attr) : Prop := Forall no_lists (map snd m).
Definition no_lists_log (l : xlog) : Prop :=
  no_lists_map (lg_attrs l)
  /\ Forall (fun t => no_lists_map (tr_attrs t) /\ Forall (fun e => no_lists_map (ev_attrs e)) (tr_events t)) (lg_traces l).
