(** What saving a log again and again does to it. *)
From Coq Require Import String NArith ZArith List Bool.
From Verif Require Import Base.PyBase Base.PyDate Base.PyVal Base.Xml Model.Attr Model.Log Model.Registry
  Model.XesWrite Model.XesRead Model.XmlText Model.XmlChars Spec.Registries Spec.Xes Spec.XmlNorm Spec.Survive.
Import ListNotations.

(** The text of the file that [l] is written to. *)
Definition file_of `{FIO : FloatIO} (l : xlog) (text : pystr) : Prop :=
  exists doc, xes_serialize l = Ok doc /\ write_xml xes_comments doc = Some text.

(** Nothing but the ids of the events differs. *)
Definition but_ids (t : trace) : sdict attr * list (sdict attr) := (tr_attrs t, map ev_attrs (tr_events t)).
Definition same_but_ids (l l' : xlog) : Prop :=
  lg_attrs l' = lg_attrs l /\ map but_ids (lg_traces l') = map but_ids (lg_traces l)
  /\ lg_exts l' = lg_exts l /\ lg_classifiers l' = lg_classifiers l
  /\ lg_gtrace l' = lg_gtrace l /\ lg_gevent l' = lg_gevent l /\ lg_features l' = lg_features l.

(** The registered extensions have names, prefixes and addresses that a file holds. *)
Definition tidy_manager (mgr : manager xext) : Prop :=
  forall p x, mgr_by_prefix x_prefix mgr p = Some x ->
  Forall (fun s => legal_text s = true /\ calm s = true) [x_name x; x_prefix x; x_uri x].

(** Saved and loaded any number of times; the ids are drawn anew each time. *)
Inductive stored_often `{FIO : FloatIO} (mgr : manager xext) (urlparse : pystr -> option pystr) : xlog -> xlog -> Prop :=
| stored_never l : stored_often mgr urlparse l l
| stored_more l l1 l2 draw : stored_often mgr urlparse l l1 -> stored mgr urlparse draw l1 l2 ->
    stored_often mgr urlparse l l2.

(** Every time stamp in the tree has a zone. *)
Inductive all_zoned : attr -> Prop :=
| all_zoned_intro a : (forall d, a_val a = PDate d -> tz d <> None) -> Forall all_zoned (kids_of a) -> all_zoned a.
Definition all_zoned_log (l : xlog) : Prop :=
  Forall all_zoned (map snd (lg_attrs l)) /\ Forall all_zoned (lg_gtrace l) /\ Forall all_zoned (lg_gevent l)
  /\ Forall (fun t => Forall all_zoned (map snd (tr_attrs t))
                      /\ Forall (fun e => Forall all_zoned (map snd (ev_attrs e))) (tr_events t)) (lg_traces l).
