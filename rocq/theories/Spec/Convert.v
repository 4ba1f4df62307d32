(** From MXML to XES. *)
From Coq Require Import String NArith ZArith List Bool.
From Verif Require Import Base.PyBase Base.PyDate Base.PyVal Base.Xml Model.Attr Model.Log Model.Classify Model.Registry Model.StdExt
  Model.XesWrite Model.XesRead Model.MxmlRead Spec.Xes.
Import ListNotations.

(** The extensions of a log from an MXML file are registered, as they are in the standard
    manager. *)
Definition mxml_registered (mgr : manager xext) : Prop :=
  Forall (registered mgr) [ext_concept; ext_org; ext_lifecycle; ext_semantic; ext_time].

(** A source whose program is not given has no value; as text that is None. *)
Definition none_named (a : attr) : attr :=
  match a_val a with
  | PNone => mk_attr (a_cls a) (a_key a) (a_ext a) (PStr (py "None")) (a_coll a) (a_meta a)
  | _ => a
  end.
Definition none_named_map (m : sdict attr) : sdict attr := map (fun kv => (fst kv, none_named (snd kv))) m.

(** The classifiers: the keys of the first have run together. *)
Definition classifiers_after : list classifier :=
  [mk_cl (py "MXML Legacy Classifier") [py "concept:name lifecycle:transition"];
   mk_cl (py "Event Name") [py "concept:name"];
   mk_cl (py "Resource") [py "org:resource"]].

(** [l] is written as XES and [l'] is read from that, however it is laid out: everything is
    the same again, to the millisecond, but for the classifiers and a source that was None;
    and every classifier finds the same classes in it. *)
Definition converted `{FIO : FloatIO} (mgr : manager xext) (urlparse : pystr -> option pystr) (draw : nat -> N) (l : xlog) : Prop :=
  exists x, xes_serialize l = Ok x /\ forall x', splice x' = splice x ->
  exists s r l', xes_parse mgr urlparse draw x' = Ok s /\ p_log s = Some r /\ log_in (p_heap s) r l'
  /\ same_map mgr (none_named_map (lg_attrs l)) (lg_attrs l') /\ Forall2 (same_trace mgr) (lg_traces l) (lg_traces l')
  /\ lg_gtrace l' = lg_gtrace l /\ lg_gevent l' = lg_gevent l /\ lg_exts l' = lg_exts l
  /\ lg_classifiers l' = classifiers_after
  /\ (forall c, derive_event_classes c l' = derive_event_classes c l).
