(** Property C87: converting MXML to XES.

    [mxml_logs] gives the logs of an MXML document (see C43).  [splice x' = splice x] says
    that [x'] is [x] up to white space between the elements and foreign elements around them.
    [urlparse] and the two [draw]s (ids of new events) are arbitrary. *)
From Coq Require Import String NArith ZArith List Bool.
From Verif Require Import Base.PyBase Base.PyDate Base.PyVal Base.Xml Model.Attr Model.Log Model.Classify Model.Registry
  Model.StdExt Model.XesWrite Model.XesRead Model.MxmlRead Spec.Typing Spec.Xes Spec.Mxml Spec.Convert
  Spec.Info Spec.Survive Proofs.StatFacts Proofs.ConvertFacts Props.P_Mxml.
Import ListNotations.

(** Every log read from an MXML document can be written as XES, and what is read from that
    has the same attributes, traces, events, globals, extensions and event classes. *)
Theorem C87_converts `{FIO : FloatIO} mgr urlparse draw draw2 doc logs :
  mxml_registered mgr -> mxml_logs draw doc = Some logs ->
  exists s, mxml_parse draw doc = Ok s /\ Forall2 (log_is (m_sources s)) (m_logs s) logs
  /\ Forall (converted mgr urlparse draw2) logs.
Proof. exact (mxml_to_xes mgr urlparse draw draw2 doc logs). Qed.
Print Assumptions C87_converts.

(** By the first classifier all events are then of one class, unless they have an attribute
    with the two keys of the classifier as its key. *)
Theorem C87_one_class `{FIO : FloatIO} e e' :
  sget (py "concept:name lifecycle:transition") (ev_attrs e) = None ->
  sget (py "concept:name lifecycle:transition") (ev_attrs e') = None ->
  same_event_class (hd (mk_cl [] []) classifiers_after) e e' = Ok true.
Proof. exact (one_class e e'). Qed.
Print Assumptions C87_one_class.

Definition ids (n : nat) : N := N.of_nat n.
Definition no_parse (s : pystr) : option pystr := Some s.
Definition first_log (o : option (list xlog)) : xlog := match o with Some (l :: _) => l | _ => mk_log [] [] [] [] [] [] [] end.

(** A document with two instances and three entries; the manager with the standard extensions. *)
Example C87_example : mxml_registered std_manager /\ (exists logs, mxml_logs ids sample_doc = Some logs /\ List.length logs = 1)
  /\ @converted no_floats std_manager no_parse ids (first_log (mxml_logs ids sample_doc))
  /\ map (fun t => List.length (tr_events t)) (lg_traces (first_log (mxml_logs ids sample_doc))) = [2; 1].
Proof.
  assert (R : mxml_registered std_manager) by (repeat constructor).
  split; [exact R|]. split; [eexists; split; vm_compute; reflexivity|]. split; [|vm_compute; reflexivity].
  destruct (@C87_converts no_floats std_manager no_parse ids ids sample_doc _ R eq_refl) as (s & _ & _ & F).
  inversion F; subst. assumption.
Qed.

(** The classes of the first classifier are not kept: different before, the same after. *)
Definition nth_event (n : nat) (l : xlog) : event := nth n (log_events l) (mk_event 0 []).
Theorem C87_classes_refuted : exists doc l x s r l' c c',
  mxml_logs ids doc = Some [l] /\ @xes_serialize no_floats l = Ok x /\ @xes_parse no_floats std_manager no_parse ids x = Ok s
  /\ p_log s = Some r /\ log_in (p_heap s) r l'
  /\ nth_error (lg_classifiers l) 0 = Some c /\ nth_error (lg_classifiers l') 0 = Some c' /\ cl_name c' = cl_name c
  /\ @same_event_class no_floats c (nth_event 0 l) (nth_event 1 l) = Ok false
  /\ @same_event_class no_floats c' (nth_event 0 l') (nth_event 1 l') = Ok true.
Proof.
  set (l := first_log (mxml_logs ids sample_doc)).
  assert (R : @converted no_floats std_manager no_parse ids l) by apply C87_example.
  destruct R as (x & W & H). destruct (H x eq_refl) as (s & r & l' & P & L & LI & _ & T & _ & _ & _ & C & _).
  exists sample_doc, l, x, s, r, l', (nth 0 mxml_classifiers (mk_cl [] [])), (nth 0 classifiers_after (mk_cl [] [])).
  split; [vm_compute; reflexivity|]. do 4 (split; [assumption|]). split; [vm_compute; reflexivity|]. split; [now rewrite C|].
  split; [reflexivity|]. split; [vm_compute; reflexivity|].
  apply events_same in T. unfold nth_event. assert (K : map (fun e => sget (py "concept:name lifecycle:transition") (ev_attrs e)) (log_events l) = [None; None; None])
    by (vm_compute; reflexivity).
  remember (log_events l) as before eqn:Q. clear Q. inversion T as [E|e0 e0' es es' S0 T' E E']; [subst; discriminate|]. subst before. injection K as K0 K.
  inversion T' as [E2|e1 e1' es2 es2' S1 _ E2 E2']; subst es; [discriminate|]. injection K as K1 _.
  apply C87_one_class; cbn [nth].
  - pose proof (same_map_get _ _ _ S0 (py "concept:name lifecycle:transition")) as G. rewrite K0 in G. now destruct (sget _ (ev_attrs e0')).
  - pose proof (same_map_get _ _ _ S1 (py "concept:name lifecycle:transition")) as G. rewrite K1 in G. now destruct (sget _ (ev_attrs e1')).
Qed.
Print Assumptions C87_classes_refuted.
