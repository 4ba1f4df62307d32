(** Which logs can be written as MXML, and the document that is written. *)
From Coq Require Import String NArith ZArith List Bool.
From Verif Require Import Base.PyBase Base.PyVal Base.Xml Model.Attr Model.Log Spec.Mxml.
Import ListNotations.

Section Written.
Context `{FIO : FloatIO}.

(** ** The document *)

Definition text_nodes (s : pystr) : list xnode := match s with [] => [] | _ => [XText s] end.
(** Texts are written; values that count as false leave the element empty. *)
Definition shown (v : pyval) : list xnode := match v with PStr s => text_nodes s | _ => [] end.
Definition shown_at (k : string) (m : sdict attr) : list xnode :=
  match sget (py k) m with Some a => shown (a_val a) | None => [] end.
Definition reference (m : sdict attr) : sdict pystr :=
  match text_of "semantic:modelReference" m with Some s => [(py "modelReference", s)] | None => [] end.
Definition refers (a : attr) : bool := str_eqb (a_key a) (py "semantic:modelReference").
(** Of the attributes only model references are written as data. *)
Definition data_doc (m : sdict attr) : xnode :=
  XElem (py "Data") []
    (map (fun a => XElem (py "attribute") [(py "name", py "semantic:modelReference")]
                         match attr_str a with Ok s => text_nodes s | Raise _ => [] end)
         (filter refers (map snd m))).
Definition standard_types : list pystr :=
  [py "schedule"; py "assign"; py "withdraw"; py "reassign"; py "start"; py "suspend"; py "resume";
   py "pi_abort"; py "ate_abort"; py "complete"; py "autoskip"; py "manualskip"].
Definition type_doc (m : sdict attr) : xnode :=
  match sget (py "lifecycle:transition") m with
  | None => XElem (py "EventType") [] [XText (py "complete")]
  | Some a =>
      let s := match a_val a with PStr s => s | _ => [] end in
      let t := lower (strip s) in
      if existsb (str_eqb t) standard_types then XElem (py "EventType") (reference (a_meta a)) [XText t]
      else XElem (py "EventType") (reference (a_meta a) ++ [(py "unknownType", s)]) [XText (py "unknown")]
  end.
(** The first of several keys that is there. *)
Definition first_of (ks : list string) (m : sdict attr) : list attr :=
  firstn 1 (flat_map (fun k => match sget (py k) m with Some a => [a] | None => [] end) ks).
Definition originator (m : sdict attr) : list attr := first_of ["org:resource"; "org:role"; "org:group"]%string m.
Definition event_doc (e : event) : xnode :=
  let m := ev_attrs e in
  XElem (py "AuditTrailEntry") []
    ([data_doc m; XElem (py "WorkflowModelElement") (reference m) (shown_at "concept:name" m); type_doc m]
     ++ map (fun a => XElem (py "originator") (reference (a_meta a)) (shown (a_val a))) (originator m)
     ++ map (fun a => XElem (py "timestamp") (reference (a_meta a)) (text_nodes (py_str (a_val a)))) (first_of ["time:timestamp"%string] m)).
Definition trace_doc (t : trace) : xnode :=
  let m := tr_attrs t in
  let n := or_none "None" (text_of "concept:name" m) in
  XElem (py "ProcessInstance") ([(py "id", n); (py "description", py "instance with id " ++ n)] ++ reference m)
        (data_doc m :: map event_doc (tr_events t)).
Definition log_doc (l : xlog) : xnode :=
  let m := lg_attrs l in
  let n := text_of "concept:name" m in
  XElem (py "WorkflowLog") []
    [XElem (py "Source") [(py "program", py "XES MXML serialization"); (py "openxes.version", py "1.0RC7")] [];
     XElem (py "Process")
       ([(py "id", or_none "none" n); (py "description", py "process with id " ++ or_none "None" n)] ++ reference m)
       (data_doc m :: map trace_doc (lg_traces l))].

(** ** What stands in the way *)

Definition at_key {A} (k : string) (f : attr -> list A) (m : sdict attr) : list A :=
  match sget (py k) m with Some a => f a | None => [] end.
(** Lists and containers have no value. *)
Definition no_value (a : attr) : list exn := if is_collection (a_cls a) then [AttributeError] else [].
Definition reference_fault : sdict attr -> list exn := at_key "semantic:modelReference" no_value.
Definition data_fault (m : sdict attr) : list exn :=
  flat_map (fun a => if match a_meta a, attr_str a with [], Ok _ => true | _, _ => false end then [] else [AttributeError])
           (filter refers (map snd m)).
(** A transition that is no text. *)
Definition type_fault : sdict attr -> list exn :=
  at_key "lifecycle:transition" (fun a => reference_fault (a_meta a)
    ++ if is_collection (a_cls a) then [AttributeError] else match a_val a with PStr _ => [] | _ => [AttributeError] end).
Definition field_fault (a : attr) : list exn := reference_fault (a_meta a) ++ no_value a.
Definition event_fault (e : event) : list exn :=
  let m := ev_attrs e in
  data_fault m ++ reference_fault m ++ at_key "concept:name" no_value m ++ type_fault m
  ++ flat_map field_fault (originator m) ++ flat_map field_fault (first_of ["time:timestamp"%string] m).
(** The name of a trace or a log that is no text. *)
Definition name_fault : sdict attr -> list exn :=
  at_key "concept:name" (fun a => no_value a ++ match a_val a with PStr _ | PNone => [] | _ => [TypeError] end).
Definition trace_fault (t : trace) : list exn :=
  let m := tr_attrs t in name_fault m ++ reference_fault m ++ data_fault m ++ flat_map event_fault (tr_events t).
Definition log_fault (l : xlog) : list exn :=
  let m := lg_attrs l in name_fault m ++ reference_fault m ++ data_fault m ++ flat_map trace_fault (lg_traces l).

(** After the tree was built: references that are no texts, other values that are no texts and
    do not count as false. *)
Definition not_text (a : attr) : list exn := match a_val a with PStr _ => [] | _ => [TypeError] end.
Definition unshown (a : attr) : list exn := match a_val a with PStr _ => [] | v => if truthy v then [TypeError] else [] end.
Definition late_reference : sdict attr -> list exn := at_key "semantic:modelReference" not_text.
Definition late_field (a : attr) : list exn := late_reference (a_meta a) ++ unshown a.
Definition late_event (e : event) : list exn :=
  let m := ev_attrs e in
  late_reference m ++ at_key "concept:name" unshown m ++ at_key "lifecycle:transition" (fun a => late_reference (a_meta a)) m
  ++ flat_map late_field (originator m) ++ flat_map (fun a => late_reference (a_meta a)) (first_of ["time:timestamp"%string] m).
Definition late_trace (t : trace) : list exn := late_reference (tr_attrs t) ++ flat_map late_event (tr_events t).
Definition late_log (l : xlog) : list exn := late_reference (lg_attrs l) ++ flat_map late_trace (lg_traces l).

Definition write_faults (l : xlog) : list exn := log_fault l ++ late_log l.
End Written.

(** A text attribute: no list, and its value is a text; its own model reference is one, too. *)
Definition texty (a : attr) : Prop := is_collection (a_cls a) = false /\ exists s, a_val a = PStr s.
Definition text_keys : list pystr :=
  [py "concept:name"; py "lifecycle:transition"; py "org:resource"; py "org:role"; py "org:group"; py "semantic:modelReference"].
(** Under the keys MXML knows there are texts and a time, stored under their own keys, and model
    references have no children. *)
Definition simple (m : sdict attr) : Prop :=
  Forall (fun kv => fst kv = a_key (snd kv)
    /\ (In (fst kv) text_keys -> texty (snd kv) /\ a_cls (snd kv) <> CTimestamp)
    /\ (fst kv = py "time:timestamp" -> a_cls (snd kv) = CTimestamp)
    /\ (fst kv = py "semantic:modelReference" -> a_meta (snd kv) = [])
    /\ forall r, sget (py "semantic:modelReference") (a_meta (snd kv)) = Some r -> texty r) m.
Definition simple_log (l : xlog) : Prop :=
  simple (lg_attrs l) /\ Forall (fun t => simple (tr_attrs t) /\ Forall (fun e => simple (ev_attrs e)) (tr_events t)) (lg_traces l).
