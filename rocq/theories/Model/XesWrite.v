(** Writing XES: /repo/src/opyenxes/data_out/XesXmlSerializer.py, up to the element tree. *)
From Coq Require Import String NArith ZArith List Bool.
From Verif Require Import Base.PyBase Base.PyDate Base.PyVal Base.Xml Model.Attr Model.Log Model.Token.
Import ListNotations.

Section Writer.
Context `{FIO : FloatIO}.

(** The tag by class: XesXmlSerializer.py:129-158. *)
Definition xes_tag (c : acls) : pystr :=
  match c with
  | CDiscrete => py "int"
  | CLiteral => py "string"
  | CContinuous => py "float"
  | CBoolean => py "boolean"
  | CID => py "id"
  | CList => py "list"
  | CContainer => py "container"
  | CTimestamp => py "date"
  end.

(** One round of the loop of add_attributes: XesXmlSerializer.py:128-164.  Collections get
    no value; their members are written, otherwise the nested attributes. *)
Fixpoint write_attr (a : attr) : res xnode :=
  match a with
  | mk_attr c k _ _ coll meta =>
      let fix many (l : list attr) : res (list xnode) :=
        match l with
        | [] => Ok []
        | x :: t => match write_attr x with
                    | Ok n => match many t with Ok ns => Ok (n :: ns) | Raise e => Raise e end
                    | Raise e => Raise e
                    end
        end in
      let fix many_map (m : list (pystr * attr)) : res (list xnode) :=
        match m with
        | [] => Ok []
        | (_, x) :: t => match write_attr x with
                         | Ok n => match many_map t with Ok ns => Ok (n :: ns) | Raise e => Raise e end
                         | Raise e => Raise e
                         end
        end in
      if is_collection c then
        let! ns := many coll in Ok (XElem (xes_tag c) [(py "key", k)] ns)
      else
        let! v := attr_str a in
        let! ns := many_map meta in Ok (XElem (xes_tag c) [(py "key", k); (py "value", v)] ns)
  end.

(** add_attributes: XesXmlSerializer.py:120-164. *)
Definition add_attributes (l : list attr) : res (list xnode) := map_res write_attr l.

(** add_global_attributes: XesXmlSerializer.py:105-118. *)
Definition add_global_attributes (scope : pystr) (l : list attr) : res (list xnode) :=
  match l with
  | [] => Ok []
  | _ => let! ns := add_attributes l in Ok [XElem (py "global") [(py "scope", scope)] ns]
  end.

(** XesXmlSerializer.py:58-62. *)
Definition write_extension (x : xext) : xnode :=
  XElem (py "extension") [(py "name", x_name x); (py "prefix", x_prefix x); (py "uri", x_uri x)] [].
(** XesXmlSerializer.py:67-71. *)
Definition write_classifier (c : classifier) : xnode :=
  XElem (py "classifier") [(py "name", cl_name c); (py "keys", format_token (cl_keys c))] [].
(** XesXmlSerializer.py:79-81. *)
Definition write_event (e : event) : res xnode :=
  let! ns := add_attributes (map snd (ev_attrs e)) in Ok (XElem (py "event") [] ns).
(** XesXmlSerializer.py:75-81. *)
Definition write_trace (t : trace) : res xnode :=
  let! ns := add_attributes (map snd (tr_attrs t)) in
  let! es := map_res write_event (tr_events t) in
  Ok (XElem (py "trace") [] (ns ++ es)).

(** serialize: XesXmlSerializer.py:40-82.  Lines 83-103 (text and comments) are the textual
    layer; logging and timing are not modelled. *)
Definition xes_features : sdict pystr :=
  [(py "xes.version", py "1.0"); (py "xes.features", py "nested-attributes"); (py "openxes.version", py "1.0RC7")].
Definition xes_serialize (l : xlog) : res xnode :=
  let! gt := add_global_attributes (py "trace") (lg_gtrace l) in
  let! ge := add_global_attributes (py "event") (lg_gevent l) in
  let! ns := add_attributes (map snd (lg_attrs l)) in
  let! ts := map_res write_trace (lg_traces l) in
  Ok (XElem (py "log") xes_features
        (map write_extension (lg_exts l) ++ gt ++ ge ++ map write_classifier (lg_classifiers l) ++ ns ++ ts)).
End Writer.
