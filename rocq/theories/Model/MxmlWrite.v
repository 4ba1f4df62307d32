(** Writing MXML: /repo/src/opyenxes/data_out/XMxmlSerializer.py, up to the element tree. *)
From Coq Require Import String NArith ZArith List Bool.
From Verif Require Import Base.PyBase Base.PyDate Base.PyVal Base.Xml Model.Attr Model.Log Model.XmlText.
Import ListNotations.

Section Writer.
Context `{FIO : FloatIO}.

(** XMxmlSerializer.py:14-27. *)
Definition known_types : list pystr :=
  [py "schedule"; py "assign"; py "withdraw"; py "reassign"; py "start"; py "suspend"; py "resume";
   py "pi_abort"; py "ate_abort"; py "complete"; py "autoskip"; py "manualskip"].

(** XConceptExtension.extract_name: XConceptExtension.py:36-49. *)
Definition extract_name (m : sdict attr) : res pyval :=
  match sget (py "concept:name") m with Some a => get_value a | None => Ok PNone end.

(** add_model_reference: XMxmlSerializer.py:175-186. *)
Definition reference_atts (m : sdict attr) : res (list (pystr * pyval)) :=
  match sget (py "semantic:modelReference") m with
  | Some a => let! v := get_value a in Ok [(py "modelReference", v)]
  | None => Ok []
  end.

(** add_attribute without a key prefix: XMxmlSerializer.py:138-173.  The recursive call of
    line 173 passes the key prefix as the attributes and fails on its first character. *)
Definition data_entry (a : attr) : res (list enode) :=
  if str_eqb (a_key a) (py "semantic:modelReference") then
    let! r := reference_atts (a_meta a) in
    let! s := attr_str a in
    match a_meta a with
    | [] => Ok [EElem (py "attribute") ((py "name", PStr (a_key a)) :: r) (PStr s) []]
    | _ => Raise AttributeError
    end
  else Ok [].
Definition add_data (m : sdict attr) : res enode :=
  let! ns := map_res data_entry (map snd m) in Ok (EElem (py "Data") [] PNone (List.concat ns)).

(** [text + value] for a text and any object. *)
Definition prefixed (text : pystr) (v : pyval) : res pyval :=
  match v with PStr s => Ok (PStr (text ++ s)) | _ => Raise TypeError end.
Definition or_text (text : pystr) (v : pyval) : pyval := match v with PNone => PStr text | _ => v end.

(** XMxmlSerializer.py:87-100. *)
Definition write_type (m : sdict attr) : res enode :=
  match sget (py "lifecycle:transition") m with
  | None => Ok (EElem (py "EventType") [] (PStr (py "complete")) [])
  | Some a =>
      let! r := reference_atts (a_meta a) in
      let! v := get_value a in
      match v with
      | PStr s =>
          let t := lower (strip s) in
          if existsb (str_eqb t) known_types then Ok (EElem (py "EventType") r (PStr t) [])
          else Ok (EElem (py "EventType") (r ++ [(py "unknownType", v)]) (PStr (py "unknown")) [])
      | _ => Raise AttributeError
      end
  end.

(** XMxmlSerializer.py:102-112. *)
Definition originator_attr (m : sdict attr) : option attr :=
  match sget (py "org:resource") m with
  | Some a => Some a
  | None => match sget (py "org:role") m with
            | Some a => Some a
            | None => sget (py "org:group") m
            end
  end.
Definition write_originator (m : sdict attr) : res (list enode) :=
  match originator_attr m with
  | Some a => let! r := reference_atts (a_meta a) in
              let! v := get_value a in Ok [EElem (py "originator") r v []]
  | None => Ok []
  end.

(** XMxmlSerializer.py:114-119. *)
Definition write_timestamp (m : sdict attr) : res (list enode) :=
  match sget (py "time:timestamp") m with
  | Some a => let! r := reference_atts (a_meta a) in
              let! v := get_value a in Ok [EElem (py "timestamp") r (PStr (py_str v)) []]
  | None => Ok []
  end.

(** XMxmlSerializer.py:81-119. *)
Definition mwrite_event (e : event) : res enode :=
  let m := ev_attrs e in
  let! d := add_data m in
  let! r := reference_atts m in
  let! n := extract_name m in
  let! t := write_type m in
  let! o := write_originator m in
  let! w := write_timestamp m in
  Ok (EElem (py "AuditTrailEntry") [] PNone (d :: EElem (py "WorkflowModelElement") r n [] :: t :: o ++ w)).

(** XMxmlSerializer.py:68-119. *)
Definition mwrite_trace (t : trace) : res enode :=
  let m := tr_attrs t in
  let! n := extract_name m in
  let! text := prefixed (py "instance with id ") (or_text (py "None") n) in
  let! r := reference_atts m in
  let! d := add_data m in
  let! es := map_res mwrite_event (tr_events t) in
  Ok (EElem (py "ProcessInstance") ([(py "id", or_text (py "None") n); (py "description", text)] ++ r) PNone (d :: es)).

(** XMxmlSerializer.py:51-119. *)
Definition mwrite_log (l : xlog) : res enode :=
  let m := lg_attrs l in
  let! n := extract_name m in
  let! text := prefixed (py "process with id ") (or_text (py "None") n) in
  let! r := reference_atts m in
  let! d := add_data m in
  let! ts := map_res mwrite_trace (lg_traces l) in
  Ok (EElem (py "WorkflowLog") [] PNone
        [EElem (py "Source") [(py "program", PStr (py "XES MXML serialization")); (py "openxes.version", PStr (py "1.0RC7"))] PNone [];
         EElem (py "Process") ([(py "id", or_text (py "none") n); (py "description", text)] ++ r) PNone (d :: ts)]).

(** serialize: XMxmlSerializer.py:38-121.  Comments and logging are not modelled. *)
Definition mxml_serialize (l : xlog) : res xnode := let! x := mwrite_log l in et_tree x.
End Writer.
