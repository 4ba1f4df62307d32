(** Reading MXML: /repo/src/opyenxes/data_in/XMxmlParser.py, on the sequence of SAX events.

    Every object the handler makes is held by one field of the handler while it is being
    filled; once it is stored in its parent the handler drops it.  The objects are therefore
    values here, with one exception: the source attribute is stored in logs and filled
    afterwards.  These attributes live in a table, [m_sources], and a log refers to them. *)
From Coq Require Import String NArith ZArith List Bool.
From Verif Require Import Base.PyBase Base.PyDate Base.PyVal Base.Xml Model.Attr Model.DateConv Model.Log
  Model.Token Model.StdExt.
Import ListNotations.

Inductive mref : Type := MVal (a : attr) | MSource (i : nat).
(** A trace; an event that is None stands for the [entry] of an unopened element. *)
Record mtrace : Type := mk_mt { mt_attrs : sdict attr; mt_events : list (option event) }.
Record mlog : Type := mk_ml {
  ml_attrs : sdict mref; ml_traces : list mtrace; ml_exts : list xext; ml_classifiers : list classifier;
  ml_gtrace : list attr; ml_gevent : list attr
}.

(** MxmlHandler.__init__: XMxmlParser.py:80-94.  [__buffer] is kept joined;
    [__numUnorderedEntries] is never changed. *)
Record mstate : Type := mk_ms {
  m_sources : list attr;
  m_buffer : pystr;
  m_logs : list mlog;
  m_process : option mlog; m_instance : option mtrace; m_entry : option event;
  m_source : option nat; m_generic : option attr; m_type : option attr; m_originator : option attr;
  m_source_open : bool;
  m_timestamp : option datetime; m_last : option datetime;
  m_drawn : nat                        (* ids drawn so far *)
}.
Definition ms_init : mstate := mk_ms [] [] [] None None None None None None None false None None 0.

Definition set_process (p : option mlog) (s : mstate) : mstate :=
  mk_ms (m_sources s) (m_buffer s) (m_logs s) p (m_instance s) (m_entry s) (m_source s) (m_generic s)
        (m_type s) (m_originator s) (m_source_open s) (m_timestamp s) (m_last s) (m_drawn s).
Definition set_instance (i : option mtrace) (s : mstate) : mstate :=
  mk_ms (m_sources s) (m_buffer s) (m_logs s) (m_process s) i (m_entry s) (m_source s) (m_generic s)
        (m_type s) (m_originator s) (m_source_open s) (m_timestamp s) (m_last s) (m_drawn s).
Definition set_entry (e : option event) (s : mstate) : mstate :=
  mk_ms (m_sources s) (m_buffer s) (m_logs s) (m_process s) (m_instance s) e (m_source s) (m_generic s)
        (m_type s) (m_originator s) (m_source_open s) (m_timestamp s) (m_last s) (m_drawn s).
Definition set_sources (l : list attr) (s : mstate) : mstate :=
  mk_ms l (m_buffer s) (m_logs s) (m_process s) (m_instance s) (m_entry s) (m_source s) (m_generic s)
        (m_type s) (m_originator s) (m_source_open s) (m_timestamp s) (m_last s) (m_drawn s).
Definition set_generic (a : option attr) (s : mstate) : mstate :=
  mk_ms (m_sources s) (m_buffer s) (m_logs s) (m_process s) (m_instance s) (m_entry s) (m_source s) a
        (m_type s) (m_originator s) (m_source_open s) (m_timestamp s) (m_last s) (m_drawn s).
Definition set_type (a : option attr) (s : mstate) : mstate :=
  mk_ms (m_sources s) (m_buffer s) (m_logs s) (m_process s) (m_instance s) (m_entry s) (m_source s)
        (m_generic s) a (m_originator s) (m_source_open s) (m_timestamp s) (m_last s) (m_drawn s).
Definition set_originator (a : option attr) (s : mstate) : mstate :=
  mk_ms (m_sources s) (m_buffer s) (m_logs s) (m_process s) (m_instance s) (m_entry s) (m_source s)
        (m_generic s) (m_type s) a (m_source_open s) (m_timestamp s) (m_last s) (m_drawn s).
Definition set_times (t l : option datetime) (s : mstate) : mstate :=
  mk_ms (m_sources s) (m_buffer s) (m_logs s) (m_process s) (m_instance s) (m_entry s) (m_source s)
        (m_generic s) (m_type s) (m_originator s) (m_source_open s) t l (m_drawn s).
Definition set_buffer (b : pystr) (s : mstate) : mstate :=
  mk_ms (m_sources s) b (m_logs s) (m_process s) (m_instance s) (m_entry s) (m_source s)
        (m_generic s) (m_type s) (m_originator s) (m_source_open s) (m_timestamp s) (m_last s) (m_drawn s).

(** [subject.get_attributes()[a.get_key()] = a] *)
Definition put {V} (inj : attr -> V) (a : attr) (m : sdict V) : sdict V := sset (a_key a) (inj a) m.
Definition put_log (a : attr) (l : mlog) : mlog :=
  mk_ml (put MVal a (ml_attrs l)) (ml_traces l) (ml_exts l) (ml_classifiers l) (ml_gtrace l) (ml_gevent l).
Definition put_trace (a : attr) (t : mtrace) : mtrace := mk_mt (put (fun a => a) a (mt_attrs t)) (mt_events t).
Definition put_event (a : attr) (e : event) : event := mk_event (ev_id e) (put (fun a => a) a (ev_attrs e)).
Definition put_meta (a b : attr) : attr :=
  match b with mk_attr c k e v coll m => mk_attr c k e v coll (put (fun a => a) a m) end.
(** [self.__entry.get_attributes()[...] = a], failing when there is no entry. *)
Definition entry_put (a : attr) (s : mstate) : res mstate :=
  match m_entry s with
  | None => Raise AttributeError
  | Some e => Ok (set_entry (Some (put_event a e)) s)
  end.

(** __add_model_reference__: XMxmlParser.py:273-283; what is added, if anything. *)
Definition model_reference (atts : sdict pystr) : option attr :=
  match sget (py "modelReference") atts with
  | Some r => if nonempty r then Some (attr_reference r) else None
  | None => None
  end.
Definition add_reference {A} (add : attr -> A -> A) (atts : sdict pystr) (x : A) : A :=
  match model_reference atts with Some a => add a x | None => x end.

(** XConceptExtension.assign_name: XConceptExtension.py:60-63; what is stored, if anything. *)
Definition add_name {A} (add : attr -> A -> A) (name : option pystr) (x : A) : A :=
  match name with
  | Some n => if nonblank n then add (attr_name n) x else x
  | None => x
  end.

Section Reader.
(** The ids drawn for new events. *)
Context (draw : nat -> N).

(** XMxmlParser.py:115-119. *)
Definition start_source (atts : sdict pystr) (s : mstate) : mstate :=
  let v := match sget (py "program") atts with Some p => PStr p | None => PNone end in
  let a := add_reference put_meta atts (mk_attr CLiteral (py "source") None v [] []) in
  mk_ms (m_sources s ++ [a]) (m_buffer s) (m_logs s) (m_process s) (m_instance s) (m_entry s)
        (Some (List.length (m_sources s))) (m_generic s) (m_type s) (m_originator s) true
        (m_timestamp s) (m_last s) (m_drawn s).

(** XMxmlParser.py:120-141. *)
Definition start_process (atts : sdict pystr) (s : mstate) : mstate :=
  let l := mk_ml [] [] (fold_left (fun xs x => set_add xext_eqb x xs)
                                  [ext_concept; ext_org; ext_lifecycle; ext_semantic; ext_time] []) [] [] [] in
  let l := match m_source s with
           | Some i => mk_ml (sset (py "source") (MSource i) (ml_attrs l)) (ml_traces l) (ml_exts l)
                             (ml_classifiers l) (ml_gtrace l) (ml_gevent l)
           | None => l
           end in
  let l := add_name put_log (sget (py "id") atts) l in
  let l := put_log (attr_model (py "standard")) l in
  let l := match sget (py "description") atts with
           | Some d => if nonempty d && nonempty (lower d)
                       then put_log (literal (py "description") None d []) l else l
           | None => l
           end in
  set_process (Some (add_reference put_log atts l)) s.

(** XMxmlParser.py:143-156. *)
Definition start_instance (atts : sdict pystr) (s : mstate) : mstate :=
  let name := match sget (py "id") atts with Some n => n | None => py "None" end in
  let t := add_name put_trace (Some name) (mk_mt [] []) in
  let t := match sget (py "description") atts with
           | Some d => if nonempty d && nonblank d
                       then put_trace (literal (py "description") None d []) t else t
           | None => t
           end in
  set_instance (Some (add_reference put_trace atts t)) s.

(** XMxmlParser.py:158-159. *)
Definition start_entry (s : mstate) : mstate :=
  mk_ms (m_sources s) (m_buffer s) (m_logs s) (m_process s) (m_instance s)
        (Some (mk_event (draw (m_drawn s)) [])) (m_source s) (m_generic s)
        (m_type s) (m_originator s) (m_source_open s) (m_timestamp s) (m_last s) (S (m_drawn s)).

(** XMxmlParser.py:161-163. *)
Definition start_attribute (atts : sdict pystr) (s : mstate) : res mstate :=
  match sget (py "name") atts with
  | None => Raise AttributeError
  | Some n => Ok (set_generic (Some (add_reference put_meta atts (literal (strip n) None (py "DEFAULT_VALUE") []))) s)
  end.

(** XMxmlParser.py:165-173. *)
Definition start_type (atts : sdict pystr) (s : mstate) : mstate :=
  let v := match sget (py "unknowntype") atts with
           | Some u => if nonempty u then u else py "UNKNOWN"
           | None => py "UNKNOWN"
           end in
  set_type (Some (add_reference put_meta atts (attr_transition v []))) s.

(** XMxmlParser.py:175-176. *)
Definition start_model_element (atts : sdict pystr) (s : mstate) : res mstate :=
  match model_reference atts with
  | Some a => entry_put a s
  | None => Ok s
  end.

(** XMxmlParser.py:178-180. *)
Definition start_originator (atts : sdict pystr) (s : mstate) : mstate :=
  set_originator (Some (add_reference put_meta atts (attr_resource (py "UNKNOWN") []))) s.

(** startElement: XMxmlParser.py:104-180. *)
Definition mx_start (tag : pystr) (atts : sdict pystr) (s : mstate) : res mstate :=
  if str_eqb tag (py "Source") then Ok (start_source atts s)
  else if str_eqb tag (py "Process") then Ok (start_process atts s)
  else if str_eqb tag (py "ProcessInstance") then Ok (start_instance atts s)
  else if str_eqb tag (py "AuditTrailEntry") then Ok (start_entry s)
  else if str_eqb tag (py "Attribute") then start_attribute atts s
  else if str_eqb tag (py "EventType") then Ok (start_type atts s)
  else if str_eqb tag (py "WorkflowModelElement") then start_model_element atts s
  else if str_eqb tag (py "Originator") then Ok (start_originator atts s)
  else Ok s.

(** MXML_CLASSIFIERS: XMxmlParser.py:22-24. *)
Definition mxml_classifiers : list classifier :=
  [mk_cl (py "MXML Legacy Classifier") [py "concept:name"; py "lifecycle:transition"];
   mk_cl (py "Event Name") [py "concept:name"];
   mk_cl (py "Resource") [py "org:resource"]].

(** XMxmlParser.py:195-201; the clones keep the default values of the templates
    (XConceptExtension.py:19, XLifecycleExtension.py:68). *)
Definition end_process (s : mstate) : res mstate :=
  match m_process s with
  | None => Raise AttributeError
  | Some l =>
      let l := mk_ml (ml_attrs l) (ml_traces l) (ml_exts l) (ml_classifiers l ++ mxml_classifiers)
                     (ml_gtrace l ++ [attr_name (py "UNKNOWN")])
                     (ml_gevent l ++ [attr_name (py "UNKNOWN"); attr_transition (py "complete") []]) in
      Ok (mk_ms (m_sources s) (m_buffer s) (m_logs s ++ [l]) None (m_instance s) (m_entry s) (m_source s)
                (m_generic s) (m_type s) (m_originator s) (m_source_open s) (m_timestamp s) (m_last s) (m_drawn s))
  end.

(** XMxmlParser.py:206-211. *)
Definition end_instance (s : mstate) : res mstate :=
  match m_instance s with
  | None => Raise TypeError
  | Some t =>
      let! s := match mt_events t with
                | [] => Ok s
                | _ => match m_process s with
                       | None => Raise AttributeError
                       | Some l => Ok (set_process (Some (mk_ml (ml_attrs l) (ml_traces l ++ [t]) (ml_exts l)
                                                                (ml_classifiers l) (ml_gtrace l) (ml_gevent l))) s)
                       end
                end in
      Ok (set_times (m_timestamp s) None (set_instance None s))
  end.

(** XMxmlParser.py:213-225. *)
Definition end_entry (s : mstate) : res mstate :=
  let append (s : mstate) : res mstate :=
    match m_instance s with
    | None => Raise AttributeError
    | Some t => Ok (set_instance (Some (mk_mt (mt_attrs t) (mt_events t ++ [m_entry s]))) s)
    end in
  let! s := match m_timestamp s with
            | None => append s
            | Some d =>
                match m_last s with
                | None => let! s := append s in Ok (set_times (m_timestamp s) (m_timestamp s) s)
                | Some d' =>
                    let! later := py_gt (PDate d) (PDate d') in
                    if later then let! s := append s in Ok (set_times (m_timestamp s) (m_timestamp s) s)
                    else append s
                end
            end in
  Ok (set_entry None s).

(** The truth value of a list. *)
Definition has_items {A} (l : list A) : bool := match l with [] => false | _ => true end.
(** XMxmlParser.py:228-240. *)
Definition end_attribute (s : mstate) : res mstate :=
  let text := strip (m_buffer s) in
  let! s := if nonempty text then
              match m_generic s with
              | None => Raise AttributeError
              | Some (mk_attr c k e _ coll meta) =>
                  let a := mk_attr c k e (PStr text) coll meta in
                  match m_entry s with
                  | Some e => Ok (set_entry (Some (put_event a e)) s)
                  | None =>
                      let filled := match m_instance s with Some t => has_items (mt_events t) | None => false end in
                      let grown := match m_process s with Some l => has_items (ml_traces l) | None => false end in
                      if filled then Ok (set_instance (option_map (put_trace a) (m_instance s)) s)
                      else if grown then Ok (set_process (option_map (put_log a) (m_process s)) s)
                      else if m_source_open s then
                        match m_source s with
                        | None => Raise AttributeError
                        | Some i => Ok (set_sources (update i (put_meta a) (m_sources s)) s)
                        end
                      else Ok s
                  end
              end
            else Ok s in
  Ok (set_generic None s).

(** XMxmlParser.py:242-250. *)
Definition end_type (s : mstate) : res mstate :=
  match m_type s with
  | None => Raise AttributeError
  | Some (mk_attr c k e v coll meta as a) =>
      let! s := if py_eq v (PStr (py "UNKNOWN")) then
                  let text := strip (m_buffer s) in
                  if nonempty text then entry_put (mk_attr c k e (PStr text) coll meta) s else Ok s
                else entry_put a s in
      Ok (set_type None s)
  end.

(** XMxmlParser.py:252-253. *)
Definition end_model_element (s : mstate) : res mstate :=
  let name := strip (m_buffer s) in
  if nonblank name then entry_put (attr_name name) s else Ok s.

(** XMxmlParser.py:255-261. *)
Definition end_timestamp (s : mstate) : res mstate :=
  let! d := parse_date_time (strip (m_buffer s)) in
  let s := set_times d (m_last s) s in
  match d with
  | None => Ok s
  | Some d => entry_put (attr_timestamp d) s
  end.

(** XMxmlParser.py:263-269. *)
Definition end_originator (s : mstate) : res mstate :=
  match m_originator s with
  | None => Raise AttributeError
  | Some (mk_attr c k e v coll meta) =>
      let text := strip (m_buffer s) in
      let! s := entry_put (mk_attr c k e (if nonempty text then PStr text else v) coll meta) s in
      Ok (set_originator None s)
  end.

(** endElement: XMxmlParser.py:182-271.  The end of [WorkflowLog] only writes log messages. *)
Definition mx_end (tag : pystr) (s : mstate) : res mstate :=
  let! s := if str_eqb tag (py "Process") then end_process s
            else if str_eqb tag (py "ProcessInstance") then end_instance s
            else if str_eqb tag (py "AuditTrailEntry") then end_entry s
            else if str_eqb tag (py "Attribute") then end_attribute s
            else if str_eqb tag (py "EventType") then end_type s
            else if str_eqb tag (py "WorkflowModelElement") then end_model_element s
            else if str_eqb tag (py "Timestamp") then end_timestamp s
            else if str_eqb tag (py "Originator") then end_originator s
            else Ok s in
  Ok (set_buffer [] s).

(** characters, ignorableWhitespace: XMxmlParser.py:285-299. *)
Definition mx_step (s : mstate) (e : sax) : res mstate :=
  match e with
  | SStart t a => mx_start t a s
  | SEnd t => mx_end t s
  | SChars c => Ok (set_buffer (m_buffer s ++ c) s)
  end.

(** parse: XMxmlParser.py:43-58, after [xml.sax.parse]. *)
Definition mx_run (es : list sax) (s : mstate) : res mstate := fold_res mx_step es s.
Definition mxml_parse (doc : xnode) : res mstate := mx_run (sax_of doc) ms_init.
End Reader.
