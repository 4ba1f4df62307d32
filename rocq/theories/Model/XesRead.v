(** Reading XES: /repo/src/opyenxes/data_in/XesXmlParser.py, on the sequence of SAX events.

    The objects the parser makes live on a heap and are referred to by position.  Every
    object gets an attribute map of its own (XAttributable.py:12-16), so the map is part of
    the object. *)
From Coq Require Import String NArith ZArith List Bool.
From Verif Require Import Base.PyBase Base.PyDate Base.PyVal Base.Xml Model.Attr Model.DateConv Model.Log
  Model.Token Model.Registry.
Import ListNotations.

Inductive pobj : Type :=
| OAttr (c : acls) (k : pystr) (e : option xext) (v : pyval) (coll : list nat) (meta : sdict nat)
| OEvent (id : N) (meta : sdict nat)
| OTrace (meta : sdict nat) (events : list (option nat))
| OLog (meta : sdict nat) (traces : list (option nat)) (exts : list xext) (cls : list classifier)
       (gtrace gevent : list nat) (features : sdict pystr).

(** The list a [global] element is filling: of which log, trace or event globals. *)
Inductive gscope : Type := GTrace | GEvent.

(** XesXmlHandler.__init__: XesXmlParser.py:74-83.  The stacks have their top first; the set
    [__extension] is never filled and [__last] never used.  [p_drawn] counts the ids drawn. *)
Record pstate : Type := mk_ps {
  p_heap : list pobj;
  p_log : option nat; p_trace : option nat; p_event : option nat;
  p_attrs : list nat;            (* __attribute_stack *)
  p_attributables : list nat;    (* __attributable_stack *)
  p_globals : option (nat * gscope);
  p_drawn : nat
}.
Definition ps_init : pstate := mk_ps [] None None None [] [] None 0.

(** The eight attribute tags: XesXmlParser.py:103, 167-193. *)
Definition attr_tag (t : pystr) : option acls :=
  if str_eqb t (py "string") then Some CLiteral
  else if str_eqb t (py "date") then Some CTimestamp
  else if str_eqb t (py "int") then Some CDiscrete
  else if str_eqb t (py "float") then Some CContinuous
  else if str_eqb t (py "boolean") then Some CBoolean
  else if str_eqb t (py "id") then Some CID
  else if str_eqb t (py "list") then Some CList
  else if str_eqb t (py "container") then Some CContainer
  else None.

Definition with_log (f : pobj -> pobj) (s : pstate) : res pstate :=
  match p_log s with
  | None => Raise AttributeError                      (* None has no such method *)
  | Some l => Ok (mk_ps (update l f (p_heap s)) (p_log s) (p_trace s) (p_event s) (p_attrs s)
                        (p_attributables s) (p_globals s) (p_drawn s))
  end.
Definition log_add_ext (x : xext) (o : pobj) : pobj :=
  match o with
  | OLog m ts xs cs gt ge fs => OLog m ts (set_add xext_eqb x xs) cs gt ge fs
  | o => o
  end.
Definition log_add_classifier (c : classifier) (o : pobj) : pobj :=
  match o with
  | OLog m ts xs cs gt ge fs => OLog m ts xs (cs ++ [c]) gt ge fs
  | o => o
  end.

Section Reader.
(** Text conversion of floats, the registered extensions, [urlparse] (as a map between texts,
    see [xext]; [None] stands for ValueError) and the ids drawn for new events. *)
Context `{FIO : FloatIO} (mgr : manager xext) (urlparse : pystr -> option pystr) (draw : nat -> N).

(** The extension of a key: XesXmlParser.py:160-163. *)
Definition key_extension (name : pystr) : option xext :=
  if mem_char 58 name then mgr_by_prefix x_prefix mgr (before_char 58 name) else None.

(** The value by tag: XesXmlParser.py:165-193.  [Ok None]: the unreadable date of line 171. *)
Definition tag_value (c : acls) (value : pystr) : res (option pyval) :=
  match c with
  | CLiteral => Ok (Some (PStr value))
  | CTimestamp => let! d := parse_date_time value in Ok (option_map PDate d)
  | CDiscrete => match py_int 10 value with Some z => Ok (Some (PInt z)) | None => Raise ValueError end
  | CContinuous => match float_of_str value with Some f => Ok (Some (PFloat f)) | None => Raise ValueError end
  | CBoolean => Ok (Some (PBool (str_eqb (lower value) (py "true"))))
  | CID => match uuid_of_str value with Some u => Ok (Some (PXid u)) | None => Raise ValueError end
  | CList | CContainer => Ok (Some PNone)
  end.

Definition push_new (o : pobj) (s : pstate) : pstate :=
  mk_ps (p_heap s ++ [o]) (p_log s) (p_trace s) (p_event s) (p_attrs s)
        (List.length (p_heap s) :: p_attributables s) (p_globals s) (p_drawn s).

(** XesXmlParser.py:118-133. *)
Definition start_extension (atts : sdict pystr) (s : pstate) : res pstate :=
  let! x := match sget (py "prefix") atts with
            | Some p => Ok (mgr_by_prefix x_prefix mgr p)
            | None => match sget (py "uri") atts with
                      | Some u => match urlparse u with
                                  | Some v => Ok (mgr_by_uri mgr v)
                                  | None => Raise ValueError
                                  end
                      | None => Ok None
                      end
            end in
  match x with
  | Some x => with_log (log_add_ext x) s
  | None => match sget (py "uri") atts with
            | Some _ => Ok s                            (* prints a message *)
            | None => Raise TypeError                   (* "Unknown extension: " + None *)
            end
  end.

(** XesXmlParser.py:135-142. *)
Definition start_global (atts : sdict pystr) (s : pstate) : res pstate :=
  match sget (py "scope") atts with
  | None => Raise AttributeError
  | Some name =>
      let scope := if str_eqb (lower name) (py "trace") then Some GTrace
                   else if str_eqb (lower name) (py "event") then Some GEvent else None in
      match scope with
      | None => Ok s
      | Some g => match p_log s with
                  | None => Raise AttributeError
                  | Some l => Ok (mk_ps (p_heap s) (p_log s) (p_trace s) (p_event s) (p_attrs s)
                                        (p_attributables s) (Some (l, g)) (p_drawn s))
                  end
      end
  end.

(** XesXmlParser.py:144-150. *)
Definition start_classifier (atts : sdict pystr) (s : pstate) : res pstate :=
  match sget (py "name") atts, sget (py "keys") atts with
  | Some n, Some ks =>
      if nonempty n && nonempty ks
      then with_log (log_add_classifier (mk_cl n (extract_tokens ks))) s
      else Ok s
  | _, _ => Ok s
  end.

(** XesXmlParser.py:110-117. *)
Definition is_feature (kv : pystr * pystr) : bool :=
  starts_with (py "xes.") (fst kv) || starts_with (py "openxes.") (fst kv).
Definition start_log (atts : sdict pystr) (s : pstate) : pstate :=
  let fs := fold_left (fun d kv => sset (fst kv) (snd kv) d) (filter is_feature atts) [] in
  let s' := push_new (OLog [] [] [] [] [] [] fs) s in
  mk_ps (p_heap s') (Some (List.length (p_heap s))) (p_trace s') (p_event s') (p_attrs s')
        (p_attributables s') (p_globals s') (p_drawn s').

(** XesXmlParser.py:107-109. *)
Definition start_trace (s : pstate) : pstate :=
  let s' := push_new (OTrace [] []) s in
  mk_ps (p_heap s') (p_log s') (Some (List.length (p_heap s))) (p_event s') (p_attrs s')
        (p_attributables s') (p_globals s') (p_drawn s').
(** XesXmlParser.py:104-106; the id is drawn in XEvent.__init__ (XEvent.py:18-25). *)
Definition start_event (s : pstate) : pstate :=
  let s' := push_new (OEvent (draw (p_drawn s)) []) s in
  mk_ps (p_heap s') (p_log s') (p_trace s') (Some (List.length (p_heap s))) (p_attrs s')
        (p_attributables s') (p_globals s') (S (p_drawn s)).

(** XesXmlParser.py:152-197. *)
Definition start_attr (c : acls) (atts : sdict pystr) (s : pstate) : res pstate :=
  let name := match sget (py "key") atts with Some n => n | None => py "UNKNOWN" end in
  let value := match sget (py "value") atts with Some v => v | None => [] end in
  let! v := tag_value c value in
  match v with
  | None => Ok s
  | Some v =>
      let s' := push_new (OAttr c name (key_extension name) v [] []) s in
      Ok (mk_ps (p_heap s') (p_log s') (p_trace s') (p_event s') (List.length (p_heap s) :: p_attrs s)
                (p_attributables s') (p_globals s') (p_drawn s'))
  end.

(** startElement: XesXmlParser.py:93-197. *)
Definition start_element (tag : pystr) (atts : sdict pystr) (s : pstate) : res pstate :=
  let t := lower tag in
  match attr_tag t with
  | Some c => start_attr c atts s
  | None =>
      if str_eqb t (py "event") then Ok (start_event s)
      else if str_eqb t (py "trace") then Ok (start_trace s)
      else if str_eqb t (py "log") then Ok (start_log atts s)
      else if str_eqb t (py "extension") then start_extension atts s
      else if str_eqb t (py "global") then start_global atts s
      else if str_eqb t (py "classifier") then start_classifier atts s
      else Ok s
  end.

(** [stack.pop()] *)
Definition pop_attributable (s : pstate) : res pstate :=
  match p_attributables s with
  | [] => Raise IndexError
  | _ :: t => Ok (mk_ps (p_heap s) (p_log s) (p_trace s) (p_event s) (p_attrs s) t (p_globals s) (p_drawn s))
  end.
Definition pop_attr (s : pstate) : res (nat * pstate) :=
  match p_attrs s with
  | [] => Raise IndexError
  | i :: t => Ok (i, mk_ps (p_heap s) (p_log s) (p_trace s) (p_event s) t (p_attributables s) (p_globals s) (p_drawn s))
  end.
Definition with_heap (h : list pobj) (s : pstate) : pstate :=
  mk_ps h (p_log s) (p_trace s) (p_event s) (p_attrs s) (p_attributables s) (p_globals s) (p_drawn s).

Definition trace_append (e : option nat) (o : pobj) : pobj :=
  match o with OTrace m es => OTrace m (es ++ [e]) | o => o end.
Definition log_append (t : option nat) (o : pobj) : pobj :=
  match o with OLog m ts xs cs gt ge fs => OLog m (ts ++ [t]) xs cs gt ge fs | o => o end.
Definition globals_append (g : gscope) (i : nat) (o : pobj) : pobj :=
  match o, g with
  | OLog m ts xs cs gt ge fs, GTrace => OLog m ts xs cs (gt ++ [i]) ge fs
  | OLog m ts xs cs gt ge fs, GEvent => OLog m ts xs cs gt (ge ++ [i]) fs
  | o, _ => o
  end.
(** [o.get_attributes()[k] = i] *)
Definition obj_set (k : pystr) (i : nat) (o : pobj) : pobj :=
  match o with
  | OAttr c k' e v coll m => OAttr c k' e v coll (sset k i m)
  | OEvent d m => OEvent d (sset k i m)
  | OTrace m es => OTrace (sset k i m) es
  | OLog m ts xs cs gt ge fs => OLog (sset k i m) ts xs cs gt ge fs
  end.
(** XAttributeCollection.add_to_collection: XAttributeCollection.py:18-25, if it is one. *)
Definition obj_collect (i : nat) (o : pobj) : pobj :=
  match o with
  | OAttr c k e v coll m => if is_collection c then OAttr c k e v (coll ++ [i]) m else o
  | o => o
  end.
Definition obj_key (o : option pobj) : pystr :=
  match o with Some (OAttr _ k _ _ _ _) => k | _ => [] end.   (* only attributes are on that stack *)

(** XesXmlParser.py:211-214. *)
Definition end_event (s : pstate) : res pstate :=
  match p_trace s with
  | None => Raise AttributeError
  | Some t =>
      pop_attributable (mk_ps (update t (trace_append (p_event s)) (p_heap s)) (p_log s) (p_trace s) None
                              (p_attrs s) (p_attributables s) (p_globals s) (p_drawn s))
  end.
(** XesXmlParser.py:215-218. *)
Definition end_trace (s : pstate) : res pstate :=
  match p_log s with
  | None => Raise AttributeError
  | Some l =>
      pop_attributable (mk_ps (update l (log_append (p_trace s)) (p_heap s)) (p_log s) None (p_event s)
                              (p_attrs s) (p_attributables s) (p_globals s) (p_drawn s))
  end.
(** XesXmlParser.py:225-237. *)
Definition end_attr (s : pstate) : res pstate :=
  let! (i, s1) := pop_attr s in
  let! s2 := pop_attributable s1 in
  match p_globals s2 with
  | Some (l, g) => Ok (with_heap (update l (globals_append g i) (p_heap s2)) s2)
  | None =>
      match p_attributables s2 with
      | [] => Raise IndexError
      | p :: _ =>
          let h := update p (obj_set (obj_key (nth_error (p_heap s2) i)) i) (p_heap s2) in
          let h := match p_attrs s2 with
                   | [] => h
                   | q :: _ => update q (obj_collect i) h
                   end in
          Ok (with_heap h s2)
      end
  end.

(** endElement: XesXmlParser.py:199-237. *)
Definition end_element (tag : pystr) (s : pstate) : res pstate :=
  let t := lower tag in
  if str_eqb t (py "global") then
    Ok (mk_ps (p_heap s) (p_log s) (p_trace s) (p_event s) (p_attrs s) (p_attributables s) None (p_drawn s))
  else match attr_tag t with
  | Some _ => end_attr s
  | None =>
      if str_eqb t (py "event") then end_event s
      else if str_eqb t (py "trace") then end_trace s
      else if str_eqb t (py "log") then pop_attributable s
      else Ok s
  end.

(** The handler has no [characters] method of its own. *)
Definition xes_step (s : pstate) (e : sax) : res pstate :=
  match e with
  | SStart t a => start_element t a s
  | SEnd t => end_element t s
  | SChars _ => Ok s
  end.

(** parse: XesXmlParser.py:37-50, after [xml.sax.parse]; the result is [handler.get_log()]
    with the objects it reaches. *)
Definition xes_run (es : list sax) (s : pstate) : res pstate := fold_res xes_step es s.
Definition xes_parse (doc : xnode) : res pstate := xes_run (sax_of doc) ps_init.
End Reader.
