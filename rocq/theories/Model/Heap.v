(** Elements as objects with identity: construction, cloning and editing.
    /repo/src/opyenxes/model/{XAttributable,XAttributeMap,XElement,XEvent,XTrace,XLog}.py and
    factory/XFactory.py:20-64.

    Elsewhere in the model events, traces and logs are trees.  Here they live in a heap so
    that sharing of maps, lists and attribute objects is visible. *)
From Coq Require Import String NArith ZArith List Bool.
From Verif Require Import Base.PyBase Base.PyDate Base.PyVal Model.Attr Model.Log.
Import ListNotations.

Definition addr : Type := nat.

(** The fields of an XLog: XLog.py:13-21. *)
Record logcell : Type := mk_lc {
  lc_map : addr;             (* the attribute map *)
  lc_traces : list addr;     (* the log is itself a list of traces *)
  lc_clfs : addr;            (* __classifiers *)
  lc_gtrace : addr;          (* __globalTraceAttributes *)
  lc_gevent : addr;          (* __globalEventAttributes *)
  lc_info : option (classifier * addr);   (* __cachedClassifier, __cachedInfo *)
  lc_feat : addr;            (* __features *)
  lc_exts : addr             (* __extension *)
}.

(** Objects.  [KAttr] is an attribute (XAttribute.py:17-20, XAttributeCollection.py:14-16)
    with the addresses of its members and of its map of nested attributes; [KMap] an
    XAttributeMap; [KEvent] id and map (XEvent.py:18-25); [KTrace] map and events
    (XTrace.py:13-14).  Simplification: an XID is kept as its value. *)
Inductive cell : Type :=
| KAttr (c : acls) (key : pystr) (ext : option xext) (val : pyval) (coll : list addr) (meta : addr)
| KMap (m : sdict addr)
| KEvent (id : N) (m : addr)
| KTrace (m : addr) (events : list addr)
| KLog (l : logcell)
| KClfs (cs : list classifier)
| KAttrs (l : list addr)
| KFeat (d : sdict pyval)
| KExts (s : list xext).

(** The heap and the number of ids drawn from uuid4 so far. *)
Record st : Type := mk_st { cells : list cell; drawn : nat }.

Definition read (s : st) (a : addr) : option cell := nth_error (cells s) a.
Definition alloc (c : cell) (s : st) : addr * st :=
  (List.length (cells s), mk_st (cells s ++ [c]) (drawn s)).
Definition write (a : addr) (c : cell) (s : st) : st :=
  mk_st (update a (fun _ => c) (cells s)) (drawn s).

(** Access to an object of the wrong kind is an AttributeError (simplification: Python
    looks up one method or field at a time). *)
Definition get_map (s : st) (a : addr) : res (sdict addr) :=
  match read s a with Some (KMap m) => Ok m | _ => Raise AttributeError end.
Definition get_event (s : st) (a : addr) : res (N * addr) :=
  match read s a with Some (KEvent i m) => Ok (i, m) | _ => Raise AttributeError end.
Definition get_trace (s : st) (a : addr) : res (addr * list addr) :=
  match read s a with Some (KTrace m es) => Ok (m, es) | _ => Raise AttributeError end.
Definition get_log (s : st) (a : addr) : res logcell :=
  match read s a with Some (KLog l) => Ok l | _ => Raise AttributeError end.
Definition get_clfs (s : st) (a : addr) : res (list classifier) :=
  match read s a with Some (KClfs l) => Ok l | _ => Raise AttributeError end.
Definition get_attrs (s : st) (a : addr) : res (list addr) :=
  match read s a with Some (KAttrs l) => Ok l | _ => Raise AttributeError end.
Definition get_feat (s : st) (a : addr) : res (sdict pyval) :=
  match read s a with Some (KFeat l) => Ok l | _ => Raise AttributeError end.
Definition get_exts (s : st) (a : addr) : res (list xext) :=
  match read s a with Some (KExts l) => Ok l | _ => Raise AttributeError end.

(** Truth of an optional map argument: [if attribute:] (a dict is true when non-empty). *)
Definition map_truth (s : st) (arg : option addr) : res bool :=
  match arg with
  | None => Ok false
  | Some a => let! m := get_map s a in
              Ok (match m with [] => false | _ :: _ => true end)
  end.

(** ** Construction *)

(** XAttributable.__init__: XAttributable.py:12-16; gives the map to be stored. *)
Definition attributable_init (arg : option addr) (s : st) : res (addr * st) :=
  let! b := map_truth s arg in
  match b, arg with
  | true, Some a => Ok (a, s)
  | _, _ => Ok (alloc (KMap []) s)
  end.

(** XElement.__init__: XElement.py:12-13.  [dflt] is the one XAttributeMap created when the
    class is defined; it stands in for an omitted argument. *)
Definition element_init (dflt : addr) (arg : option (option addr)) (s : st) : res (addr * st) :=
  attributable_init (match arg with None => Some dflt | Some a => a end) s.

Section Draw.
(** The ids delivered by uuid4 ([XIDFactory.create_id]: id/XIDFactory.py:12-19). *)
Variable draw : nat -> N.

Definition create_id (s : st) : N * st := (draw (drawn s), mk_st (cells s) (S (drawn s))).

(** XEvent.__init__: XEvent.py:18-25. *)
Definition event_init (attributes : option addr) (identity : option N) (s : st) : res (addr * st) :=
  let! b := map_truth s attributes in
  let '(attributes, s) :=
    if b then (attributes, s) else let '(m, s) := alloc (KMap []) s in (Some m, s) in
  let '(id, s) := match identity with Some i => (i, s) | None => create_id s end in
  let! p := attributable_init attributes s in
  Ok (alloc (KEvent id (fst p)) (snd p)).

(** XTrace.__init__: XTrace.py:13-14 (list.__init__ is not reached; the list is empty). *)
Definition trace_init (attributes : option addr) (s : st) : res (addr * st) :=
  let! p := attributable_init attributes s in
  Ok (alloc (KTrace (fst p) []) (snd p)).

(** XLog.__init__: XLog.py:13-21. *)
Definition log_init (attributes : option addr) (s : st) : res (addr * st) :=
  let! p := attributable_init attributes s in
  let '(clfs, s) := alloc (KClfs []) (snd p) in
  let '(gt, s) := alloc (KAttrs []) s in
  let '(ge, s) := alloc (KAttrs []) s in
  let '(feat, s) := alloc (KFeat []) s in
  let '(exts, s) := alloc (KExts []) s in
  Ok (alloc (KLog (mk_lc (fst p) [] clfs gt ge None feat exts)) s).

(** XFactory.create_log, create_trace, create_event: XFactory.py:20-64. *)
Definition create_log (attribute : option addr) (s : st) : res (addr * st) :=
  let! b := map_truth s attribute in
  if b then log_init attribute s
  else let '(m, s) := alloc (KMap []) s in log_init (Some m) s.

Definition create_trace (attribute : option addr) (s : st) : res (addr * st) :=
  let! b := map_truth s attribute in
  if b then trace_init attribute s
  else let '(m, s) := alloc (KMap []) s in trace_init (Some m) s.

Definition create_event (attribute : option addr) (identity : option N) (s : st)
  : res (addr * st) :=
  let! b := map_truth s attribute in
  match b, identity with
  | true, Some i => event_init attribute (Some i) s
  | true, None => event_init attribute None s
  | false, _ => event_init None None s
  end.

(** ** Cloning *)

(** XAttributeMap.clone: XAttributeMap.py:13-23. *)
Definition map_clone (a : addr) (s : st) : res (addr * st) :=
  let! m := get_map s a in
  let! c := fold_res (fun c k => match sget k m with
                                 | Some x => Ok (sset k x c)
                                 | None => Raise KeyError
                                 end) (map fst m) [] in
  Ok (alloc (KMap c) s).

(** XAttributable.set_attributes (XAttributable.py:40-46) and XEvent.set_id
    (XEvent.py:46-52) on an event. *)
Definition event_set_attributes (e m : addr) (s : st) : res st :=
  let! x := get_event s e in Ok (write e (KEvent (fst x) m) s).
Definition event_set_id (e : addr) (i : N) (s : st) : res st :=
  let! x := get_event s e in Ok (write e (KEvent i (snd x)) s).

(** XEvent.clone: XEvent.py:27-36. *)
Definition event_clone (e : addr) (s : st) : res (addr * st) :=
  let! p := event_init None None s in
  let '(clone, s) := p in
  let! x := get_event s e in
  let! q := map_clone (snd x) s in
  let '(m, s) := q in
  let! s := event_set_attributes clone m s in
  let '(id, s) := create_id s in
  let! s := event_set_id clone id s in
  Ok (clone, s).

(** XTrace.append: XTrace.py:59-66. *)
Definition trace_append (t e : addr) (s : st) : res st :=
  let! x := get_trace s t in Ok (write t (KTrace (fst x) (snd x ++ [e])) s).

(** XTrace.clone: XTrace.py:16-26. *)
Definition trace_clone (t : addr) (s : st) : res (addr * st) :=
  let! x := get_trace s t in
  let! q := map_clone (fst x) s in
  let '(m, s) := q in
  let! p := trace_init (Some m) s in
  let '(clone, s) := p in
  let! s := fold_res (fun s e => let! p := event_clone e s in
                                 trace_append clone (fst p) (snd p)) (snd x) s in
  Ok (clone, s).

(** XLog.append: XLog.py:127-134. *)
Definition log_append (l t : addr) (s : st) : res st :=
  let! x := get_log s l in
  Ok (write l (KLog (mk_lc (lc_map x) (lc_traces x ++ [t]) (lc_clfs x) (lc_gtrace x)
                           (lc_gevent x) (lc_info x) (lc_feat x) (lc_exts x))) s).

(** XLog.clone: XLog.py:23-41. *)
Definition log_clone (l : addr) (s : st) : res (addr * st) :=
  let! x := get_log s l in
  let! q := map_clone (lc_map x) s in
  let '(m, s) := q in
  let! p := log_init (Some m) s in
  let '(clone, s) := p in
  let! y := get_log s clone in
  let! es := get_exts s (lc_exts x) in
  let! s := fold_res (fun s e => let! d := get_exts s (lc_exts y) in
                                 Ok (write (lc_exts y) (KExts (set_add xext_eqb e d)) s)) es s in
  let! cs := get_clfs s (lc_clfs x) in
  let '(clfs, s) := alloc (KClfs cs) s in
  let! gts := get_attrs s (lc_gtrace x) in
  let '(gt, s) := alloc (KAttrs gts) s in
  let! ges := get_attrs s (lc_gevent x) in
  let '(ge, s) := alloc (KAttrs ges) s in
  let! fs := get_feat s (lc_feat x) in
  let '(feat, s) := alloc (KFeat fs) s in
  let s := write clone (KLog (mk_lc (lc_map y) (lc_traces y) clfs gt ge (lc_info y) feat
                                    (lc_exts y))) s in
  let! s := fold_res (fun s t => let! p := trace_clone t s in
                                 log_append clone (fst p) (snd p)) (lc_traces x) s in
  Ok (clone, s).

End Draw.

(** ** Editing *)

(** What the methods of these objects, and the list, dict and set methods they inherit or
    hand out, can do to one object:
    - [OpPut], [OpDel]: [map[k] = a], [del map[k]] on an XAttributeMap;
    - [OpSetMap]: set_attributes (XAttributable.py:40-46) on an event, trace or log;
    - [OpSetId]: XEvent.set_id (XEvent.py:46-52);
    - [OpEvents], [OpTraces]: any list operation on a trace or log, by its result;
    - [OpClfs], [OpAttrs], [OpExts]: any operation on the lists and the set returned by
      XLog.get_classifiers, get_global_trace_attributes, get_global_event_attributes and
      get_extensions (XLog.py:43-83), by its result;
    - [OpFeat]: XLog.set_features (XLog.py:85-93);
    - [OpInfo]: XLog.set_info (XLog.py:104-113). *)
Inductive op : Type :=
| OpPut (k : pystr) (a : addr)
| OpDel (k : pystr)
| OpSetMap (m : addr)
| OpSetId (i : N)
| OpEvents (es : list addr)
| OpTraces (ts : list addr)
| OpClfs (cs : list classifier)
| OpAttrs (l : list addr)
| OpExts (es : list xext)
| OpFeat (k : pystr) (v : pyval)
| OpInfo (c : classifier) (info : addr).

Definition apply_op (o : op) (c : cell) : res cell :=
  match o, c with
  | OpPut k a, KMap m => Ok (KMap (sset k a m))
  | OpDel k, KMap m => if smem k m then Ok (KMap (sdel k m)) else Raise KeyError
  | OpSetMap m, KEvent i _ => Ok (KEvent i m)
  | OpSetMap m, KTrace _ es => Ok (KTrace m es)
  | OpSetMap m, KLog l => Ok (KLog (mk_lc m (lc_traces l) (lc_clfs l) (lc_gtrace l)
                                          (lc_gevent l) (lc_info l) (lc_feat l) (lc_exts l)))
  | OpSetId i, KEvent _ m => Ok (KEvent i m)
  | OpEvents es, KTrace m _ => Ok (KTrace m es)
  | OpTraces ts, KLog l => Ok (KLog (mk_lc (lc_map l) ts (lc_clfs l) (lc_gtrace l)
                                           (lc_gevent l) (lc_info l) (lc_feat l) (lc_exts l)))
  | OpClfs cs, KClfs _ => Ok (KClfs cs)
  | OpAttrs l, KAttrs _ => Ok (KAttrs l)
  | OpExts es, KExts _ => Ok (KExts es)
  | OpFeat k v, KFeat d => Ok (KFeat (sset k v d))
  | OpInfo c i, KLog l => Ok (KLog (mk_lc (lc_map l) (lc_traces l) (lc_clfs l) (lc_gtrace l)
                                          (lc_gevent l) (Some (c, i)) (lc_feat l) (lc_exts l)))
  | _, _ => Raise AttributeError
  end.

Definition perform (o : op) (a : addr) (s : st) : res st :=
  match read s a with
  | Some c => let! c' := apply_op o c in Ok (write a c' s)
  | None => Raise AttributeError
  end.

(** [attribute.set_value(v)]: e.g. XAttributeLiteral.py:27-33; none on collections. *)
Definition attr_set_value (a : addr) (v : pyval) (s : st) : res st :=
  match read s a with
  | Some (KAttr c k e _ l m) =>
      if is_collection c then Raise AttributeError else Ok (write a (KAttr c k e v l m) s)
  | _ => Raise AttributeError
  end.
