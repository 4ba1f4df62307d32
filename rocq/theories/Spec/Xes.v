(** What an XES document means, independently of the parser: a recursive reading of the
    element tree; and what the objects made by the parser stand for. *)
From Coq Require Import String NArith ZArith List Bool.
From Verif Require Import Base.PyBase Base.PyDate Base.PyVal Base.Xml Model.Attr Model.DateConv Model.Log
  Model.Token Model.Registry Model.XesWrite Model.XesRead Spec.DateText Spec.Registries.
Import ListNotations.

Definition map_opt {A B} (f : A -> option B) : list A -> option (list B) :=
  fix go l := match l with
              | [] => Some []
              | x :: t => match f x, go t with Some y, Some r => Some (y :: r) | _, _ => None end
              end.

(** ** Objects on the parser's heap as trees *)

Inductive attr_in (h : list pobj) : nat -> attr -> Prop :=
| attr_in_intro r c k e v coll meta coll' meta' :
    nth_error h r = Some (OAttr c k e v coll meta) ->
    Forall2 (attr_in h) coll coll' ->
    Forall2 (fun kr ka => fst kr = fst ka /\ attr_in h (snd kr) (snd ka)) meta meta' ->
    attr_in h r (mk_attr c k e v coll' meta').
Definition map_in (h : list pobj) (m : sdict nat) (m' : sdict attr) : Prop :=
  Forall2 (fun kr ka => fst kr = fst ka /\ attr_in h (snd kr) (snd ka)) m m'.
Definition event_in (h : list pobj) (r : nat) (e : event) : Prop :=
  exists m, nth_error h r = Some (OEvent (ev_id e) m) /\ map_in h m (ev_attrs e).
Definition trace_in (h : list pobj) (r : nat) (t : trace) : Prop :=
  exists m es, nth_error h r = Some (OTrace m es) /\ map_in h m (tr_attrs t)
  /\ Forall2 (fun o e => exists i, o = Some i /\ event_in h i e) es (tr_events t).
Definition log_in (h : list pobj) (r : nat) (l : xlog) : Prop :=
  exists m ts gt ge,
    nth_error h r = Some (OLog m ts (lg_exts l) (lg_classifiers l) gt ge (lg_features l))
    /\ map_in h m (lg_attrs l)
    /\ Forall2 (fun o t => exists i, o = Some i /\ trace_in h i t) ts (lg_traces l)
    /\ Forall2 (attr_in h) gt (lg_gtrace l) /\ Forall2 (attr_in h) ge (lg_gevent l).

(** Attributes as a map: later ones replace earlier ones with the same key. *)
Definition index (l : list attr) : sdict attr := fold_left (fun m a => sset (a_key a) a m) l [].

(** The attributes written below an attribute. *)
Definition kids_of (a : attr) : list attr :=
  if is_collection (a_cls a) then a_coll a else map snd (a_meta a).

Section Reading.
Context `{FIO : FloatIO} (mgr : manager xext) (urlparse : pystr -> option pystr) (draw : nat -> N).

(** ** The meaning of elements *)

Definition att (n : string) (atts : sdict pystr) (default : pystr) : pystr :=
  match sget (py n) atts with Some v => v | None => default end.

(** The elements of attributes. *)
Definition xes_words : list (string * acls) :=
  [("string"%string, CLiteral); ("date"%string, CTimestamp); ("int"%string, CDiscrete); ("float"%string, CContinuous);
   ("boolean"%string, CBoolean); ("id"%string, CID); ("list"%string, CList); ("container"%string, CContainer)].
Definition tag_class (t : pystr) : option acls :=
  option_map snd (find (fun wc => str_eqb t (py (fst wc))) xes_words).
(** Their values; "true" may be in any case, and all other texts stand for false. *)
Definition text_value (c : acls) (s : pystr) : option pyval :=
  match c with
  | CLiteral => Some (PStr s)
  | CBoolean => Some (PBool (str_eqb (lower s) (py "true")))
  | CDiscrete => option_map PInt (py_int 10 s)
  | CContinuous => option_map PFloat (float_of_str s)
  | CID => option_map PXid (uuid_of_str s)
  | CTimestamp => match parse_date_time s with Ok (Some d) => Some (PDate d) | _ => None end
  | CList | CContainer => Some PNone
  end.

(** An attribute element with readable value and nothing but such elements inside. *)
Fixpoint elem_attr (x : xnode) : option attr :=
  match x with
  | XText _ => None
  | XElem t atts kids =>
      match tag_class (lower t), map_opt elem_attr kids with
      | Some c, Some l =>
          match text_value c (att "value" atts []) with
          | Some v => let k := att "key" atts (py "UNKNOWN") in
                           Some (mk_attr c k (key_extension mgr k) v (if is_collection c then l else []) (index l))
          | None => None
          end
      | _, _ => None
      end
  end.

(** An event element; the id is not in the document. *)
Definition elem_event (x : xnode) : option (sdict attr) :=
  match x with
  | XElem t _ kids => if str_eqb (lower t) (py "event") then option_map index (map_opt elem_attr kids) else None
  | XText _ => None
  end.

(** Inside a trace: attributes and events in any order. *)
Definition elem_in_trace (x : xnode) : option (attr + sdict attr) :=
  match elem_attr x with
  | Some a => Some (inl a)
  | None => option_map inr (elem_event x)
  end.
Definition lefts {A B} (l : list (A + B)) : list A := flat_map (fun x => match x with inl a => [a] | inr _ => [] end) l.
Definition rights {A B} (l : list (A + B)) : list B := flat_map (fun x => match x with inl _ => [] | inr b => [b] end) l.
Definition elem_trace (x : xnode) : option (sdict attr * list (sdict attr)) :=
  match x with
  | XElem t _ kids =>
      if str_eqb (lower t) (py "trace")
      then option_map (fun l => (index (lefts l), rights l)) (map_opt elem_in_trace kids)
      else None
  | XText _ => None
  end.

(** Inside a list of globals: every attribute alone, those inside it before it. *)
Fixpoint elem_globals (x : xnode) : option (list attr) :=
  match x with
  | XText _ => None
  | XElem t atts kids =>
      match tag_class (lower t), map_opt elem_globals kids with
      | Some c, Some l =>
          match text_value c (att "value" atts []) with
          | Some v => let k := att "key" atts (py "UNKNOWN") in
                           Some (List.concat l ++ [mk_attr c k (key_extension mgr k) v [] []])
          | None => None
          end
      | _, _ => None
      end
  end.

(** Inside a log. *)
Inductive log_part : Type :=
| LAttrs (l : list attr)
| LTrace (t : sdict attr * list (sdict attr))
| LExt (x : option xext)
| LGlobals (g : gscope) (l : list attr)
| LClassifier (c : option classifier).

Definition elem_extension (atts : sdict pystr) : option log_part :=
  match sget (py "prefix") atts, sget (py "uri") atts with
  | Some p, Some _ => Some (LExt (mgr_by_prefix x_prefix mgr p))
  | Some p, None => match mgr_by_prefix x_prefix mgr p with Some x => Some (LExt (Some x)) | None => None end
  | None, Some u => option_map (fun v => LExt (mgr_by_uri mgr v)) (urlparse u)
  | None, None => None
  end.
Definition elem_global (atts : sdict pystr) (kids : list xnode) : option log_part :=
  match sget (py "scope") atts with
  | None => None
  | Some s =>
      if str_eqb (lower s) (py "trace") then option_map (fun l => LGlobals GTrace (List.concat l)) (map_opt elem_globals kids)
      else if str_eqb (lower s) (py "event") then option_map (fun l => LGlobals GEvent (List.concat l)) (map_opt elem_globals kids)
      else option_map LAttrs (map_opt elem_attr kids)     (* other scopes: attributes of the log *)
  end.
Definition elem_classifier (atts : sdict pystr) : log_part :=
  LClassifier (if nonempty (att "name" atts []) && nonempty (att "keys" atts [])
               then Some (mk_cl (att "name" atts []) (extract_tokens (att "keys" atts []))) else None).
Definition elem_in_log (x : xnode) : option log_part :=
  match elem_attr x with
  | Some a => Some (LAttrs [a])
  | None =>
      match elem_trace x with
      | Some t => Some (LTrace t)
      | None =>
          match x with
          | XText _ => None
          | XElem t atts kids =>
              if str_eqb (lower t) (py "global") then elem_global atts kids
              else match kids with
                   | [] => if str_eqb (lower t) (py "extension") then elem_extension atts
                           else if str_eqb (lower t) (py "classifier") then Some (elem_classifier atts) else None
                   | _ => None
                   end
          end
      end
  end.

(** The first extension of each URI. *)
Fixpoint first_uris (seen : list pystr) (l : list xext) : list xext :=
  match l with
  | [] => []
  | x :: t => if existsb (str_eqb (x_uri x)) seen then first_uris seen t else x :: first_uris (seen ++ [x_uri x]) t
  end.

(** Ids for events in document order. *)
Fixpoint number_events (n : nat) (es : list (sdict attr)) : list event :=
  match es with [] => [] | m :: t => mk_event (draw n) m :: number_events (S n) t end.
Fixpoint number_traces (n : nat) (ts : list (sdict attr * list (sdict attr))) : list trace :=
  match ts with
  | [] => []
  | (m, es) :: t => mk_trace m (number_events n es) :: number_traces (n + List.length es) t
  end.

Definition parts_log (features : sdict pystr) (l : list log_part) : xlog :=
  mk_log (index (flat_map (fun p => match p with LAttrs l => l | _ => [] end) l))
         (number_traces 0 (flat_map (fun p => match p with LTrace t => [t] | _ => [] end) l))
         (first_uris [] (flat_map (fun p => match p with LExt (Some x) => [x] | _ => [] end) l))
         (flat_map (fun p => match p with LClassifier (Some c) => [c] | _ => [] end) l)
         (flat_map (fun p => match p with LGlobals GTrace l => l | _ => [] end) l)
         (flat_map (fun p => match p with LGlobals GEvent l => l | _ => [] end) l)
         features.
Definition doc_features (atts : sdict pystr) : sdict pystr :=
  fold_left (fun d kv => sset (fst kv) (snd kv) d)
    (filter (fun kv => existsb (fun w => starts_with (py w) (fst kv)) ["xes."%string; "openxes."%string]) atts) [].
(** The log a document describes. *)
Definition doc_log (x : xnode) : option xlog :=
  match x with
  | XElem t atts kids =>
      if str_eqb (lower t) (py "log") then option_map (parts_log (doc_features atts)) (map_opt elem_in_log kids) else None
  | XText _ => None
  end.

(** ** What comes back of a tree that was written *)

Definition value_back (v : pyval) : pyval :=
  match v with PDate d => PDate (to_millis d) | v => v end.
Fixpoint read_back (a : attr) : attr :=
  match a with
  | mk_attr c k _ v coll meta =>
      if is_collection c
      then let l := map read_back coll in mk_attr c k (key_extension mgr k) PNone l (index l)
      else mk_attr c k (key_extension mgr k) (value_back v) [] (index (map (fun kv => read_back (snd kv)) meta))
  end.
(** The same inside a list of globals. *)
Fixpoint globals_back (a : attr) : list attr :=
  match a with
  | mk_attr c k _ v coll meta =>
      (if is_collection c then flat_map globals_back coll else flat_map (fun kv => globals_back (snd kv)) meta)
      ++ [mk_attr c k (key_extension mgr k) (if is_collection c then PNone else value_back v) [] []]
  end.
Definition read_back_map (m : sdict attr) : sdict attr := index (map read_back (map snd m)).

(** Values that can be read back. *)
Definition readable_value (c : acls) (v : pyval) : Prop :=
  match c, v with
  | CLiteral, PStr _ | CDiscrete, PInt _ | CBoolean, PBool _ => True
  | CID, PXid u => (u < 2 ^ 128)%N
  | CTimestamp, PDate d => valid_dt d = true /\ minute_zone d
  | CContinuous, PFloat f => float_of_str (float_repr f) = Some f
  | (CList | CContainer), _ => True
  | _, _ => False
  end.
Inductive readable : attr -> Prop :=
| readable_intro a : readable_value (a_cls a) (a_val a) -> Forall readable (kids_of a) -> readable a.
Definition readable_map (m : sdict attr) : Prop := Forall readable (map snd m).
Definition readable_log (l : xlog) : Prop :=
  readable_map (lg_attrs l) /\ Forall readable (lg_gtrace l) /\ Forall readable (lg_gevent l)
  /\ Forall (fun t => readable_map (tr_attrs t) /\ Forall (fun e => readable_map (ev_attrs e)) (tr_events t)) (lg_traces l).

Definition classifier_back (c : classifier) : list classifier :=
  if nonempty (cl_name c) && nonempty (format_token (cl_keys c))
  then [mk_cl (cl_name c) (extract_tokens (format_token (cl_keys c)))] else [].
Definition extension_back (x : xext) : list xext :=
  match mgr_by_prefix x_prefix mgr (x_prefix x) with Some y => [y] | None => [] end.
Definition log_back (l : xlog) : xlog :=
  mk_log (read_back_map (lg_attrs l))
         (number_traces 0 (map (fun t => (read_back_map (tr_attrs t), map (fun e => read_back_map (ev_attrs e)) (tr_events t)))
                               (lg_traces l)))
         (first_uris [] (flat_map extension_back (lg_exts l)))
         (flat_map classifier_back (lg_classifiers l))
         (flat_map globals_back (lg_gtrace l))
         (flat_map globals_back (lg_gevent l))
         [(py "xes.version", py "1.0"); (py "xes.features", py "nested-attributes"); (py "openxes.version", py "1.0RC7")].

(** ** What "the same" means *)

(** A map filed under the keys of its attributes, each once. *)
Definition keyed (m : sdict attr) : Prop :=
  Forall (fun kv => fst kv = a_key (snd kv)) m /\ NoDup (map fst m).
Inductive well_keyed : attr -> Prop :=
| well_keyed_coll c k e v coll meta : is_collection c = true ->
    Forall well_keyed coll -> well_keyed (mk_attr c k e v coll meta)
| well_keyed_plain c k e v coll meta : is_collection c = false ->
    keyed meta -> Forall well_keyed (map snd meta) -> well_keyed (mk_attr c k e v coll meta).

(** [b] is [a] again: class, key, value to the millisecond, and everything below it in
    order; the extension is the one registered for the prefix of the key. *)
Inductive same_attr : attr -> attr -> Prop :=
| same_coll c k e v meta v' coll coll' : is_collection c = true ->
    Forall2 same_attr coll coll' ->
    same_attr (mk_attr c k e v coll meta) (mk_attr c k (key_extension mgr k) v' coll' (index coll'))
| same_plain c k e v coll meta meta' : is_collection c = false ->
    Forall2 (fun x y => fst x = fst y /\ same_attr (snd x) (snd y)) meta meta' ->
    same_attr (mk_attr c k e v coll meta) (mk_attr c k (key_extension mgr k) (value_back v) [] meta').
Definition same_map (m m' : sdict attr) : Prop :=
  Forall2 (fun x y => fst x = fst y /\ same_attr (snd x) (snd y)) m m'.
Definition same_event (e e' : event) : Prop := same_map (ev_attrs e) (ev_attrs e').
Definition same_trace (t t' : trace) : Prop :=
  same_map (tr_attrs t) (tr_attrs t') /\ Forall2 same_event (tr_events t) (tr_events t').

Definition keyed_deep (m : sdict attr) : Prop := keyed m /\ Forall well_keyed (map snd m).
Definition keyed_log (l : xlog) : Prop :=
  keyed_deep (lg_attrs l)
  /\ Forall (fun t => keyed_deep (tr_attrs t) /\ Forall (fun e => keyed_deep (ev_attrs e)) (tr_events t)) (lg_traces l).

(** ** Positions of the parser *)

(** The parser is inside the object at [p], outside of any globals. *)
Definition inside (s : pstate) (p : nat) : Prop :=
  p_globals s = None /\ p < List.length (p_heap s)
  /\ (exists rest, p_attributables s = p :: rest)
  /\ match p_attrs s with
     | [] => forall c k e v l m, nth_error (p_heap s) p <> Some (OAttr c k e v l m)
     | q :: _ => q = p
     end.
(** Nothing but the objects differs. *)
Definition same_position (s s' : pstate) : Prop :=
  p_log s' = p_log s /\ p_trace s' = p_trace s /\ p_event s' = p_event s /\ p_attrs s' = p_attrs s
  /\ p_attributables s' = p_attributables s /\ p_globals s' = p_globals s /\ p_drawn s' = p_drawn s.
(** One more attribute in the object's map, and in its members if it is a collection. *)
Definition put_attr (k : pystr) (r : nat) (o : pobj) : pobj :=
  match o with
  | OAttr c k' e v coll m => OAttr c k' e v (if is_collection c then coll ++ [r] else coll) (sset k r m)
  | OEvent d m => OEvent d (sset k r m)
  | OTrace m es => OTrace (sset k r m) es
  | OLog m ts xs cs gt ge fs => OLog (sset k r m) ts xs cs gt ge fs
  end.
End Reading.

(** ** Foreign elements, letter case and unreadable dates *)

Definition xes_vocabulary : list pystr :=
  [py "string"; py "date"; py "int"; py "float"; py "boolean"; py "id"; py "list"; py "container";
   py "event"; py "trace"; py "log"; py "extension"; py "global"; py "classifier"].
Definition foreign (t : pystr) : bool := negb (existsb (str_eqb (lower t)) xes_vocabulary).
(** Without text and with the contents of foreign elements in their place. *)
Fixpoint splice (x : xnode) : list xnode :=
  match x with
  | XText _ => []
  | XElem t atts kids => if foreign t then flat_map splice kids else [XElem t atts (flat_map splice kids)]
  end.
(** The same but for the case of tag names. *)
Inductive same_case : xnode -> xnode -> Prop :=
| same_case_text s : same_case (XText s) (XText s)
| same_case_elem t t' atts kids kids' : lower t = lower t' -> Forall2 same_case kids kids' ->
    same_case (XElem t atts kids) (XElem t' atts kids').

(** A date element with a value that is no date. *)
Definition bad_date (t : pystr) (atts : sdict pystr) : bool :=
  str_eqb (lower t) (py "date") && match parse_date_time (att "value" atts []) with Ok None => true | _ => false end.
Fixpoint bad_dates (x : xnode) : nat :=
  match x with
  | XText _ => 0
  | XElem t atts kids => (if bad_date t atts then 1 else 0) + list_sum (map bad_dates kids)
  end.

(** ** Globals and extensions *)

(** Nothing below it. *)
Definition flat (a : attr) : Prop := kids_of a = [].
(** The attributes of a tree, those below an attribute before it. *)
Fixpoint post_order (a : attr) : list attr :=
  match a with
  | mk_attr c k e v coll meta =>
      (if is_collection c then flat_map post_order coll else flat_map (fun kv => post_order (snd kv)) meta) ++ [a]
  end.
(** The attribute alone. *)
Definition alone `{FIO : FloatIO} (mgr : manager xext) (a b : attr) : Prop :=
  a_cls b = a_cls a /\ a_key b = a_key a /\ a_ext b = key_extension mgr (a_key a)
  /\ (is_collection (a_cls a) = false -> a_val b = value_back (a_val a)) /\ a_coll b = [] /\ a_meta b = [].
Definition distinct_exts (l : list xext) : Prop := NoDup (map x_uri l).
(** Extensions that the manager knows under their prefix. *)
Definition registered (mgr : manager xext) (x : xext) : Prop := mgr_by_prefix x_prefix mgr (x_prefix x) = Some x.

(** ** Classifiers *)

(** A name, and keys that can be told apart in a list: not empty, not surrounded by
    white space, without apostrophe. *)
Definition usable (c : classifier) : Prop := cl_name c <> [] /\ cl_keys c <> [] /\ Forall good_key (cl_keys c).
