(** What an MXML document means, independently of the parser. *)
From Coq Require Import String NArith ZArith List Bool.
From Verif Require Import Base.PyBase Base.PyDate Base.PyVal Base.Xml Model.Attr Model.DateConv Model.Log
  Model.Token Model.StdExt Model.MxmlRead Spec.Xes.
Import ListNotations.

(** The elements with a meaning; all others, such as Data or WorkflowLog, only group. *)
Definition mxml_vocabulary : list pystr :=
  [py "Source"; py "Process"; py "ProcessInstance"; py "AuditTrailEntry"; py "Attribute"; py "EventType";
   py "WorkflowModelElement"; py "Timestamp"; py "Originator"].
Definition grouping (t : pystr) : bool := negb (existsb (str_eqb t) mxml_vocabulary).
Definition blank (s : pystr) : bool := forallb is_space s.

(** The text of an element without elements inside. *)
Fixpoint leaf_text (kids : list xnode) : option pystr :=
  match kids with
  | [] => Some []
  | XText s :: t => option_map (app s) (leaf_text t)
  | XElem _ _ _ :: _ => None
  end.

(** The items of a node, where [own] reads elements with a meaning: blank text is nothing,
    grouping elements stand for what is inside them (nothing if it is only text). *)
Section Items.
Context {A : Type} (own : pystr -> sdict pystr -> list xnode -> option (list A)).
Fixpoint items (x : xnode) : option (list A) :=
  match x with
  | XText s => if blank s then Some [] else None
  | XElem t atts kids =>
      if grouping t then
        match leaf_text kids with
        | Some _ => Some []
        | None => option_map (@List.concat A) (map_opt items kids)
        end
      else own t atts kids
  end.
Definition all_items (l : list xnode) : option (list A) := option_map (@List.concat A) (map_opt items l).
End Items.

(** The attributes a document can give rise to. *)
Definition text_attr (k : pystr) (x : option xext) (v : pystr) (meta : sdict attr) : attr := mk_attr CLiteral k x (PStr v) [] meta.
Definition name_attr (v : pystr) : attr := text_attr (py "concept:name") (Some ext_concept) v [].
Definition transition_attr (v : pystr) (meta : sdict attr) : attr :=
  text_attr (py "lifecycle:transition") (Some ext_lifecycle) v meta.
Definition model_attr (v : pystr) : attr := text_attr (py "lifecycle:model") (Some ext_lifecycle) v [].
Definition resource_attr (v : pystr) (meta : sdict attr) : attr := text_attr (py "org:resource") (Some ext_org) v meta.
Definition reference_attr (v : pystr) : attr := text_attr (py "semantic:modelReference") (Some ext_semantic) v [].
Definition timestamp_attr (d : datetime) : attr := mk_attr CTimestamp (py "time:timestamp") (Some ext_time) (PDate d) [] [].

(** A reference to an ontology, as an attribute. *)
Definition reference_of (atts : sdict pystr) : list attr :=
  match sget (py "modelReference") atts with
  | Some (c :: r) => [reference_attr (c :: r)]
  | _ => []
  end.
Definition name_of (s : pystr) : list attr := if blank s then [] else [name_attr s].
Definition description_of (s : option pystr) : list attr :=
  match s with
  | Some d => [text_attr (py "description") None d []]
  | None => []
  end.
(** Text with something in it, trimmed. *)
Definition trimmed_text (t : pystr) : option pystr := match strip t with [] => None | s => Some s end.

(** A data attribute. *)
Definition data_of (t : pystr) (atts : sdict pystr) (kids : list xnode) : option (list attr) :=
  if str_eqb t (py "Attribute") then
    match sget (py "name") atts, leaf_text kids with
    | Some n, Some text =>
        Some match trimmed_text text with
             | Some v => [text_attr (strip n) None v (index (reference_of atts))]
             | None => []
             end
    | _, _ => None
    end
  else None.

(** What an element inside an entry says about the event. *)
Definition type_value (unknowntype : option pystr) (text : pystr) : option pystr :=
  match unknowntype with
  | Some (c :: u) => if str_eqb (c :: u) (py "UNKNOWN") then trimmed_text text else Some (c :: u)
  | _ => trimmed_text text
  end.
Definition field_of (t : pystr) (atts : sdict pystr) (kids : list xnode) : option (list attr) :=
  match leaf_text kids with
  | None => None
  | Some text =>
      if str_eqb t (py "WorkflowModelElement") then
        Some (reference_of atts ++ match trimmed_text text with Some n => [name_attr n] | None => [] end)
      else if str_eqb t (py "EventType") then
        Some match type_value (sget (py "unknowntype") atts) text with
             | Some v => [transition_attr v (index (reference_of atts))]
             | None => []
             end
      else if str_eqb t (py "Originator") then
        Some [resource_attr (match trimmed_text text with Some r => r | None => py "UNKNOWN" end)
                            (index (reference_of atts))]
      else if str_eqb t (py "Timestamp") then
        match parse_date_time (strip text) with
        | Ok (Some d) => Some [timestamp_attr d]
        | Ok None => Some []
        | Raise _ => None
        end
      else data_of t atts kids
  end.

(** Inside an instance: data attributes, and entries with what they say. *)
Definition in_instance (t : pystr) (atts : sdict pystr) (kids : list xnode) : option (list (attr + list attr)) :=
  if str_eqb t (py "AuditTrailEntry") then option_map (fun l => [inr l]) (all_items field_of kids)
  else option_map (map inl) (data_of t atts kids).

(** Inside a process: data attributes and instances. *)
Definition instance : Type := (sdict pystr * list (attr + list attr))%type.
Definition in_process (t : pystr) (atts : sdict pystr) (kids : list xnode) : option (list (attr + instance)) :=
  if str_eqb t (py "ProcessInstance") then option_map (fun l => [inr (atts, l)]) (all_items in_instance kids)
  else option_map (map inl) (data_of t atts kids).

(** Inside the document. *)
Inductive mx_item : Type :=
| DData (a : attr)
| DSource (atts : sdict pystr) (data : list attr)
| DProcess (atts : sdict pystr) (its : list (attr + instance)).
Definition in_document (t : pystr) (atts : sdict pystr) (kids : list xnode) : option (list mx_item) :=
  if str_eqb t (py "Process") then option_map (fun l => [DProcess atts l]) (all_items in_process kids)
  else if str_eqb t (py "Source") then option_map (fun l => [DSource atts l]) (all_items data_of kids)
  else option_map (map DData) (data_of t atts kids).
Definition mxml_items (doc : xnode) : option (list mx_item) := items in_document doc.

(** ** The logs *)

(** The entries of an instance; its data attributes before and after the first entry. *)
Definition entries (i : instance) : list (list attr) := rights (snd i).
Fixpoint before_entry (l : list (attr + list attr)) : list attr :=
  match l with inl a :: t => a :: before_entry t | _ => [] end.
Fixpoint after_entry (l : list (attr + list attr)) : list attr :=
  match l with
  | [] => []
  | inl _ :: t => after_entry t
  | inr _ :: t => lefts t
  end.
Definition early (i : instance) : list attr := before_entry (snd i).
Definition filled (i : instance) : bool := match entries i with [] => false | _ => true end.

(** Data attributes of a process or before the first entry of an instance: those up to the
    first entry of the process, and the later ones. *)
Definition loose (x : attr + instance) : list attr := match x with inl a => [a] | inr i => early i end.
Fixpoint astray (l : list (attr + instance)) : list attr :=
  match l with
  | [] => []
  | inl a :: t => a :: astray t
  | inr i :: t => early i ++ if filled i then [] else astray t
  end.
Fixpoint log_data (l : list (attr + instance)) : list attr :=
  match l with
  | [] => []
  | inl _ :: t => log_data t
  | inr i :: t => if filled i then flat_map loose t else log_data t
  end.
(** The instances that become traces. *)
Definition kept (l : list (attr + instance)) : list instance := filter filled (rights l).

(** Data that goes to a source: up to the next source. *)
Fixpoint to_source (l : list mx_item) : list attr :=
  match l with
  | [] | DSource _ _ :: _ => []
  | DData a :: t => a :: to_source t
  | DProcess _ its :: t => astray its ++ to_source t
  end.
Definition source_attr (atts : sdict pystr) (data : list attr) : attr :=
  mk_attr CLiteral (py "source") None (match sget (py "program") atts with Some p => PStr p | None => PNone end)
          [] (index (reference_of atts ++ data)).

Section Logs.
Context (draw : nat -> N).

Definition nonempty_text (s : option pystr) : option pystr := match s with Some [] => None | s => s end.
Definition nonblank_text (s : option pystr) : option pystr :=
  match s with Some d => if blank d then None else Some d | None => None end.

Definition instance_trace (n : nat) (i : instance) : trace :=
  mk_trace (index (name_of (att "id" (fst i) (py "None"))
                   ++ description_of (nonblank_text (sget (py "description") (fst i)))
                   ++ reference_of (fst i) ++ after_entry (snd i)))
           (number_events draw n (map index (entries i))).
Fixpoint instance_traces (n : nat) (l : list instance) : list trace :=
  match l with
  | [] => []
  | i :: t => instance_trace n i :: instance_traces (n + List.length (entries i)) t
  end.
Definition opt_list {A} (o : option A) : list A := match o with Some a => [a] | None => [] end.
Definition process_log (n : nat) (source : option attr) (atts : sdict pystr) (its : list (attr + instance)) : xlog :=
  mk_log (index (opt_list source ++ name_of (att "id" atts []) ++ [model_attr (py "standard")]
                 ++ description_of (nonempty_text (sget (py "description") atts))
                 ++ reference_of atts ++ log_data its))
         (instance_traces n (kept its))
         [ext_concept; ext_org; ext_lifecycle; ext_semantic; ext_time]
         [mk_cl (py "MXML Legacy Classifier") [py "concept:name"; py "lifecycle:transition"];
          mk_cl (py "Event Name") [py "concept:name"]; mk_cl (py "Resource") [py "org:resource"]]
         [name_attr (py "UNKNOWN")]
         [name_attr (py "UNKNOWN"); transition_attr (py "complete") []]
         [].
Definition process_entries (its : list (attr + instance)) : nat :=
  list_sum (map (fun i => List.length (entries i)) (rights its)).
(** The logs of a document, one for each process; [source] is the last source before. *)
Fixpoint item_logs (n : nat) (source : option attr) (l : list mx_item) : list xlog :=
  match l with
  | [] => []
  | DData _ :: t => item_logs n source t
  | DSource atts data :: t => item_logs n (Some (source_attr atts (data ++ to_source t))) t
  | DProcess atts its :: t => process_log n source atts its :: item_logs (n + process_entries its) source t
  end.
Definition mxml_logs (doc : xnode) : option (list xlog) := option_map (item_logs 0 None) (mxml_items doc).
End Logs.

(** ** The logs made by the parser as trees *)

Definition ref_is (sources : list attr) (r : mref) (a : attr) : Prop :=
  match r with MVal b => b = a | MSource i => nth_error sources i = Some a end.
Definition trace_is (t : mtrace) (u : trace) : Prop :=
  mt_attrs t = tr_attrs u /\ mt_events t = map Some (tr_events u).
Definition log_is (sources : list attr) (m : mlog) (l : xlog) : Prop :=
  Forall2 (fun x y => fst x = fst y /\ ref_is sources (snd x) (snd y)) (ml_attrs m) (lg_attrs l)
  /\ Forall2 trace_is (ml_traces m) (lg_traces l)
  /\ ml_exts m = lg_exts l /\ ml_classifiers m = lg_classifiers l
  /\ ml_gtrace m = lg_gtrace l /\ ml_gevent m = lg_gevent l /\ lg_features l = [].

(** ** Looking things up *)

(** The last attribute with a key. *)
Definition last_with (k : pystr) (l : list attr) : option attr := find (fun a => str_eqb (a_key a) k) (rev l).
(** The processes; the source of each is the last source element before it, with the data it gets. *)
Record proc : Type := mk_proc {
  pr_source : option (sdict pystr * list attr); pr_atts : sdict pystr; pr_items : list (attr + instance)
}.
Fixpoint processes (src : option (sdict pystr * list attr)) (l : list mx_item) : list proc :=
  match l with
  | [] => []
  | DData _ :: t => processes src t
  | DSource atts data :: t => processes (Some (atts, data ++ to_source t)) t
  | DProcess atts its :: t => mk_proc src atts its :: processes src t
  end.
Definition opt_bind {A B} (o : option A) (f : A -> option B) : option B := match o with Some a => f a | None => None end.
(** An attribute of a log. *)
Definition look (sources : list attr) (k : pystr) (m : sdict mref) : option attr :=
  opt_bind (sget k m) (fun r => match r with MVal a => Some a | MSource i => nth_error sources i end).
(** What the parser stores under these keys itself. *)
Definition own_keys : list pystr :=
  [py "concept:name"; py "description"; py "semantic:modelReference"; py "lifecycle:model"; py "source"].

(** ** Entries with any of the four fields *)

Record entry : Type := mk_en {
  en_name : option pystr; en_unknowntype : option pystr; en_type : option pystr;
  en_time : option pystr; en_originator : option pystr
}.
Definition field_elem (t : string) (atts : sdict pystr) (s : option pystr) : list xnode :=
  match s with Some s => [XElem (py t) atts [XText s]] | None => [] end.
Definition entry_elem (e : entry) : xnode :=
  XElem (py "AuditTrailEntry") []
    (field_elem "WorkflowModelElement" [] (en_name e)
     ++ field_elem "EventType" (match en_unknowntype e with Some u => [(py "unknowntype", u)] | None => [] end) (en_type e)
     ++ field_elem "Timestamp" [] (en_time e)
     ++ field_elem "Originator" [] (en_originator e)).
Definition instance_elem (l : list entry) : xnode := XElem (py "ProcessInstance") [] (map entry_elem l).
Definition process_elem (l : list (list entry)) : xnode := XElem (py "Process") [] (map instance_elem l).
Definition document_elem (l : list (list (list entry))) : xnode := XElem (py "WorkflowLog") [] (map process_elem l).

Definition value_is (v : option pyval) (k : string) (m : sdict attr) : Prop := option_map a_val (sget (py k) m) = v.
(** The event of an entry. *)
Definition entry_is (m : sdict attr) (e : entry) : Prop :=
  value_is (option_map PStr (opt_bind (en_name e) trimmed_text)) "concept:name" m
  /\ value_is (option_map PStr (opt_bind (en_type e) (type_value (en_unknowntype e)))) "lifecycle:transition" m
  /\ value_is (option_map (fun o => PStr (match trimmed_text o with Some r => r | None => py "UNKNOWN" end)) (en_originator e))
              "org:resource" m
  /\ value_is (opt_bind (en_time e) (fun t => match parse_date_time (strip t) with Ok (Some d) => Some (PDate d) | _ => None end))
              "time:timestamp" m
  /\ forall k, ~ In k [py "concept:name"; py "lifecycle:transition"; py "org:resource"; py "time:timestamp"] -> sget k m = None.
(** The time stamp does not make the date conversion fail. *)
Definition time_ok (e : entry) : Prop :=
  forall t, en_time e = Some t -> exists d, parse_date_time (strip t) = Ok d.

(** ** What is left of a log after writing and reading it *)

(** The text of an attribute. *)
Definition text_of (k : string) (m : sdict attr) : option pystr :=
  match sget (py k) m with
  | Some a => match a_val a with PStr s => Some s | _ => None end
  | None => None
  end.
Definition known_transition (t : pystr) : Prop :=
  In t [py "schedule"; py "assign"; py "withdraw"; py "reassign"; py "start"; py "suspend"; py "resume";
        py "pi_abort"; py "ate_abort"; py "complete"; py "autoskip"; py "manualskip"].
Definition transition_back (old : option pystr) (t : pystr) : Prop :=
  match old with
  | None => t = py "complete"
  | Some s => known_transition (lower (strip s)) /\ t = lower (strip s)
              \/ ~ known_transition (lower (strip s)) /\ t = py "unknown"
  end.
Definition only_keys (l : list pystr) {V} (m : sdict V) : Prop := forall k, ~ In k l -> sget k m = None.
Definition event_back (m : sdict attr) (e : event) : Prop :=
  value_is (option_map PStr (opt_bind (text_of "concept:name" (ev_attrs e)) trimmed_text)) "concept:name" m
  /\ (exists t, value_is (Some (PStr t)) "lifecycle:transition" m
                /\ transition_back (text_of "lifecycle:transition" (ev_attrs e)) t)
  /\ value_is (option_map PStr (nonempty_text (text_of "semantic:modelReference" (ev_attrs e)))) "semantic:modelReference" m
  /\ only_keys [py "concept:name"; py "lifecycle:transition"; py "semantic:modelReference"] m.
Definition or_none (none : string) (s : option pystr) : pystr := match s with Some s => s | None => py none end.
Definition trace_back (m : sdict attr) (t : trace) : Prop :=
  let name := text_of "concept:name" (tr_attrs t) in
  value_is (option_map PStr (nonblank_text (Some (or_none "None" name)))) "concept:name" m
  /\ value_is (Some (PStr (py "instance with id " ++ or_none "None" name))) "description" m
  /\ value_is (option_map PStr (nonempty_text (text_of "semantic:modelReference" (tr_attrs t)))) "semantic:modelReference" m
  /\ only_keys [py "concept:name"; py "description"; py "semantic:modelReference"] m.
Definition log_value_is (sources : list attr) (v : option pyval) (k : string) (m : mlog) : Prop :=
  option_map a_val (look sources (py k) (ml_attrs m)) = v.
Definition log_back (sources : list attr) (m : mlog) (l : xlog) : Prop :=
  let name := text_of "concept:name" (lg_attrs l) in
  log_value_is sources (option_map PStr (nonblank_text (Some (or_none "none" name)))) "concept:name" m
  /\ log_value_is sources (Some (PStr (py "process with id " ++ or_none "None" name))) "description" m
  /\ log_value_is sources (Some (PStr (py "standard"))) "lifecycle:model" m
  /\ log_value_is sources (Some (PStr (py "XES MXML serialization"))) "source" m
  /\ log_value_is sources (option_map PStr (nonempty_text (text_of "semantic:modelReference" (lg_attrs l)))) "semantic:modelReference" m
  /\ only_keys own_keys (ml_attrs m).
