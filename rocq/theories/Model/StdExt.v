(** The standard extensions: /repo/src/opyenxes/extension/std.  An element is given by its
    attribute map; setters return the new map, or an exception. *)
From Coq Require Import String NArith ZArith List Bool SpecFloat.
From Verif Require Import Base.PyBase Base.PyDate Base.PyVal Model.Attr.
Import ListNotations.

(** The three fields given to XExtension.__init__ in XConceptExtension.py:17,
    XOrganizationalExtension.py:19, XLifecycleExtension.py:65, XSemanticExtension.py:16,
    XTimeExtension.py:18, XCostExtension.py:104, XIdentityExtension.py:16,
    XMicroExtension.py:16. *)
Definition ext_concept : xext := mk_xext (py "Concept") (py "concept") (py "http://www.xes-standard.org/concept.xesext").
Definition ext_org : xext := mk_xext (py "Organizational") (py "org") (py "http://www.xes-standard.org/org.xesext").
Definition ext_lifecycle : xext := mk_xext (py "Lifecycle") (py "lifecycle") (py "http://www.xes-standard.org/lifecycle.xesext").
Definition ext_semantic : xext := mk_xext (py "Semantic") (py "semantic") (py "http://www.xes-standard.org/semantic.xesext").
Definition ext_time : xext := mk_xext (py "Time") (py "time") (py "http://www.xes-standard.org/time.xesext").
Definition ext_cost : xext := mk_xext (py "Cost") (py "cost") (py "http://www.xes-standard.org/cost.xesext").
Definition ext_identity : xext := mk_xext (py "Identity") (py "identity") (py "http://www.xes-standard.org/identity.xesext").
Definition ext_micro : xext := mk_xext (py "Micro") (py "micro") (py "http://www.xes-standard.org/micro.xesext").

(** A clone of one of the templates ATTR_..., with its value set.  Literals:
    XAttributeLiteral.py:27-44; time stamps: XAttributeTimestamp.py:38-57. *)
Definition literal (k : pystr) (x : option xext) (v : pystr) (meta : sdict attr) : attr :=
  mk_attr CLiteral k x (PStr v) [] meta.
Definition attr_name (v : pystr) : attr := literal (py "concept:name") (Some ext_concept) v [].
Definition attr_transition (v : pystr) (meta : sdict attr) : attr :=
  literal (py "lifecycle:transition") (Some ext_lifecycle) v meta.
Definition attr_model (v : pystr) : attr := literal (py "lifecycle:model") (Some ext_lifecycle) v [].
Definition attr_resource (v : pystr) (meta : sdict attr) : attr := literal (py "org:resource") (Some ext_org) v meta.
Definition attr_reference (v : pystr) : attr := literal (py "semantic:modelReference") (Some ext_semantic) v [].
Definition attr_timestamp (d : datetime) : attr :=
  mk_attr CTimestamp (py "time:timestamp") (Some ext_time) (PDate d) [] [].

(** [x is not None and len(x.strip()) > 0] *)
Definition nonblank (s : pystr) : bool := match strip s with [] => false | _ => true end.

(** ** The templates ATTR_... *)

(** XConceptExtension.py:19-20. *)
Definition ATTR_NAME := mk_attr CLiteral (py "concept:name") (Some ext_concept) (PStr (py "UNKNOWN")) [] [].
Definition ATTR_INSTANCE := mk_attr CLiteral (py "concept:instance") (Some ext_concept) (PStr (py "UNKNOWN")) [] [].
(** XOrganizationalExtension.py:22-24. *)
Definition ATTR_RESOURCE := mk_attr CLiteral (py "org:resource") (Some ext_org) (PStr (py "UNKNOWN")) [] [].
Definition ATTR_ROLE := mk_attr CLiteral (py "org:role") (Some ext_org) (PStr (py "UNKNOWN")) [] [].
Definition ATTR_GROUP := mk_attr CLiteral (py "org:group") (Some ext_org) (PStr (py "UNKNOWN")) [] [].
(** XLifecycleExtension.py:67-68. *)
Definition ATTR_MODEL := mk_attr CLiteral (py "lifecycle:model") (Some ext_lifecycle) (PStr (py "standart")) [] [].
Definition ATTR_TRANSITION := mk_attr CLiteral (py "lifecycle:transition") (Some ext_lifecycle) (PStr (py "complete")) [] [].
(** XSemanticExtension.py:19. *)
Definition ATTR_MODELREFERENCE :=
  mk_attr CLiteral (py "semantic:modelReference") (Some ext_semantic) (PStr (py "UNKNOWN")) [] [].
(** XCostExtension.py:107-111. *)
Definition ATTR_TOTAL := mk_attr CContinuous (py "cost:total") (Some ext_cost) (PFloat (S754_zero false)) [] [].
Definition ATTR_CURRENCY := mk_attr CLiteral (py "cost:currency") (Some ext_cost) (PStr (py "UNKNOWN")) [] [].
Definition ATTR_AMOUNT := mk_attr CContinuous (py "cost:amount") (Some ext_cost) (PFloat (S754_zero false)) [] [].
Definition ATTR_DRIVER := mk_attr CLiteral (py "cost:driver") (Some ext_cost) (PStr (py "UNKNOWN")) [] [].
Definition ATTR_TYPE := mk_attr CLiteral (py "cost:type") (Some ext_cost) (PStr (py "UNKNOWN")) [] [].
(** XIdentityExtension.py:18, XMicroExtension.py:19-21.  Simplification: the random value of
    the two ID templates is taken to be 0; every use replaces it. *)
Definition ATTR_ID := mk_attr CID (py "identity:id") (Some ext_identity) (PXid 0) [] [].
Definition ATTR_LEVEL := mk_attr CDiscrete (py "micro:level") (Some ext_micro) (PInt (-1)) [] [].
Definition ATTR_PID := mk_attr CID (py "micro:parentId") (Some ext_micro) (PXid 0) [] [].
Definition ATTR_LENGTH := mk_attr CDiscrete (py "micro:length") (Some ext_micro) (PInt (-1)) [] [].
(** XTimeExtension.py:21.  Simplification: the template's value, the local time of the epoch,
    is taken in UTC; every use replaces it. *)
Definition ATTR_TIMESTAMP :=
  mk_attr CTimestamp (py "time:timestamp") (Some ext_time) (PDate (mk_dt 1970 1 1 0 0 0 0 None)) [] [].

(** ** Setters and getters *)

(** set_value of an attribute with a value, e.g. XAttributeLiteral.py:27-33. *)
Definition set_value (a : attr) (v : pyval) : attr :=
  mk_attr (a_cls a) (a_key a) (a_ext a) v (a_coll a) (a_meta a).

(** [attr = TEMPLATE.clone(); attr.set_value(v); element.get_attributes()[key] = attr] *)
Definition store (template : attr) (key : pystr) (v : pyval) (m : sdict attr) : res (sdict attr) :=
  let! a := attr_clone template in Ok (sset key (set_value a v) m).

(** [attribute = element.get_attributes().get(key)], [attribute.get_value()] if there is one,
    otherwise [absent].  (An attribute is true in a boolean context.) *)
Definition fetch (key : pystr) (absent : pyval) (m : sdict attr) : res pyval :=
  match sget key m with
  | Some a => get_value a
  | None => Ok absent
  end.

(** [x is not None and len(x.strip()) > 0]: AttributeError if [x] has no [strip]. *)
Definition usable (v : pyval) : res bool :=
  match v with
  | PNone => Ok false
  | PStr s => Ok (nonblank s)
  | _ => Raise AttributeError
  end.
(** [v.strip()] *)
Definition stripped (v : pyval) : res pyval :=
  match v with PStr s => Ok (PStr (strip s)) | _ => Raise AttributeError end.

Definition setter : Type := pyval -> sdict attr -> res (sdict attr).
Definition getter : Type := sdict attr -> res pyval.

(** The setters that store a text as it is. *)
Definition assign_text (template : attr) (key : pystr) : setter := fun v m =>
  let! b := usable v in if b then store template key v m else Ok m.
(** The setters that store a text stripped. *)
Definition assign_stripped (template : attr) (key : pystr) : setter := fun v m =>
  let! b := usable v in
  if b then (let! s := stripped v in store template key s m) else Ok m.
(** The setters for positive amounts: [x is not None and x > 0]. *)
Definition assign_positive (template : attr) (key : pystr) : setter := fun v m =>
  match v with
  | PNone => Ok m
  | _ => let! b := py_gt v (PInt 0) in if b then store template key v m else Ok m
  end.

(** XConceptExtension.extract_name, assign_name: XConceptExtension.py:36-63. *)
Definition extract_name : getter := fetch (py "concept:name") PNone.
Definition assign_name : setter := assign_text ATTR_NAME (py "concept:name").
(** extract_instance, assign_instance: XConceptExtension.py:65-92 (stored as "concept:name",
    line 92). *)
Definition extract_instance : getter := fetch (py "concept:instance") PNone.
Definition assign_instance : setter := assign_text ATTR_INSTANCE (py "concept:name").

(** XOrganizationalExtension.py:45-70, 72-97, 99-124. *)
Definition extract_resource : getter := fetch (py "org:resource") PNone.
Definition assign_resource : setter := assign_text ATTR_RESOURCE (py "org:resource").
Definition extract_role : getter := fetch (py "org:role") PNone.
Definition assign_role : setter := assign_text ATTR_ROLE (py "org:role").
Definition extract_group : getter := fetch (py "org:group") PNone.
Definition assign_group : setter := assign_text ATTR_GROUP (py "org:group").

(** XLifecycleExtension.py:82-107, 123-136, 152-163. *)
Definition extract_model : getter := fetch (py "lifecycle:model") PNone.
Definition assign_model : setter := assign_stripped ATTR_MODEL (py "lifecycle:model").
Definition extract_transition : getter := fetch (py "lifecycle:transition") PNone.
Definition assign_transition : setter := assign_stripped ATTR_TRANSITION (py "lifecycle:transition").
(** uses_standard_model: XLifecycleExtension.py:109-121. *)
Definition uses_standard_model (m : sdict attr) : res bool :=
  let! v := extract_model m in
  match v with
  | PNone => Ok false
  | PStr s => Ok (str_eqb (strip s) (py "standard"))
  | _ => Raise AttributeError
  end.

(** StandardModel.values, decode: XLifecycleExtension.py:21-62. *)
Definition lifecycle_values : list pystr :=
  [py "schedule"; py "assign"; py "withdraw"; py "reassign"; py "start"; py "suspend"; py "resume";
   py "pi_abort"; py "ate_abort"; py "complete"; py "autoskip"; py "manualskip"; py "unknown"].
Definition decode (s : pystr) : pystr :=
  match find (str_eqb (lower (strip s))) lifecycle_values with
  | Some e => e
  | None => py "unknown"
  end.
Definition decode_val (v : pyval) : res pyval :=
  match v with PStr s => Ok (PStr (decode s)) | _ => Raise AttributeError end.
(** extract_standard_transition: XLifecycleExtension.py:138-150. *)
Definition extract_standard_transition : getter := fun m =>
  let! v := extract_transition m in
  match v with PNone => Ok PNone | _ => decode_val v end.
(** assign_standard_transition: XLifecycleExtension.py:165-173. *)
Definition assign_standard_transition : setter := fun v m =>
  let! d := decode_val v in assign_transition d m.

(** XCostExtension.py:127-154, 156-183 (stored as "concept:name", line 183), 185-198 and
    268-280, 349-362 and 388-400, 430-443 and 469-481 (stores the built-in [type], line 480). *)
Definition extract_total : getter := fetch (py "cost:total") PNone.
Definition assign_total : setter := assign_positive ATTR_TOTAL (py "cost:total").
Definition extract_currency : getter := fetch (py "cost:currency") PNone.
Definition assign_currency : setter := assign_text ATTR_CURRENCY (py "concept:name").
Definition extract_amount : getter := fetch (py "cost:amount") PNone.
Definition assign_amount : setter := assign_positive ATTR_AMOUNT (py "cost:amount").
Definition extract_driver : getter := fetch (py "cost:driver") PNone.
Definition assign_driver : setter := assign_text ATTR_DRIVER (py "cost:driver").
Definition extract_type : getter := fetch (py "cost:type") PNone.
Definition assign_type : setter := fun v m =>
  let! b := usable v in if b then store ATTR_TYPE (py "cost:type") PTypeObj m else Ok m.

(** XIdentityExtension.py:44-57, 59-71; extract_name, lines 30-42, does the same as extract_id. *)
Definition extract_id : getter := fetch (py "identity:id") PNone.
Definition assign_id : setter := fun v m =>
  match v with PNone => Ok m | _ => store ATTR_ID (py "identity:id") v m end.

(** XMicroExtension.py:31-44, 46-58, 60-68. *)
Definition extract_level : getter := fetch (py "micro:level") (PInt (-1)).
Definition assign_level : setter := fun v m =>
  let! b := py_gt v (PInt 0) in if b then store ATTR_LEVEL (py "micro:level") v m else Ok m.
Definition remove_key (key : pystr) (m : sdict attr) : sdict attr := if smem key m then sdel key m else m.
Definition remove_level : sdict attr -> sdict attr := remove_key (py "micro:level").
(** extract_parent_id: XMicroExtension.py:70-83 (subscript: KeyError when absent). *)
Definition extract_parent_id : getter := fun m =>
  match sget (py "micro:parentId") m with
  | Some a => get_value a
  | None => Raise KeyError
  end.
(** assign_parent_id: XMicroExtension.py:85-100; XAttributeID has no [setValue] (line 96). *)
Definition assign_parent_id : setter := fun v m =>
  match v with
  | PNone => Ok (remove_key (py "micro:parentId") m)
  | _ => Raise AttributeError
  end.
(** XMicroExtension.py:102-110, 112-127, 129-141, 143-151. *)
Definition remove_parent_id : sdict attr -> sdict attr := remove_key (py "micro:parentId").
Definition extract_length : getter := fetch (py "micro:length") PNone.
Definition assign_length : setter := fun v m =>
  let! b := py_ge v (PInt 0) in if b then store ATTR_LENGTH (py "micro:length") v m else Ok m.
Definition remove_length : sdict attr -> sdict attr := remove_key (py "micro:length").

(** ** Time stamps *)

(** The local clock (library behaviour, depends on the machine's time zone):
    [time.mktime(d.timetuple()) * 1000] and [datetime.fromtimestamp(x / 1000.0)] for a
    number [x]. *)
Class Clock : Type := {
  mktime_ms : datetime -> res pyval;
  from_ms : pyval -> res datetime
}.
(** extract_timestamp: XTimeExtension.py:31-44. *)
Definition extract_timestamp : getter := fetch (py "time:timestamp") (PInt (-1)).
(** assign_timestamp: XTimeExtension.py:46-62; set_value_millis: XAttributeTimestamp.py:46-47.
    Dividing anything but a number raises TypeError. *)
Definition assign_timestamp `{Clock} : setter := fun v m =>
  let! aux := match v with PDate d => mktime_ms d | _ => Ok v end in
  let! d := match num_of aux with Some _ => from_ms aux | None => Raise TypeError end in
  store ATTR_TIMESTAMP (py "time:timestamp") (PDate d) m.

(** ** Model references *)

(** extract_model_references: XSemanticExtension.py:32-53; the separator is a backslash
    followed by the letter s. *)
Definition extract_model_references (m : sdict attr) : res (list pystr) :=
  match sget (py "semantic:modelReference") m with
  | None => Ok []
  | Some a =>
      let! v := get_value a in
      match v with
      | PStr s => Ok (map lower (split (py "\s") (lower s)))
      | _ => Raise AttributeError
      end
  end.
(** extract_model_reference_uris: XSemanticExtension.py:55-71.  [urlparse] is a library function;
    [None] stands for its ValueError. *)
Definition extract_model_reference_uris {U} (urlparse : pystr -> option U) (m : sdict attr) : res (list U) :=
  let! l := extract_model_references m in
  map_res (fun r => match urlparse r with Some u => Ok u | None => Raise ValueError end) l.

Definition text_of (v : pyval) : res pystr :=
  match v with PStr s => Ok s | _ => Raise TypeError end.
(** assign_model_references: XSemanticExtension.py:73-93; [join] raises TypeError for anything
    but text. *)
Definition assign_model_references (refs : list pyval) (m : sdict attr) : res (sdict attr) :=
  let! parts := map_res text_of refs in
  let aux := flat_map (fun r => r ++ py " ") parts in
  match lower aux with
  | [] => Ok m
  | _ => store ATTR_MODELREFERENCE (py "semantic:modelReference") (PStr aux) m
  end.
(** assign_model_reference_uris: XSemanticExtension.py:95-115, [geturl] being a library function. *)
Definition assign_model_reference_uris {U} (geturl : U -> pystr) (refs : list U) (m : sdict attr) : res (sdict attr) :=
  assign_model_references (map (fun u => PStr (geturl u)) refs) m.

(** ** XExtendedEvent: extension/std/XExtendedEvent.py *)

(** set_resource, set_role, set_group: XExtendedEvent.py:97-104, 115-122, 133-140. *)
Definition lowered (v : pyval) : res pyval :=
  match v with PStr s => Ok (PStr (lower s)) | _ => Raise AttributeError end.
Definition xe_set_resource : setter := fun v m => let! w := lowered v in assign_resource w m.
Definition xe_set_role : setter := fun v m => let! w := lowered v in assign_role w m.
Definition xe_set_group : setter := fun v m => let! w := lowered v in assign_group w m.
