(** Attribute and log summaries: /repo/src/opyenxes/info/XAttributeInfo.py, XLogInfo.py,
    XLogInfoFactory.py, utils/XAttributeUtils.py, and the info cache of model/XLog.py. *)
From Coq Require Import String NArith ZArith List Bool SpecFloat.
From Verif Require Import Base.PyBase Base.PyDate Base.PyVal Base.PyFloat Model.Attr Model.Log Model.Classify
  Model.TimeBounds.
Import ListNotations.

(** derive_prototype: XAttributeUtils.py:86-116.  [new_id] is the id drawn from XIDFactory.
    For a timestamp the code calls [set_value_millies], a method that does not exist. *)
Definition derive_prototype (new_id : N) (a : attr) : res attr :=
  let! p := attr_clone a in
  let set v := Ok (mk_attr (a_cls p) (a_key p) (a_ext p) v (a_coll p) (a_meta p)) in
  match a_cls p with
  | CList | CContainer => Ok p
  | CLiteral => set (PStr (py "UNKNOWN"))
  | CBoolean => set (PBool true)
  | CContinuous => set (PFloat (S754_zero false))
  | CDiscrete => set (PInt 0)
  | CTimestamp => Raise AttributeError
  | CID => set (PXid new_id)
  end.

(** ** XAttributeInfo *)

(** __init__: XAttributeInfo.py:11-17.  Sets of prototypes are lists. *)
Record ainfo : Type := mk_ai {
  ai_keys : sdict attr;
  ai_types : list (acls * list attr);
  ai_exts : list (xext * list attr);
  ai_noext : list attr;
  ai_freq : sdict nat;
  ai_total : nat
}.
Definition ai_empty : ainfo := mk_ai [] [] [] [] [] 0.

(** register: XAttributeInfo.py:144-161.  [draw] gives the id drawn for the prototype of a
    key (a prototype is derived at most once per key).  derive_prototype is called before
    anything is changed, so a raising call leaves the object as it was.  get_type
    (XAttributeUtils.py:28-55) is the class of the prototype. *)
Definition ai_register (draw : pystr -> N) (i : ainfo) (a : attr) : res ainfo :=
  if smem (a_key a) (ai_keys i) then
    match sget (a_key a) (ai_freq i) with
    | Some n => Ok (mk_ai (ai_keys i) (ai_types i) (ai_exts i) (ai_noext i)
                          (sset (a_key a) (S n) (ai_freq i)) (S (ai_total i)))
    | None => Raise KeyError
    end
  else
    let! p := derive_prototype (draw (a_key a)) a in
    let type_set := match dict_get acls_eqb (a_cls p) (ai_types i) with Some s => s | None => [] end in
    Ok (mk_ai (sset (a_key a) p (ai_keys i)) (dict_set acls_eqb (a_cls p) type_set (ai_types i))
              (ai_exts i) (ai_noext i) (sset (a_key a) 1 (ai_freq i)) (S (ai_total i))).

(** A history of registrations; a raising one leaves the object as it was. *)
Definition ai_run (draw : pystr -> N) (l : list attr) : ainfo :=
  fold_left (fun i a => match ai_register draw i a with Ok i' => i' | Raise _ => i end) l ai_empty.

(** get_attributes, get_attribute_keys: XAttributeInfo.py:19-33. *)
Definition ai_get_attributes (i : ainfo) : list attr := map snd (ai_keys i).
Definition ai_get_keys (i : ainfo) : list pystr := map fst (ai_keys i).
(** get_frequency: XAttributeInfo.py:35-47 (of a key; for an attribute, of its key). *)
Definition ai_frequency (i : ainfo) (k : pystr) : option nat := sget k (ai_freq i).
(** get_relative_frequency: XAttributeInfo.py:49-61.  [None / n] is a TypeError. *)
Definition ai_relative (i : ainfo) (k : pystr) : res spec_float :=
  match sget k (ai_freq i) with
  | Some n => Ok (int_div (Z.of_nat n) (Z.of_nat (ai_total i)))
  | None => Raise TypeError
  end.
(** get_attributes_for_type, get_keys_for_type: XAttributeInfo.py:63-93. *)
Definition ai_for_type (i : ainfo) (c : acls) : list attr :=
  match dict_get acls_eqb c (ai_types i) with Some s => s | None => [] end.
Definition ai_keys_for_type (i : ainfo) (c : acls) : list pystr := map a_key (ai_for_type i c).
(** get_attributes_for_extension, get_keys_for_extension, ..._without_extension:
    XAttributeInfo.py:95-142. *)
Definition ai_without_extension (i : ainfo) : list attr := ai_noext i.
Definition ai_for_extension (i : ainfo) (e : option xext) : list attr :=
  match e with
  | None => ai_without_extension i
  | Some x => match dict_get xext_eqb x (ai_exts i) with Some s => s | None => [] end
  end.
Definition ai_keys_for_extension (i : ainfo) (e : option xext) : list pystr := map a_key (ai_for_extension i e).

(** ** XLogInfo *)

Inductive level : Type := LvLog | LvTrace | LvEvent | LvMeta.

(** The dictionary of event classes: keys compare with [cl_eqb]
    (classifiers hash consistently, see C14). *)
Definition classes : Type := list (classifier * cmap).

(** __init__: XLogInfo.py:46-68.  The dictionary of trace boundaries (line 60) is
    in Model/TraceBounds.v: its keys are traces, whose hash value changes from call to call. *)
Record linfo : Type := mk_li {
  li_default : classifier;
  li_classes : classes;
  li_events : nat;
  li_traces : nat;
  li_bounds : tbounds;
  li_log : ainfo;
  li_trace : ainfo;
  li_event : ainfo;
  li_meta : ainfo
}.

Definition li_info (lv : level) (s : linfo) : ainfo :=
  match lv with LvLog => li_log s | LvTrace => li_trace s | LvEvent => li_event s | LvMeta => li_meta s end.
Definition set_info (lv : level) (i : ainfo) (s : linfo) : linfo :=
  let '(mk_li d c e t b l r v m) := s in
  match lv with
  | LvLog => mk_li d c e t b i r v m
  | LvTrace => mk_li d c e t b l i v m
  | LvEvent => mk_li d c e t b l r i m
  | LvMeta => mk_li d c e t b l r v i
  end.
Definition inc_events (s : linfo) : linfo :=
  let '(mk_li d c e t b l r v m) := s in mk_li d c (S e) t b l r v m.
Definition inc_traces (s : linfo) : linfo :=
  let '(mk_li d c e t b l r v m) := s in mk_li d c e (S t) b l r v m.
Definition set_classes (c : classes) (s : linfo) : linfo :=
  let '(mk_li d _ e t b l r v m) := s in mk_li d c e t b l r v m.
Definition set_bounds (b : tbounds) (s : linfo) : linfo :=
  let '(mk_li d c e t _ l r v m) := s in mk_li d c e t b l r v m.

Section WithFloatIO.
Context `{FIO : FloatIO}.
Variable draw : level -> pystr -> N.

(** register_attributes: XLogInfo.py:97-109, for one attribute of the map: register it,
    then its own attributes on the meta level. *)
Fixpoint reg_attr (lv : level) (s : linfo) (a : attr) : res linfo :=
  match a with
  | mk_attr _ _ _ _ _ meta =>
      let! i := ai_register (draw lv) (li_info lv s) a in
      let fix loop (m : list (pystr * attr)) (s : linfo) : res linfo :=
        match m with
        | [] => Ok s
        | (_, x) :: t => match reg_attr LvMeta s x with
                         | Ok s' => loop t s'
                         | Raise e => Raise e
                         end
        end in
      loop meta (set_info lv i s)
  end.
Definition reg_attrs (lv : level) (m : sdict attr) (s : linfo) : res linfo :=
  fold_res (fun s kv => reg_attr lv s (snd kv)) m s.

(** The loop of XLogInfo.py:86-87. *)
Fixpoint reg_classes (cs : classes) (e : event) : res classes :=
  match cs with
  | [] => Ok []
  | (cl, m) :: t => let! m' := register_event cl m e in
                    let! t' := reg_classes t e in
                    Ok ((cl, m') :: t')
  end.

(** [XTimeBounds.register] as a step of a computation. *)
Definition tb_reg (b : tbounds) (x : relem) : res tbounds :=
  match tb_register b x with
  | (b', Ok _) => Ok b'
  | (_, Raise e) => Raise e
  end.

(** The body of the event loop: XLogInfo.py:82-89. *)
Definition reg_event (sb : linfo * tbounds) (e : event) : res (linfo * tbounds) :=
  let '(s, tb) := sb in
  let s := inc_events s in
  let! s := reg_attrs LvEvent (ev_attrs e) s in
  let! cs := reg_classes (li_classes s) e in
  let s := set_classes cs s in
  let! tb := tb_reg tb (REvent e) in
  Ok (s, tb).

(** The body of the trace loop: XLogInfo.py:77-92. *)
Definition reg_trace (s : linfo) (t : trace) : res linfo :=
  let s := inc_traces s in
  let! s := reg_attrs LvTrace (tr_attrs t) s in
  let! sb := fold_res reg_event (tr_events t) (s, tb_empty) in
  let '(s, tb) := sb in
  let! b := tb_reg (li_bounds s) (RBounds tb) in
  Ok (set_bounds b s).

(** The dictionary built in XLogInfo.py:51-58. *)
Definition init_classes (default : classifier) (extra : list classifier) : classes :=
  fold_left (fun d c => dict_set cl_eqb c [] d)
    (extra ++ [default; name_classifier; resource_classifier; lifetrans_classifier]) [].

(** __init__ and setup: XLogInfo.py:46-95. *)
Definition make_info (l : xlog) (default : classifier) (extra : list classifier) : res linfo :=
  let s := mk_li default (init_classes default extra) 0 0 tb_empty ai_empty ai_empty ai_empty ai_empty in
  let! s := reg_attrs LvLog (lg_attrs l) s in
  let! s := fold_res reg_trace (lg_traces l) s in
  Ok (set_classes (map (fun cm => (fst cm, harmonize (snd cm))) (li_classes s)) s).

(** create: XLogInfo.py:28-44. *)
Definition create_info (l : xlog) (default : option classifier) (extra : list classifier) : res linfo :=
  match default with
  | None => make_info l standard_classifier extra
  | Some c => make_info l c extra
  end.

(** get_event_classes: XLogInfo.py:135-151. *)
Definition get_event_classes (s : linfo) (c : option classifier) : option cmap :=
  match c with
  | None => dict_get cl_eqb (li_default s) (li_classes s)
  | Some c => dict_get cl_eqb c (li_classes s)
  end.
(** get_event_classifiers: XLogInfo.py:153-160 (a set; here in dictionary order). *)
Definition get_event_classifiers (s : linfo) : list classifier := map fst (li_classes s).
(** get_resource_classes, get_name_classes, get_transition_classes: XLogInfo.py:162-184. *)
Definition get_resource_classes (s : linfo) := dict_get cl_eqb resource_classifier (li_classes s).
Definition get_name_classes (s : linfo) := dict_get cl_eqb name_classifier (li_classes s).
Definition get_transition_classes (s : linfo) := dict_get cl_eqb lifetrans_classifier (li_classes s).

(** ** The cache *)

(** A log with its cached info (XLog.py:18-19) and all the info objects created so far; an
    info object is its position in [w_infos]. *)
Record world : Type := mk_world {
  w_log : xlog;
  w_cache : option (classifier * nat);
  w_infos : list linfo
}.

(** get_info: XLog.py:115-125.  A classifier is not equal to the initial [None]. *)
Definition get_info (w : world) (c : classifier) : option nat :=
  match w_cache w with
  | Some (c', i) => if cl_eqb c c' then Some i else None
  | None => None
  end.

(** create_log_info: XLogInfoFactory.py:8-26, with set_info (XLog.py:104-113). *)
Definition create_log_info (w : world) (c : option classifier) : world * res nat :=
  let c := match c with None => standard_classifier | Some c => c end in
  match get_info w c with
  | Some i => (w, Ok i)
  | None =>
      match create_info (w_log w) (Some c) [] with
      | Ok s => let i := List.length (w_infos w) in
                (mk_world (w_log w) (Some (c, i)) (w_infos w ++ [s]), Ok i)
      | Raise x => (w, Raise x)
      end
  end.

(** Any change of the log's content. *)
Definition edit_log (w : world) (l : xlog) : world := mk_world l (w_cache w) (w_infos w).
(** The clone of a log (XLog.py:23-41) has content [l] and no cached info. *)
Definition clone_log (w : world) (l : xlog) : world := mk_world l None (w_infos w).

End WithFloatIO.
