(** Event classification: /repo/src/opyenxes/classification/. *)
From Coq Require Import String NArith ZArith List Bool.
From Verif Require Import Base.PyBase Base.PyDate Base.PyVal Model.Attr Model.Log.
Import ListNotations.
Local Open Scope Z_scope.

(** [sorted(l)] for a list of texts: insertion sort; for a total order every stable sort
    gives the same list. *)
Fixpoint insert_str (x : pystr) (l : list pystr) : list pystr :=
  match l with
  | [] => [x]
  | y :: t => match str_cmp x y with Gt => y :: insert_str x t | _ => x :: l end
  end.
Definition sorted_strs (l : list pystr) : list pystr := fold_right insert_str [] l.

Section WithFloatIO.
Context `{FIO : FloatIO}.

(** The loop of XEventAttributeClassifier.py:46-50: texts of the attributes present. *)
Fixpoint present_texts (keys : list pystr) (m : sdict attr) : res (list pystr) :=
  match keys with
  | [] => Ok []
  | k :: ks => match sget k m with
               | Some a => let! s := attr_str a in
                           let! r := present_texts ks m in Ok (s :: r)
               | None => present_texts ks m
               end
  end.

(** get_class_identity: XEventAttributeClassifier.py:18-52.  (Attribute objects are always
    true in a boolean context.) *)
Definition class_identity (c : classifier) (e : event) : res pystr :=
  match cl_keys c with
  | [k] =>                                              (* lines 26-30 *)
      match sget k (ev_attrs e) with
      | Some a => attr_str a
      | None => Ok []
      end
  | [k1; k2] =>                                         (* lines 32-43 *)
      match sget k1 (ev_attrs e), sget k2 (ev_attrs e) with
      | Some a, Some b => let! s := attr_str a in let! t := attr_str b in Ok (s ++ py "&&" ++ t)
      | Some a, None => let! s := attr_str a in Ok (s ++ py "&&")
      | None, Some b => let! t := attr_str b in Ok (py "&&" ++ t)
      | None, None => Ok (py "&&")
      end
  | ks =>                                               (* lines 45-52 *)
      let! l := present_texts ks (ev_attrs e) in Ok (join (py "&&") l)
  end.

(** same_event_class: XEventAttributeClassifier.py:70-83. *)
Definition same_event_class (c : classifier) (a b : event) : res bool :=
  let! x := class_identity c a in
  let! y := class_identity c b in
  Ok (str_eqb x y).

(** compare_to on two texts that are not equal or equal: CompareUtils.py:1-13. *)
Definition str_compare_to (a b : pystr) : Z :=
  match str_cmp a b with Lt => -1 | Eq => 0 | Gt => 1 end.

(** The loop of XEventAttributeClassifier.py:110-113 over [zip] of two key lists. *)
Fixpoint keys_compare (a b : list pystr) : Z :=
  match a, b with
  | x :: s, y :: t => if str_eqb x y then keys_compare s t else str_compare_to x y
  | _, _ => 0
  end.

(** compare_to: XEventAttributeClassifier.py:96-113. *)
Definition cl_compare (a b : classifier) : Z :=
  if negb (str_eqb (cl_name a) (cl_name b)) then str_compare_to (cl_name a) (cl_name b)
  else if negb (Nat.eqb (List.length (cl_keys a)) (List.length (cl_keys b)))
  then Z.of_nat (List.length (cl_keys a)) - Z.of_nat (List.length (cl_keys b))
  else keys_compare (cl_keys a) (cl_keys b).

(** The operators: XEventAttributeClassifier.py:121-139 (for two classifiers). *)
Definition cl_lt a b := cl_compare a b <? 0.
Definition cl_le a b := cl_compare a b <=? 0.
Definition cl_eqb a b := cl_compare a b =? 0.
Definition cl_gt a b := 0 <? cl_compare a b.
Definition cl_ge a b := 0 <=? cl_compare a b.

(** __hash__: XEventAttributeClassifier.py:118-119, as a function of the built-in hash of a
    key tuple [hk] and of a text [hs]. *)
Definition cl_hash (hk : list pystr -> Z) (hs : pystr -> Z) (c : classifier) : Z :=
  (31 + hk (cl_keys c)) * 31 + hs (cl_name c).

(** ** XEventAndClassifier *)

(** The loops of XEventAndClassifier.py:23-25 and 31-33. *)
Definition add_keys (acc : list pystr) (ks : list pystr) : list pystr :=
  fold_left (fun l k => if existsb (str_eqb k) l then l else l ++ [k]) ks acc.

(** __init__: XEventAndClassifier.py:15-37. *)
Definition and_classifier (cs : list classifier) : res classifier :=
  match cs with
  | [] => Raise ValueError
  | c :: rest =>
      let keys := fold_left (fun acc d => add_keys acc (cl_keys d)) rest (add_keys [] (cl_keys c)) in
      let name := fold_left (fun sb d => sb ++ py " AND " ++ cl_name d) rest (py "(" ++ cl_name c) in
      Ok (mk_cl (name ++ py ")") (sorted_strs keys))
  end.

(** The fixed classifiers: XEventNameClassifier.py:8-9, XEventResourceClassifier.py:9-10,
    XEventLifeTransClassifier.py:10-11, XLogInfo.STANDARD_CLASSIFIER (info/XLogInfo.py:23). *)
Definition name_classifier := mk_cl (py "Event Name") [py "concept:name"].
Definition resource_classifier := mk_cl (py "Resource") [py "org:resource"].
Definition lifetrans_classifier := mk_cl (py "Lifecycle transition") [py "lifecycle:transition"].
Definition standard_classifier :=
  mk_cl (py "MXML Legacy Classifier") [py "concept:name"; py "lifecycle:transition"].

(** ** XEventClass and XEventClasses *)

(** XEventClass.__init__: XEventClass.py:15-18. *)
Record eclass : Type := mk_ec { ec_id : pystr; ec_index : nat; ec_size : nat }.

(** compare_to: XEventClass.py:62-71; the operators: 79-83, 95-99, and for two event classes
    85-93; __hash__, as a function of the built-in hash of a text: 76-77; __str__: 73-74. *)
Definition ec_compare (a b : eclass) : Z := str_compare_to (ec_id a) (ec_id b).
Definition ec_lt a b := ec_compare a b <? 0.
Definition ec_le a b := ec_compare a b <=? 0.
Definition ec_gt a b := 0 <? ec_compare a b.
Definition ec_ge a b := 0 <=? ec_compare a b.
Definition ec_eqb (a b : eclass) : bool := str_eqb (ec_id a) (ec_id b).
Definition ec_ne (a b : eclass) : bool := negb (ec_eqb a b).
Definition ec_hash (hs : pystr -> Z) (c : eclass) : Z := hs (ec_id c).
Definition ec_str (c : eclass) : pystr := ec_id c.

(** The class map of XEventClasses (XEventClasses.py:19-21). *)
Definition cmap : Type := sdict eclass.

(** register(str): XEventClasses.py:110-117. *)
Definition register_id (m : cmap) (id : pystr) : cmap :=
  match sget id m with
  | None => sset id (mk_ec id (List.length m) 1) m
  | Some c => sset id (mk_ec (ec_id c) (ec_index c) (S (ec_size c))) m
  end.

(** register(event): XEventClasses.py:108-109. *)
Definition register_event (cl : classifier) (m : cmap) (e : event) : res cmap :=
  let! id := class_identity cl e in Ok (register_id m id).

(** register(trace), register(log): XEventClasses.py:105-107. *)
Definition register_trace (cl : classifier) (m : cmap) (t : trace) : res cmap :=
  fold_res (register_event cl) (tr_events t) m.
Definition register_log (cl : classifier) (m : cmap) (l : xlog) : res cmap :=
  fold_res (register_trace cl) (lg_traces l) m.

(** [sorted] on event classes (XEventClass.__lt__ compares identities, XEventClass.py:62-80). *)
Fixpoint insert_class (x : eclass) (l : list eclass) : list eclass :=
  match l with
  | [] => [x]
  | y :: t => match str_cmp (ec_id x) (ec_id y) with Gt => y :: insert_class x t | _ => x :: l end
  end.
Definition sorted_classes (l : list eclass) : list eclass := fold_right insert_class [] l.

(** harmonize_indices: XEventClasses.py:122-137. *)
Fixpoint harmonize_from (i : nat) (l : list eclass) (m : cmap) : cmap :=
  match l with
  | [] => m
  | c :: t => harmonize_from (S i) t (sset (ec_id c) (mk_ec (ec_id c) i (ec_size c)) m)
  end.
Definition harmonize (m : cmap) : cmap := harmonize_from 0 (sorted_classes (map snd m)) [].

(** derive_event_classes: XEventClasses.py:23-37. *)
Definition derive_event_classes (cl : classifier) (l : xlog) : res cmap :=
  let! m := register_log cl [] l in Ok (harmonize m).

(** get_class_of, get_by_identity: XEventClasses.py:56-79. *)
Definition get_class_of (cl : classifier) (m : cmap) (e : event) : res (option eclass) :=
  let! id := class_identity cl e in Ok (sget id m).
Definition get_by_identity (m : cmap) (id : pystr) : option eclass := sget id m.

(** get_by_index: XEventClasses.py:81-93. *)
Definition get_by_index (m : cmap) (i : nat) : option eclass :=
  find (fun c => Nat.eqb (ec_index c) i) (map snd m).

(** A set of event classes as an object: its classifier and its map.  __eq__ for two of them,
    __str__, __len__: XEventClasses.py:139-151. *)
Record eclasses : Type := mk_ecs { ecs_classifier : classifier; ecs_map : cmap }.
Definition ecs_eqb (a b : eclasses) : bool := cl_eqb (ecs_classifier a) (ecs_classifier b).
Definition ecs_str (a : eclasses) : pystr := py "Event classes defined by " ++ cl_name (ecs_classifier a).
Definition ecs_len (a : eclasses) : nat := List.length (ecs_map a).
(** derive_event_classes: XEventClasses.py:23-37. *)
Definition derived (cl : classifier) (l : xlog) : res eclasses :=
  let! m := derive_event_classes cl l in Ok (mk_ecs cl m).

End WithFloatIO.
