(** Vocabulary for statements about summaries. *)
From Coq Require Import String NArith ZArith List Bool SpecFloat.
From Verif Require Import Base.PyBase Base.PyDate Base.PyVal Model.Attr Model.Log Model.Classify Model.TimeBounds
  Model.LogInfo Spec.Typing Spec.Time.
Import ListNotations.

(** The attributes nested below an attribute, each before its own nested ones. *)
Fixpoint nested (a : attr) : list attr :=
  match a with
  | mk_attr _ _ _ _ _ meta =>
      (fix go (m : list (pystr * attr)) : list attr :=
         match m with
         | [] => []
         | (_, x) :: t => (x :: nested x) ++ go t
         end) meta
  end.

Definition nested_in (m : sdict attr) : list attr := flat_map (fun kv => nested (snd kv)) m.

(** The attributes of a log on the four levels. *)
Definition at_level (lv : level) (l : xlog) : list attr :=
  match lv with
  | LvLog => map snd (lg_attrs l)
  | LvTrace => flat_map (fun t => map snd (tr_attrs t)) (lg_traces l)
  | LvEvent => flat_map (fun e => map snd (ev_attrs e)) (log_events l)
  | LvMeta => nested_in (lg_attrs l)
              ++ flat_map (fun t => nested_in (tr_attrs t)
                                    ++ flat_map (fun e => nested_in (ev_attrs e)) (tr_events t))
                          (lg_traces l)
  end.

(** The whole tree has values of the documented types. *)
Inductive typed_tree : attr -> Prop :=
| typed_node c k e v coll meta :
    value_fits c v -> Forall typed_tree coll -> Forall (fun kv => typed_tree (snd kv)) meta ->
    typed_tree (mk_attr c k e v coll meta).

Definition typed_map (m : sdict attr) : Prop := Forall (fun kv => typed_tree (snd kv)) m.
Definition typed_log (l : xlog) : Prop :=
  typed_map (lg_attrs l)
  /\ Forall (fun t => typed_map (tr_attrs t) /\ Forall (fun e => typed_map (ev_attrs e)) (tr_events t)) (lg_traces l).

(** All event time stamps are aware, or all naive. *)
Definition stamps (l : xlog) : list datetime := flat_map (fun e => contributed (REvent e)) (log_events l).
Definition same_awareness (l : xlog) : Prop :=
  exists aw, Forall (fun d => is_aware d = aw) (stamps l).

(** A timestamp, list or container which is the first attribute with its key ... *)
Definition no_prototype (c : acls) : Prop := c = CTimestamp \/ c = CList \/ c = CContainer.
Definition first_of_key_unsupported (attrs : list attr) : Prop :=
  exists pre a post, attrs = pre ++ a :: post /\ ~ In (a_key a) (map a_key pre) /\ no_prototype (a_cls a).
(** ... on some level, or a list or container under the time stamp key of an event. *)
Definition unsupported (l : xlog) : Prop :=
  (exists lv, first_of_key_unsupported (at_level lv l))
  \/ exists e a, In e (log_events l) /\ sget (py "time:timestamp") (ev_attrs e) = Some a
     /\ is_collection (a_cls a) = true.

(** Which attributes a summary takes when they come first. *)
Definition has_prototype (a : attr) : bool :=
  match a_cls a, a_val a with
  | (CLiteral | CBoolean | CContinuous | CDiscrete), _ => true
  | CID, PXid _ => true
  | _, _ => false
  end.

(** The attributes of a history that are taken: supported ones, and any with a known key. *)
Definition accepted (l : list attr) : list attr :=
  fold_left (fun acc a => if existsb (fun b => str_eqb (a_key a) (a_key b)) acc || has_prototype a
                          then acc ++ [a] else acc) l [].

Definition key_count (k : pystr) (l : list attr) : nat :=
  List.length (filter (fun a => str_eqb k (a_key a)) l).

(** The default values of prototypes. *)
Definition default_value (c : acls) (v : pyval) : Prop :=
  match c with
  | CLiteral => v = PStr (py "UNKNOWN")
  | CBoolean => v = PBool true
  | CContinuous => v = PFloat (S754_zero false)
  | CDiscrete => v = PInt 0
  | CID => exists i, v = PXid i
  | _ => False
  end.

(** The classifier of a request: the standard one when none is given. *)
Definition asked (c : option classifier) : classifier :=
  match c with
  | None => mk_cl (py "MXML Legacy Classifier") [py "concept:name"; py "lifecycle:transition"]
  | Some c => c
  end.
(** The classifications every summary has. *)
Definition by_name : classifier := mk_cl (py "Event Name") [py "concept:name"].
Definition by_resource : classifier := mk_cl (py "Resource") [py "org:resource"].
Definition by_transition : classifier := mk_cl (py "Lifecycle transition") [py "lifecycle:transition"].
