(** What the anonymiser looks at and does, on objects. *)
From Coq Require Import String NArith List Bool.
From Verif Require Import Base.PyBase Base.PyVal Model.Attr Model.Log Model.Heap Spec.Clone Spec.Transform.
Import ListNotations.

(** The attribute objects of the globals, the traces and the events. *)
Definition trace_objects (t : sdict addr * list (N * sdict addr)) : list addr :=
  map snd (fst t) ++ flat_map (fun e => map snd (snd e)) (snd t).
Definition looked_at (v : log_content) : list addr :=
  v_gtrace v ++ v_gevent v ++ flat_map trace_objects (v_traces v).

(** A cell before and after: only the value of a resource among the objects changes. *)
Definition veiled_cell (objs : list addr) (a : addr) (x y : option cell) : Prop :=
  (exists c k e v l m, x = Some (KAttr c k e v l m) /\ In a objs /\ hidden_key k
                       /\ y = Some (KAttr c k e (PStr (py "UNKNOWN")) l m))
  \/ (~ (exists c k e v l m, x = Some (KAttr c k e v l m) /\ In a objs /\ hidden_key k) /\ y = x).

(** An attribute object; one that cannot be hidden. *)
Definition is_attr (x : option cell) : Prop := exists c k e v l m, x = Some (KAttr c k e v l m).
Definition stubborn (x : option cell) : Prop :=
  exists c k e v l m, x = Some (KAttr c k e v l m) /\ hidden_key k /\ is_collection c = true.

(** ** Trees *)

(** The tree below an attribute object. *)
Inductive attr_tree (s : st) : addr -> attr -> Prop :=
| tree_node a c k e v coll meta d cs ms :
    read s a = Some (KAttr c k e v coll meta) -> read s meta = Some (KMap d) ->
    Forall2 (attr_tree s) coll cs ->
    Forall2 (fun x y => fst x = fst y /\ attr_tree s (snd x) (snd y)) d ms ->
    attr_tree s a (mk_attr c k e v cs ms).
Definition map_tree (s : st) (d : sdict addr) (m : sdict attr) : Prop :=
  Forall2 (fun x y => fst x = fst y /\ attr_tree s (snd x) (snd y)) d m.
Definition event_tree (s : st) (v : N * sdict addr) (e : event) : Prop :=
  fst v = ev_id e /\ map_tree s (snd v) (ev_attrs e).
Definition trace_tree (s : st) (v : sdict addr * list (N * sdict addr)) (t : trace) : Prop :=
  map_tree s (fst v) (tr_attrs t) /\ Forall2 (event_tree s) (snd v) (tr_events t).
Definition log_tree (s : st) (v : log_content) (x : xlog) : Prop :=
  map_tree s (v_attrs v) (lg_attrs x) /\ Forall2 (trace_tree s) (v_traces v) (lg_traces x)
  /\ v_exts v = lg_exts x /\ v_clfs v = lg_classifiers x
  /\ Forall2 (attr_tree s) (v_gtrace v) (lg_gtrace x) /\ Forall2 (attr_tree s) (v_gevent v) (lg_gevent x)
  /\ v_feat v = map (fun kv => (fst kv, PStr (snd kv))) (lg_features x).

(** An object somewhere below another. *)
Inductive below (s : st) : addr -> addr -> Prop :=
| below_member a b c k e v coll meta : read s a = Some (KAttr c k e v coll meta) -> In b coll -> below s a b
| below_nested a b c k e v coll meta d : read s a = Some (KAttr c k e v coll meta) -> read s meta = Some (KMap d) ->
    In b (map snd d) -> below s a b
| below_deeper a b x : below s a b -> below s b x -> below s a x.

(** The resources that are looked at are not nested in others, nor attributes of the log itself; but
    they may be shared by events, traces and globals. *)
Definition on_top (s : st) (v : log_content) : Prop :=
  forall b c k e w l m, In b (looked_at v) -> read s b = Some (KAttr c k e w l m) -> hidden_key k ->
  ~ In b (map snd (v_attrs v)) /\ forall a, In a (map snd (v_attrs v) ++ looked_at v) -> ~ below s a b.
