(** What cloning promises, stated over the heap. *)
From Coq Require Import String NArith ZArith List Bool.
From Verif Require Import Base.PyBase Base.PyDate Base.PyVal Model.Attr Model.Log Model.Heap.
Import ListNotations.

(** The structural objects an object refers to. *)
Definition children (c : cell) : list addr :=
  match c with
  | KEvent _ m => [m]
  | KTrace m es => m :: es
  | KLog l => [lc_map l; lc_clfs l; lc_gtrace l; lc_gevent l; lc_feat l; lc_exts l] ++ lc_traces l
  | _ => []
  end.

Definition in_heap (s : st) (a : addr) : Prop := a < List.length (cells s).

(** Python dictionaries have distinct keys, sets distinct members, and there are no
    dangling references. *)
Definition cell_wf (s : st) (c : cell) : Prop :=
  Forall (in_heap s) (children c) /\
  match c with
  | KMap m => dict_wf m
  | KExts l => NoDup (map x_uri l)
  | _ => True
  end.

Definition heap_wf (s : st) : Prop := Forall (cell_wf s) (cells s).

(** ** Reading a structure off the heap.  Attributes are shown by identity. *)
Fixpoint all_some {A} (l : list (option A)) : option (list A) :=
  match l with
  | [] => Some []
  | None :: _ => None
  | Some x :: t => match all_some t with Some r => Some (x :: r) | None => None end
  end.

Definition map_view (s : st) (a : addr) : option (sdict addr) :=
  match read s a with Some (KMap m) => Some m | _ => None end.

(** id and attributes *)
Definition event_view (s : st) (a : addr) : option (N * sdict addr) :=
  match read s a with
  | Some (KEvent i m) => match map_view s m with Some d => Some (i, d) | None => None end
  | _ => None
  end.

(** attributes and events *)
Definition trace_view (s : st) (a : addr) : option (sdict addr * list (N * sdict addr)) :=
  match read s a with
  | Some (KTrace m es) =>
      match map_view s m, all_some (map (event_view s) es) with
      | Some d, Some l => Some (d, l)
      | _, _ => None
      end
  | _ => None
  end.

Record log_content : Type := mk_lv {
  v_attrs : sdict addr;
  v_traces : list (sdict addr * list (N * sdict addr));
  v_clfs : list classifier;
  v_gtrace : list addr;
  v_gevent : list addr;
  v_feat : sdict pyval;
  v_exts : list xext
}.

Definition log_view (s : st) (a : addr) : option log_content :=
  match read s a with
  | Some (KLog l) =>
      match map_view s (lc_map l), all_some (map (trace_view s) (lc_traces l)),
            read s (lc_clfs l), read s (lc_gtrace l), read s (lc_gevent l),
            read s (lc_feat l), read s (lc_exts l) with
      | Some d, Some ts, Some (KClfs cs), Some (KAttrs gt), Some (KAttrs ge),
        Some (KFeat f), Some (KExts es) => Some (mk_lv d ts cs gt ge f es)
      | _, _, _, _, _, _, _ => None
      end
  | _ => None
  end.

(** The ids in a structure, in order, and the structure without them. *)
Definition trace_ids (t : sdict addr * list (N * sdict addr)) : list N := map fst (snd t).
Definition log_ids (v : log_content) : list N := flat_map trace_ids (v_traces v).
Definition trace_shape (t : sdict addr * list (N * sdict addr))
  : sdict addr * list (sdict addr) := (fst t, map snd (snd t)).
Definition log_shape (v : log_content) :=
  (v_attrs v, map trace_shape (v_traces v), v_clfs v, v_gtrace v, v_gevent v, v_feat v, v_exts v).

(** The ids are pairwise different draws made between two moments. *)
Definition drawn_between (draw : nat -> N) (s s' : st) (ids : list N) : Prop :=
  exists ks, NoDup ks /\ Forall (fun k => drawn s <= k < drawn s') ks /\ ids = map draw ks.

(** ** Structural reachability: which objects belong to an element. *)
Definition child (s : st) (a b : addr) : Prop :=
  exists c, read s a = Some c /\ In b (children c).

Inductive reach (s : st) (a : addr) : addr -> Prop :=
| reach_refl : reach s a a
| reach_step b c : reach s a b -> child s b c -> reach s a c.

(** Two elements have no structural object in common. *)
Definition separate (s : st) (a b : addr) : Prop :=
  forall x, reach s a x -> reach s b x -> False.

(** The objects an edit inserts. *)
Definition inserted (o : op) : list addr :=
  match o with
  | OpSetMap m => [m]
  | OpEvents l | OpTraces l => l
  | _ => []
  end.

(** [edits A B s s']: from [s] to [s'] new objects were created and objects belonging to
    [B] edited, never inserting an object that shares structure with [A]. *)
Inductive edits (A B : addr) : st -> st -> Prop :=
| edits_done s : edits A B s s
| edits_new s s' c : edits A B s s' -> cell_wf s' c -> edits A B s (snd (alloc c s'))
| edits_op s s' s'' o w :
    edits A B s s' -> reach s' B w ->
    (forall x, In x (inserted o) -> in_heap s' x /\ separate s' A x) ->
    perform o w s' = Ok s'' -> edits A B s s''.

(** ** Reading a value through an event: [event.get_attributes()[k].get_value()] *)
Definition event_value (s : st) (e : addr) (k : pystr) : option pyval :=
  match event_view s e with
  | Some (_, d) => match sget k d with
                   | Some a => match read s a with
                               | Some (KAttr c _ _ v _ _) =>
                                   if is_collection c then None else Some v
                               | _ => None
                               end
                   | None => None
                   end
  | None => None
  end.

(** ** Creating elements *)

(** The ways to create an element: an XElement without or with argument, the constructors
    of events, traces and logs, and the methods of XFactory. *)
Inductive ckind : Type :=
| NewElementDefault | NewElement
| NewEvent (identity : option N) | NewTrace | NewLog
| FactoryEvent (identity : option N) | FactoryTrace | FactoryLog.

(** The attribute map of the new element. *)
Definition element_map (s : st) (a : addr) : option addr :=
  match read s a with
  | Some (KEvent _ m) => Some m
  | Some (KTrace m _) => Some m
  | Some (KLog l) => Some (lc_map l)
  | _ => None
  end.

Definition map_of_new (r : res (addr * st)) : res (addr * st) :=
  let! p := r in
  match element_map (snd p) (fst p) with
  | Some m => Ok (m, snd p)
  | None => Raise AttributeError
  end.

(** Create an element; the result is its attribute map. *)
Definition construct (draw : nat -> N) (dflt : addr) (k : ckind) (arg : option addr) (s : st)
  : res (addr * st) :=
  match k with
  | NewElementDefault => element_init dflt None s
  | NewElement => element_init dflt (Some arg) s
  | NewEvent i => map_of_new (event_init draw arg i s)
  | NewTrace => map_of_new (trace_init arg s)
  | NewLog => map_of_new (log_init arg s)
  | FactoryEvent i => map_of_new (create_event draw arg i s)
  | FactoryTrace => map_of_new (create_trace arg s)
  | FactoryLog => map_of_new (create_log arg s)
  end.

(** A program creating elements and editing their maps.  The map argument is absent, the
    map of an element made before, or a new map. *)
Inductive marg : Type := MNone | MOf (i : nat) | MNew (d : sdict addr).
Inductive cmd : Type :=
| CNew (k : ckind) (m : marg)
| CPut (i : nat) (k : pystr) (a : addr)
| CDel (i : nat) (k : pystr).

(** The heap and, for each element made, its map and whether a non-empty map was passed. *)
Record world : Type := mk_w { w_st : st; w_elems : list (addr * bool) }.

Definition eval_marg (m : marg) (w : world) : res (option addr * st) :=
  match m with
  | MNone => Ok (None, w_st w)
  | MOf i => match nth_error (w_elems w) i with
             | Some (a, _) => Ok (Some a, w_st w)
             | None => Raise IndexError
             end
  | MNew d => let '(a, s) := alloc (KMap d) (w_st w) in Ok (Some a, s)
  end.

Definition passes_map (k : ckind) (b : bool) : bool :=
  match k with NewElementDefault => false | _ => b end.

Definition run_cmd (draw : nat -> N) (dflt : addr) (w : world) (c : cmd) : res world :=
  match c with
  | CNew k m =>
      let! p := eval_marg m w in
      let! b := map_truth (snd p) (fst p) in
      let! q := construct draw dflt k (fst p) (snd p) in
      Ok (mk_w (snd q) (w_elems w ++ [(fst q, passes_map k b)]))
  | CPut i k a =>
      match nth_error (w_elems w) i with
      | Some (m, _) => let! s := perform (OpPut k a) m (w_st w) in Ok (mk_w s (w_elems w))
      | None => Raise IndexError
      end
  | CDel i k =>
      match nth_error (w_elems w) i with
      | Some (m, _) => let! s := perform (OpDel k) m (w_st w) in Ok (mk_w s (w_elems w))
      | None => Raise IndexError
      end
  end.
