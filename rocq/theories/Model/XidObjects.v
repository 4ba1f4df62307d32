(** Identifiers as objects that several holders can share: /repo/src/opyenxes/id/XID.py,
    XIDFactory.py, with the events (model/XEvent.py) and ID attributes (model/XAttributeID.py)
    that hold them.  Other parts of events and attributes are in Model/Heap.v. *)
From Coq Require Import NArith ZArith List Bool.
From Verif Require Import Base.PyBase Base.PyVal Model.Attr.
Import ListNotations.

(** XID objects, events and ID attributes are numbered in the order of their creation:
    [i_uuid] holds the uuid of each XID object, the others the XID object of each event and
    each attribute.  [i_drawn] counts the calls of uuid4. *)
Record ids : Type := mk_ids { i_uuid : list N; i_event : list nat; i_attr : list nat; i_drawn : nat }.
Definition ids_init : ids := mk_ids [] [] [] 0.

Section Draw.
(** The results of uuid.uuid4(). *)
Context (draw : nat -> N).

(** XID.__init__: XID.py:23-27.  A UUID object is always true. *)
Definition new_xid (arg : option N) (s : ids) : ids * nat :=
  let r := List.length (i_uuid s) in
  match arg with
  | Some u => (mk_ids (i_uuid s ++ [u]) (i_event s) (i_attr s) (i_drawn s), r)
  | None => (mk_ids (i_uuid s ++ [draw (i_drawn s)]) (i_event s) (i_attr s) (S (i_drawn s)), r)
  end.
(** XIDFactory.create_id: XIDFactory.py:12-20. *)
Definition create_xid (s : ids) : ids * nat := new_xid None s.

(** XEvent.__init__: XEvent.py:18-25, and XAttributeID.__init__: XAttributeID.py:15-17. *)
Definition add_event (r : nat) (s : ids) : ids := mk_ids (i_uuid s) (i_event s ++ [r]) (i_attr s) (i_drawn s).
Definition add_attr (r : nat) (s : ids) : ids := mk_ids (i_uuid s) (i_event s) (i_attr s ++ [r]) (i_drawn s).
Definition new_event (arg : option nat) (s : ids) : ids :=
  match arg with
  | Some r => add_event r s
  | None => let (s, r) := create_xid s in add_event r s
  end.
(** XEvent.set_id: XEvent.py:46-52; XAttributeID.set_value: XAttributeID.py:27-33;
    XID.set_uuid: XID.py:37-43. *)
Definition set_event_id (e r : nat) (s : ids) : ids := mk_ids (i_uuid s) (update e (fun _ => r) (i_event s)) (i_attr s) (i_drawn s).
Definition set_attr_value (a r : nat) (s : ids) : ids := mk_ids (i_uuid s) (i_event s) (update a (fun _ => r) (i_attr s)) (i_drawn s).
Definition set_uuid (r : nat) (u : N) (s : ids) : ids := mk_ids (update r (fun _ => u) (i_uuid s)) (i_event s) (i_attr s) (i_drawn s).

(** XEvent.clone: XEvent.py:27-36.  The id of line 33 is thrown away. *)
Definition clone_event (s : ids) : ids :=
  let e := List.length (i_event s) in
  let s := new_event None s in
  let (s, r) := create_xid s in set_event_id e r s.
(** XID.clone: XID.py:45-51; XAttributeID.clone: XAttributeID.py:35-43. *)
Definition clone_xid (r : nat) (s : ids) : ids * nat := new_xid (nth_error (i_uuid s) r) s.
Definition clone_attr (a : nat) (s : ids) : ids :=
  match nth_error (i_attr s) a with
  | Some r => let (s, r) := clone_xid r s in add_attr r s
  | None => s                                             (* no such attribute *)
  end.

(** Programs: any order of the calls, with any objects. *)
Inductive id_call : Type :=
| NewXid (arg : option N)
| ParseXid (text : pystr)                                  (* XID.py:12-21 *)
| CloneXid (r : nat)
| SetUuid (r : nat) (u : N)
| NewEvent (arg : option nat)
| CloneEvent (e : nat)
| SetEventId (e r : nat)
| NewIdAttr (r : nat)
| CloneIdAttr (a : nat)
| SetIdAttr (a r : nat).
Definition id_step (s : ids) (c : id_call) : res ids :=
  match c with
  | NewXid arg => Ok (fst (new_xid arg s))
  | ParseXid t => match uuid_of_str t with
                  | Some u => Ok (fst (new_xid (Some u) s))
                  | None => Raise ValueError
                  end
  | CloneXid r => Ok (fst (clone_xid r s))
  | SetUuid r u => Ok (set_uuid r u s)
  | NewEvent arg => Ok (new_event arg s)
  | CloneEvent _ => Ok (clone_event s)
  | SetEventId e r => Ok (set_event_id e r s)
  | NewIdAttr r => Ok (add_attr r s)
  | CloneIdAttr a => Ok (clone_attr a s)
  | SetIdAttr a r => Ok (set_attr_value a r s)
  end.
Definition id_run (h : list id_call) (s : ids) : res ids := fold_res id_step h s.
End Draw.

(** [event.get_id().get_uuid()] and [attribute.get_value().get_uuid()]: XEvent.py:38-44,
    XAttributeID.py:19-25, XID.py:29-35. *)
Definition uuid_at (s : ids) (r : nat) : option N := nth_error (i_uuid s) r.
Definition event_xid (s : ids) (e : nat) : option nat := nth_error (i_event s) e.
Definition attr_xid (s : ids) (a : nat) : option nat := nth_error (i_attr s) a.
Definition event_uuid (s : ids) (e : nat) : option N := match event_xid s e with Some r => uuid_at s r | None => None end.
Definition attr_uuid (s : ids) (a : nat) : option N := match attr_xid s a with Some r => uuid_at s r | None => None end.
(** XEvent.__eq__ and __hash__: XEvent.py:54-63, through XID.__eq__ and __hash__: XID.py:69-81. *)
Definition event_eq (s : ids) (e f : nat) : bool :=
  match event_uuid s e, event_uuid s f with Some u, Some v => N.eqb u v | _, _ => false end.
Definition event_hash (hash : N -> Z) (s : ids) (e : nat) : option Z := option_map hash (event_uuid s e).
