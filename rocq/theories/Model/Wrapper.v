(** Events with wrappers: /repo/src/opyenxes/extension/std/XExtendedEvent.py.

    Maps of attributes are objects here: an event refers to its map, a wrapper to its event. *)
From Coq Require Import String NArith ZArith List Bool.
From Verif Require Import Base.PyBase Base.PyDate Base.PyVal Model.Attr Model.StdExt.
Import ListNotations.

Record world : Type := mk_w {
  w_maps : list (sdict attr);
  w_events : list (N * nat);       (* id and map: XEvent.py:18-25 *)
  w_wraps : list (N * nat);        (* own id and wrapped event: XExtendedEvent.py:30-32 *)
  w_drawn : nat                    (* ids drawn from uuid4 so far *)
}.
Definition w_init : world := mk_w [] [] [] 0.

(** The setters of the wrapper: XExtendedEvent.py:43-214.
    [WRefs] stands for set_model_references and, with the texts of the URIs, for
    set_model_references_uris. *)
Inductive wcall : Type :=
| WName (v : pyval) | WInstance (v : pyval) | WTime (v : pyval)
| WResource (v : pyval) | WRole (v : pyval) | WGroup (v : pyval)
| WTransition (v : pyval) | WStandard (v : pyval) | WRefs (l : list pyval).
Inductive wget : Type := GName | GInstance | GTime | GResource | GRole | GGroup | GTransition | GStandard.

Section Wrapper.
Context `{C : Clock} (draw : nat -> N).

Definition wrapper_set (c : wcall) : sdict attr -> res (sdict attr) :=
  match c with
  | WName v => assign_name v
  | WInstance v => assign_instance v
  | WTime v => assign_timestamp v
  | WResource v => xe_set_resource v
  | WRole v => xe_set_role v
  | WGroup v => xe_set_group v
  | WTransition v => assign_transition v
  | WStandard v => assign_standard_transition v
  | WRefs l => assign_model_references l
  end.

(** The getters of the wrapper: XExtendedEvent.py:34-41, 52-59, 70-77, 88-95, 106-113, 124-131,
    142-149, 160-167; get_model_references: 178-185. *)
Definition wrapper_get (g : wget) : getter :=
  match g with
  | GName => extract_name
  | GInstance => extract_instance
  | GTime => extract_timestamp
  | GResource => extract_resource
  | GRole => extract_role
  | GGroup => extract_group
  | GTransition => extract_transition
  | GStandard => extract_standard_transition
  end.
Definition wrapper_references : sdict attr -> res (list pystr) := extract_model_references.

(** The map behind an event and behind a wrapper: XExtendedEvent.get_attributes,
    XExtendedEvent.py:216-222. *)
Definition event_map (w : world) (e : nat) : option (sdict attr) :=
  match nth_error (w_events w) e with Some (_, m) => nth_error (w_maps w) m | None => None end.
Definition wrapper_map (w : world) (k : nat) : option (sdict attr) :=
  match nth_error (w_wraps w) k with Some (_, e) => event_map w e | None => None end.

(** get_extensions, has_attributes: XExtendedEvent.py:224-231, 241-247, of the wrapped event
    (XAttributable.py:18-30, 48-54, XAttributeMap.py:25-31). *)
Definition wrapper_extensions (w : world) (k : nat) : option (res (list xext)) :=
  option_map (fun d => map_get_extensions d []) (wrapper_map w k).
Definition wrapper_has (w : world) (k : nat) : option bool :=
  option_map (fun d => negb (Nat.eqb (List.length d) 0)) (wrapper_map w k).

(** A setter that acts on an event: its map is changed in place, or left as it is if the
    setter raises. *)
Definition change_event (f : sdict attr -> res (sdict attr)) (e : nat) (w : world) : world :=
  match nth_error (w_events w) e with
  | None => w
  | Some (_, m) =>
      match nth_error (w_maps w) m with
      | None => w
      | Some d => match f d with
                  | Ok d' => mk_w (update m (fun _ => d') (w_maps w)) (w_events w) (w_wraps w) (w_drawn w)
                  | Raise _ => w
                  end
      end
  end.

(** XEvent.clone: XEvent.py:27-36.  Two ids are drawn, the second one is kept. *)
Definition copy_event (e : nat) (w : world) : world :=
  match event_map w e with
  | None => w
  | Some d => mk_w (w_maps w ++ [d]) (w_events w ++ [(draw (S (w_drawn w)), List.length (w_maps w))]) (w_wraps w)
                   (S (S (w_drawn w)))
  end.

(** XExtendedEvent.__init__, wrap: XExtendedEvent.py:18-32. *)
Definition wrap (e : nat) (w : world) : world :=
  match nth_error (w_events w) e with
  | None => w
  | Some _ => mk_w (w_maps w) (w_events w) (w_wraps w ++ [(draw (w_drawn w), e)]) (S (w_drawn w))
  end.

(** What a program does; references to what does not exist do nothing.
    - [ONew]: [XEvent()];
    - [OWrap e]: [XExtendedEvent.wrap(e)];
    - [OCall k c]: a setter of wrapper [k];
    - [OEvent e c]: the same setter of the extension called on the event;
    - [OReplace k d]: [k.set_attributes(m)] with a new map [m] that holds [d]:
      XExtendedEvent.py:233-239;
    - [OClone k]: [k.clone()]: XExtendedEvent.py:249-258; the wrapper made by the
      constructor has its id replaced by another one. *)
Inductive wop : Type :=
| ONew | OWrap (e : nat) | OCall (k : nat) (c : wcall) | OEvent (e : nat) (c : wcall)
| OReplace (k : nat) (d : sdict attr) | OClone (k : nat).

Definition w_step (w : world) (o : wop) : world :=
  match o with
  | ONew => mk_w (w_maps w ++ [[]]) (w_events w ++ [(draw (w_drawn w), List.length (w_maps w))]) (w_wraps w) (S (w_drawn w))
  | OWrap e => wrap e w
  | OCall k c => match nth_error (w_wraps w) k with
                 | Some (_, e) => change_event (wrapper_set c) e w
                 | None => w
                 end
  | OEvent e c => change_event (wrapper_set c) e w
  | OReplace k d =>
      match nth_error (w_wraps w) k with
      | Some (_, e) => mk_w (w_maps w ++ [d]) (update e (fun p => (fst p, List.length (w_maps w))) (w_events w))
                            (w_wraps w) (w_drawn w)
      | None => w
      end
  | OClone k =>
      match nth_error (w_wraps w) k with
      | Some (_, e) =>
          let w1 := copy_event e w in
          mk_w (w_maps w1) (w_events w1)
               (w_wraps w1 ++ [(draw (S (w_drawn w1)), List.length (w_events w))]) (S (S (w_drawn w1)))
      | None => w
      end
  end.
Definition w_run (ops : list wop) : world := fold_left w_step ops w_init.

(** XExtendedEvent.__eq__ between wrappers: XExtendedEvent.py:268-271; with an event it is
    False, whichever side asks (XEvent.py:54-57). *)
Definition wrapper_eq (w : world) (j k : nat) : bool :=
  match nth_error (w_wraps w) j, nth_error (w_wraps w) k with
  | Some (a, _), Some (b, _) => N.eqb a b
  | _, _ => false
  end.
End Wrapper.
