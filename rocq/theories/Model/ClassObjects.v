(** Event classes as objects with an identity, which the set of event classes and its users
    share: /repo/src/opyenxes/classification/XEventClass.py, XEventClasses.py. *)
From Coq Require Import String NArith ZArith List Bool.
From Verif Require Import Base.PyBase.
Import ListNotations.

(** An XEventClass: XEventClass.py:15-18.  Its size can be set to any int. *)
Record cobj : Type := mk_co { co_id : pystr; co_index : nat; co_size : Z }.
(** All XEventClass objects, by number, and the map of one XEventClasses
    (XEventClasses.py:19-21). *)
Record cstate : Type := mk_cs { cs_objs : list cobj; cs_map : sdict nat }.
Definition no_classes : cstate := mk_cs [] [].

(** set_size, increment_size: XEventClass.py:46-60. *)
Definition sized (z : Z) (o : cobj) : cobj := mk_co (co_id o) (co_index o) z.
Definition incremented (o : cobj) : cobj := mk_co (co_id o) (co_index o) (co_size o + 1).
Definition set_size (r : nat) (z : Z) (s : cstate) : cstate := mk_cs (update r (sized z) (cs_objs s)) (cs_map s).
Definition increment_size (r : nat) (s : cstate) : cstate := mk_cs (update r incremented (cs_objs s)) (cs_map s).

(** register(str): XEventClasses.py:110-117. *)
Definition register_object (id : pystr) (s : cstate) : cstate :=
  match sget id (cs_map s) with
  | None => let r := List.length (cs_objs s) in
            increment_size r (mk_cs (cs_objs s ++ [mk_co id (List.length (cs_map s)) 0]) (sset id r (cs_map s)))
  | Some r => increment_size r s
  end.

(** [sorted] on event classes: XEventClass.__lt__ compares the identities (XEventClass.py:62-80). *)
Definition id_of (objs : list cobj) (r : nat) : pystr :=
  match nth_error objs r with Some o => co_id o | None => [] end.
Fixpoint insert_ref (objs : list cobj) (r : nat) (l : list nat) : list nat :=
  match l with
  | [] => [r]
  | q :: t => match str_cmp (id_of objs r) (id_of objs q) with Gt => q :: insert_ref objs r t | _ => r :: l end
  end.
Definition sorted_refs (objs : list cobj) (l : list nat) : list nat := fold_right (insert_ref objs) [] l.

(** harmonize_indices: XEventClasses.py:131-137. *)
Fixpoint renumber (i : nat) (l : list nat) (s : cstate) : cstate :=
  match l with
  | [] => s
  | r :: t =>
      match nth_error (cs_objs s) r with
      | Some o => let q := List.length (cs_objs s) in
                  renumber (S i) t (set_size q (co_size o) (mk_cs (cs_objs s ++ [mk_co (co_id o) i 0]) (sset (co_id o) q (cs_map s))))
      | None => s
      end
  end.
Definition harmonize_objects (s : cstate) : cstate :=
  renumber 0 (sorted_refs (cs_objs s) (map snd (cs_map s))) (mk_cs (cs_objs s) []).

(** get_by_identity: XEventClasses.py:69-79. *)
Definition class_object (id : pystr) (s : cstate) : option nat := sget id (cs_map s).

(** Histories: texts are registered, indices harmonized, and the objects used by others; these
    may also make objects of their own. *)
Inductive class_call : Type :=
| CRegister (id : pystr) | CHarmonize
| CSetSize (r : nat) (z : Z) | CIncrement (r : nat) | CMake (id : pystr) (index : nat).
Definition class_step (s : cstate) (c : class_call) : cstate :=
  match c with
  | CRegister id => register_object id s
  | CHarmonize => harmonize_objects s
  | CSetSize r z => set_size r z s
  | CIncrement r => increment_size r s
  | CMake id i => mk_cs (cs_objs s ++ [mk_co id i 0]) (cs_map s)
  end.
Definition class_run (s : cstate) (h : list class_call) : cstate := fold_left class_step h s.
