(** Equality of events, traces and logs, and the list methods that use it.
    /repo/src/opyenxes/model/{XEvent,XTrace,XLog}.py.

    XTrace (XTrace.py:4) and XLog (XLog.py:4) are subclasses of list and, like XElement and
    XAttributable, define no [__eq__], so [==] on them is list.__eq__. *)
From Coq Require Import NArith List Bool.
From Verif Require Import Base.PyBase Model.Heap.
Import ListNotations.

(** The items of a list object. *)
Definition items (c : cell) : option (list addr) :=
  match c with
  | KTrace _ es => Some es
  | KLog l => Some (lc_traces l)
  | _ => None
  end.

(** Lists compare their items by identity first, then by [==]. *)
Definition same_or (eq : addr -> addr -> bool) (a b : addr) : bool := Nat.eqb a b || eq a b.

(** list.__eq__: other lengths, then the first unequal pair decide. *)
Fixpoint all_eq (eq : addr -> addr -> bool) (l l' : list addr) : bool :=
  match l, l' with
  | a :: t, b :: t' => same_or eq a b && all_eq eq t t'
  | _, _ => true
  end.
Definition list_eq (eq : addr -> addr -> bool) (l l' : list addr) : bool :=
  Nat.eqb (List.length l) (List.length l') && all_eq eq l l'.

(** [a == b]: XEvent.__eq__ (XEvent.py:54-57) between events, False between an event and
    anything else, list.__eq__ between traces and logs.  [n] bounds the nesting of lists.
    Simplification: objects of other kinds equal only themselves (they are not elements). *)
Fixpoint obj_eq (n : nat) (s : st) (a b : addr) : bool :=
  match read s a, read s b with
  | Some (KEvent i _), Some (KEvent j _) => N.eqb i j
  | Some c, Some c' =>
      match items c, items c' with
      | Some l, Some l' => match n with O => Nat.eqb a b | S n => list_eq (obj_eq n s) l l' end
      | _, _ => Nat.eqb a b
      end
  | _, _ => false
  end.

(** Logs hold traces, traces hold events. *)
Definition elem_eq : st -> addr -> addr -> bool := obj_eq 2.

(** ** Methods inherited from list: index, count, [in], remove *)

Fixpoint find_index (eq : addr -> addr -> bool) (x : addr) (l : list addr) : option nat :=
  match l with
  | [] => None
  | a :: t => if same_or eq a x then Some O else option_map S (find_index eq x t)
  end.

Definition get_items (s : st) (a : addr) : res (list addr) :=
  match read s a with
  | Some c => match items c with Some l => Ok l | None => Raise AttributeError end
  | None => Raise AttributeError
  end.

(** [l.index(x)] *)
Definition elem_index (s : st) (l x : addr) : res nat :=
  let! it := get_items s l in
  match find_index (elem_eq s) x it with Some i => Ok i | None => Raise ValueError end.

(** [x in l] *)
Definition elem_contains (s : st) (l x : addr) : res bool :=
  let! it := get_items s l in
  Ok (match find_index (elem_eq s) x it with Some _ => true | None => false end).

(** [l.count(x)] *)
Definition elem_count (s : st) (l x : addr) : res nat :=
  let! it := get_items s l in
  Ok (List.length (filter (fun a => same_or (elem_eq s) a x) it)).

Fixpoint drop_at (i : nat) (l : list addr) : list addr :=
  match i, l with
  | _, [] => []
  | O, _ :: t => t
  | S i, a :: t => a :: drop_at i t
  end.

(** The same object with other items (slots of list). *)
Definition set_items (l : list addr) (c : cell) : cell :=
  match c with
  | KTrace m _ => KTrace m l
  | KLog x => KLog (mk_lc (lc_map x) l (lc_clfs x) (lc_gtrace x) (lc_gevent x) (lc_info x)
                          (lc_feat x) (lc_exts x))
  | c => c
  end.

(** [l.remove(x)] *)
Definition elem_remove (s : st) (l x : addr) : res st :=
  let! it := get_items s l in
  let! i := elem_index s l x in
  match read s l with
  | Some c => Ok (write l (set_items (drop_at i it) c) s)
  | None => Raise AttributeError
  end.
