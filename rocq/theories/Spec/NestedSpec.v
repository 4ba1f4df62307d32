(** Specification of values in nested attributes: descendants and paths. *)
From Coq Require Import String NArith ZArith List Bool.
From Verif Require Import Base.PyBase Base.PyVal Model.Attr Model.StdExt Model.Nested Spec.Setters.
Import ListNotations.

(** The three kinds of nested cost values. *)
Inductive nkind : Type := NAmount | NDriver | NType.
Definition nslot (n : nkind) : slot :=
  match n with NAmount => SAmount | NDriver => SDriver | NType => SType end.
Definition nkey (n : nkind) : pystr := slot_key (nslot n).
Definition extract_nested (n : nkind) : sdict attr -> res (list (list pystr * pyval)) :=
  match n with
  | NAmount => extract_nested_amounts
  | NDriver => extract_nested_drivers
  | NType => extract_nested_types
  end.
Definition extract_children (n : nkind) : sdict attr -> res (sdict pyval) :=
  match n with
  | NAmount => extract_amounts
  | NDriver => extract_drivers
  | NType => extract_types
  end.
Definition assign_nested (n : nkind) : list (list pystr * pyval) -> sdict attr -> sdict attr * res unit :=
  match n with
  | NAmount => assign_nested_amounts
  | NDriver => assign_nested_drivers
  | NType => assign_nested_types
  end.

(** [a] is an attribute of an element with map [m], at any depth. *)
Inductive descendant : sdict attr -> attr -> Prop :=
| d_here m k a : In (k, a) m -> descendant m a
| d_deep m k b a : In (k, b) m -> descendant (a_meta b) a -> descendant m a.

(** [a] carries a value of kind [n] that is not none, zero or empty. *)
Definition carries (n : nkind) (a : attr) : Prop :=
  exists x, sget (nkey n) (a_meta a) = Some x /\ is_collection (a_cls x) = false /\ truthy (a_val x) = true.
(** Reading the value of kind [n] of [a] fails. *)
Definition unreadable (n : nkind) (a : attr) : Prop :=
  exists x, sget (nkey n) (a_meta a) = Some x /\ is_collection (a_cls x) = true.

(** The attribute at the end of a path. *)
Fixpoint at_path (p : list pystr) (m : sdict attr) : option attr :=
  match p with
  | [] => None
  | k :: q => match sget k m with
              | None => None
              | Some a => match q with [] => Some a | _ => at_path q (a_meta a) end
              end
  end.

Definition prefix_of {A} (p q : list A) : Prop := exists r, q = p ++ r.

(** The same but for the nested attributes. *)
Definition same_shell (a b : attr) : Prop :=
  a_cls a = a_cls b /\ a_key a = a_key b /\ a_ext a = a_ext b /\ a_val a = a_val b /\ a_coll a = a_coll b.
(** A new path element: a literal attribute with its key, an empty text and no extension. *)
Definition path_element (p : list pystr) : attr := mk_attr CLiteral (last p []) None (PStr []) [] [].
(** After the call there is an attribute at [q]: the one there was before, or a new one,
    up to nested attributes. *)
Definition kept_or_made (q : list pystr) (m m' : sdict attr) : Prop :=
  exists a, at_path q m' = Some a
    /\ match at_path q m with Some b => same_shell a b | None => same_shell a (path_element q) end.
