(** Reading XES: extensions by prefix; elements without a global element in them. *)
From Coq Require Import String NArith List Bool.
From Verif Require Import Base.PyBase Base.PyVal Base.Xml Model.Attr Model.Registry.
Import ListNotations.

(** The extension of a key: the first one registered whose prefix is what stands before the
    first colon. *)
Definition named_extension (mgr : manager xext) (k : pystr) : option xext :=
  match split (py ":") k with
  | p :: _ :: _ => find (fun x => str_eqb (x_prefix x) p) (mg_list mgr)
  | _ => None
  end.

Fixpoint no_global (x : xnode) : bool :=
  match x with
  | XText _ => true
  | XElem t _ kids => negb (str_eqb (lower t) (py "global")) && forallb no_global kids
  end.
