(** Where the elements of an XES document stand, and what is wrong with the values in them. *)
From Coq Require Import String NArith ZArith List Bool.
From Verif Require Import Base.PyBase Base.PyDate Base.PyVal Base.Xml Model.Attr Model.DateConv Model.Registry Spec.Xes.
Import ListNotations.

Definition is_tag (t : pystr) (name : string) : bool := str_eqb (lower t) (py name).
Definition attribute_tag (t : pystr) : bool :=
  existsb (is_tag t) ["string"; "date"; "int"; "float"; "boolean"; "id"; "list"; "container"]%string.

(** Every element stands where the XES standard has it: declarations and traces in a log,
    events in a trace, attributes anywhere.  Foreign elements (and text) may stand anywhere;
    what is in them is taken to stand around them. *)
Inductive place : Type := InLog | InTrace | InElement.
Fixpoint placed (p : place) (x : xnode) : bool :=
  match x with
  | XText _ => true
  | XElem t _ kids =>
      if foreign t then forallb (placed p) kids
      else if attribute_tag t then forallb (placed InElement) kids
      else if is_tag t "event" then match p with InTrace => true | _ => false end && forallb (placed InElement) kids
      else if is_tag t "log" then false
      else match p with InLog => true | _ => false end
           && forallb (placed (if is_tag t "trace" then InTrace else InElement)) kids
  end.
Definition well_placed (doc : xnode) : bool :=
  match doc with XElem t _ kids => is_tag t "log" && forallb (placed InLog) kids | XText _ => false end.

Section Faults.
Context `{FIO : FloatIO} (mgr : manager xext) (urlparse : pystr -> option pystr).

(** What is wrong with one element: a number or id that is none, a date whose zone is out of
    range, a global without scope, an extension with neither address nor known
    prefix, or with no prefix and an address that is no URL. *)
Definition fault (t : pystr) (atts : sdict pystr) : option exn :=
  let value := att "value" atts [] in
  if is_tag t "int" then match py_int 10 value with Some _ => None | None => Some ValueError end
  else if is_tag t "float" then match float_of_str value with Some _ => None | None => Some ValueError end
  else if is_tag t "id" then match uuid_of_str value with Some _ => None | None => Some ValueError end
  else if is_tag t "date" then match parse_date_time value with Ok _ => None | Raise e => Some e end
  else if is_tag t "global" then match sget (py "scope") atts with Some _ => None | None => Some AttributeError end
  else if is_tag t "extension" then
    match sget (py "uri") atts, sget (py "prefix") atts with
    | Some u, None => match urlparse u with Some _ => None | None => Some ValueError end
    | Some _, Some _ => None
    | None, Some p => match mgr_by_prefix x_prefix mgr p with Some _ => None | None => Some TypeError end
    | None, None => Some TypeError
    end
  else None.

(** All faults of a document, in document order. *)
Fixpoint faults (x : xnode) : list exn :=
  match x with
  | XText _ => []
  | XElem t atts kids => match fault t atts with Some e => [e] | None => [] end ++ flat_map faults kids
  end.
End Faults.

(** A document with a given element somewhere. *)
Fixpoint has_tag (name : string) (x : xnode) : bool :=
  match x with XText _ => false | XElem t _ kids => is_tag t name || existsb (has_tag name) kids end.
