(** Trees as Python's XML libraries write them (CPython 3.11). *)
From Coq Require Import String NArith ZArith List Bool.
From Verif Require Import Base.PyBase Base.PyVal Base.Xml.
Import ListNotations.

(** ** xml.etree.ElementTree *)

(** An element with attribute values and text as they are set by the program: any object.
    [Element.set], [Element.text], [SubElement]; tails are not used. *)
Inductive enode : Type :=
| EElem (tag : pystr) (atts : list (pystr * pyval)) (text : pyval) (kids : list enode).

(** Values that are no strings make [tostring] fail (_escape_attrib, _escape_cdata). *)
Definition et_attribute (kv : pystr * pyval) : res (pystr * pystr) :=
  match snd kv with PStr s => Ok (fst kv, s) | _ => Raise TypeError end.
(** [if text: write(_escape_cdata(text))] in _serialize_xml. *)
Definition et_text (v : pyval) : res (list xnode) :=
  if truthy v then match v with PStr s => Ok [XText s] | _ => Raise TypeError end else Ok [].
Fixpoint et_tree (x : enode) : res xnode :=
  match x with
  | EElem t atts text kids =>
      let fix many (l : list enode) : res (list xnode) :=
        match l with
        | [] => Ok []
        | x :: r => match et_tree x with
                    | Ok n => match many r with Ok ns => Ok (n :: ns) | Raise e => Raise e end
                    | Raise e => Raise e
                    end
        end in
      let! a := map_res et_attribute atts in
      let! s := et_text text in
      let! ns := many kids in
      Ok (XElem t a (s ++ ns))
  end.

(** ** xml.dom.minidom: toprettyxml("\t") *)

Definition newline (d : nat) : xnode := XText (10%N :: repeat 9%N d).
(** What a reader sees: line breaks and tabs around all children, except when there is
    nothing else than one piece of text (Element.writexml). *)
Fixpoint pretty (d : nat) (x : xnode) : xnode :=
  match x with
  | XText _ => x
  | XElem t a kids =>
      match kids with
      | [] | [XText _] => x
      | _ => XElem t a (flat_map (fun k => [newline (S d); pretty (S d) k]) kids ++ [newline d])
      end
  end.
