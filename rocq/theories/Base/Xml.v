(** XML documents as trees and as the sequence of SAX events of their parse (library
    behaviour; the textual layer is in Model/XmlText.v). *)
From Coq Require Import String NArith ZArith List Bool.
From Verif Require Import Base.PyBase.
Import ListNotations.

(** An element with its attributes in order, or a piece of text. *)
Inductive xnode : Type :=
| XElem (tag : pystr) (atts : sdict pystr) (kids : list xnode)
| XText (s : pystr).

(** Calls of a SAX handler. *)
Inductive sax : Type :=
| SStart (tag : pystr) (atts : sdict pystr)
| SEnd (tag : pystr)
| SChars (s : pystr).

Fixpoint sax_of (x : xnode) : list sax :=
  match x with
  | XElem t a kids => SStart t a :: flat_map sax_of kids ++ [SEnd t]
  | XText s => [SChars s]
  end.
