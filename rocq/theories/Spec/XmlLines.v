(** The layout of the written files: line by line. *)
From Coq Require Import String NArith List Bool.
From Verif Require Import Base.PyBase Base.Xml.
Import ListNotations.
Local Open Scope N_scope.

(** & < > and double quotes are written as references. *)
Definition shown_char (c : N) : pystr :=
  if c =? 38 then py "&amp;" else if c =? 60 then py "&lt;" else if c =? 62 then py "&gt;"
  else if c =? 34 then py "&quot;" else [c].
Definition shown (s : pystr) : pystr := flat_map shown_char s.
Definition shown_atts (a : sdict pystr) : pystr :=
  flat_map (fun kv => py " " ++ fst kv ++ py "=""" ++ shown (snd kv) ++ py """") a.
Definition indented (d : nat) (s : pystr) : pystr := repeat 9 d ++ s.

(** An element with nothing in it, or with text only, is a line; otherwise its start and its
    end are lines, and between them are the lines of its content, with a tab more. *)
Fixpoint xml_lines (d : nat) (x : xnode) : list pystr :=
  match x with
  | XText s => [indented d (shown s)]
  | XElem t a [] => [indented d (py "<" ++ t ++ shown_atts a ++ py "/>")]
  | XElem t a [XText s] => [indented d (py "<" ++ t ++ shown_atts a ++ py ">" ++ shown s ++ py "</" ++ t ++ py ">")]
  | XElem t a kids =>
      [indented d (py "<" ++ t ++ shown_atts a ++ py ">")] ++ flat_map (xml_lines (S d)) kids
      ++ [indented d (py "</" ++ t ++ py ">")]
  end.
Definition in_lines (ls : list pystr) : pystr := flat_map (fun l => l ++ [10]) ls.

Definition xes_head : list pystr := map py
  ["<?xml version=""1.0"" ?>";
   "<!--This file has been generated with the OpenXES library. It conforms-->";
   "<!--to the XML serialization of the XES standard for log storage and-->";
   "<!--management.-->";
   "<!--XES standard version: 1.0-->";
   "<!--OpenXES library version: 1.0RC7-->";
   "<!--OpenXES is available from http://www.openxes.org/-->"]%string.
Definition mxml_head : list pystr := map py
  ["<?xml version=""1.0"" ?>";
   "<!--This file has been generated with the OpenXES library. It conforms-->";
   "<!--to the legacy MXML standard for log storage and management.-->";
   "<!--OpenXES library version: 1.0RC7-->";
   "<!--OpenXES is available from http://www.xes-standard.org/-->"]%string.

(** Every CR LF and every other CR is LF. *)
Definition at_lf (s : pystr) : bool := match s with c :: _ => c =? 10 | [] => false end.
Fixpoint lf_only (s : pystr) : pystr :=
  match s with
  | [] => []
  | c :: r => if c =? 13 then (if at_lf r then lf_only r else 10 :: lf_only r) else c :: lf_only r
  end.
(** The texts of a tree in this way; attribute values are not changed. *)
Fixpoint lf_texts (x : xnode) : xnode :=
  match x with
  | XText s => XText (lf_only s)
  | XElem t a kids => XElem t a (map lf_texts kids)
  end.

(** How many lines of the text are one of the given ones. *)
Definition count_lines (ws : list pystr) (text : pystr) : nat :=
  List.length (filter (fun l => existsb (str_eqb l) ws) (split [10] text)).
Definition trace_lines : list pystr := [9 :: py "<trace>"; 9 :: py "<trace/>"].
Definition event_lines : list pystr := [9 :: 9 :: py "<event>"; 9 :: 9 :: py "<event/>"].
