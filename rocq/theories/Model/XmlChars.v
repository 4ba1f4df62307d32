(** The textual layer of writing and reading XML (library behaviour of CPython 3.11:
    xml.etree.ElementTree, xml.dom.minidom, and the expat parser as both minidom and xml.sax use
    it), as called in /repo/src/opyenxes/data_out/XesXmlSerializer.py:83-100 and
    XMxmlSerializer.py:121-133.

    The reader below covers what the two writers produce: elements, attributes in double quotes,
    text, the five named references and decimal character references, comments, processing
    instructions and the XML declaration.  On other documents it is not meant to agree with
    expat.  Documents are sequences of characters; encoding and decoding is not modelled. *)
From Coq Require Import String NArith ZArith List Bool.
From Verif Require Import Base.PyBase Base.Xml.
Import ListNotations.
Local Open Scope N_scope.

(** Characters an XML document may contain. *)
Definition legal (c : N) : bool :=
  (c =? 9) || (c =? 10) || (c =? 13) || ((32 <=? c) && (c <=? 55295))
  || ((57344 <=? c) && (c <=? 65533)) || ((65536 <=? c) && (c <=? 1114111)).

(** ** Writing *)

(** ElementTree._escape_attrib (chained [replace]s of single characters). *)
Definition esc_attrib (c : N) : pystr :=
  if c =? 38 then py "&amp;" else if c =? 60 then py "&lt;" else if c =? 62 then py "&gt;"
  else if c =? 34 then py "&quot;" else if c =? 13 then py "&#13;" else if c =? 10 then py "&#10;"
  else if c =? 9 then py "&#09;" else [c].
(** ElementTree._escape_cdata. *)
Definition esc_cdata (c : N) : pystr :=
  if c =? 38 then py "&amp;" else if c =? 60 then py "&lt;" else if c =? 62 then py "&gt;" else [c].
(** minidom._write_data, for attribute values and text. *)
Definition esc_dom (c : N) : pystr :=
  if c =? 38 then py "&amp;" else if c =? 60 then py "&lt;" else if c =? 34 then py "&quot;"
  else if c =? 62 then py "&gt;" else [c].

Definition quote : N := 34.
Definition print_att (esc : N -> pystr) (kv : pystr * pystr) : pystr :=
  [32] ++ fst kv ++ [61; quote] ++ flat_map esc (snd kv) ++ [quote].

(** ElementTree._serialize_xml. *)
Fixpoint et_print (x : xnode) : pystr :=
  match x with
  | XText s => flat_map esc_cdata s
  | XElem t a kids =>
      [60] ++ t ++ flat_map (print_att esc_attrib) a
      ++ match kids with
         | [] => [32; 47; 62]
         | _ => [62] ++ flat_map et_print kids ++ [60; 47] ++ t ++ [62]
         end
  end.

(** minidom Element.writexml and Text.writexml with tabs and line breaks. *)
Definition tabs (d : nat) : pystr := repeat 9 d.
Fixpoint dom_print (d : nat) (x : xnode) : pystr :=
  match x with
  | XText s => flat_map esc_dom (tabs d ++ s ++ [10])
  | XElem t a kids =>
      tabs d ++ [60] ++ t ++ flat_map (print_att esc_dom) a
      ++ match kids with
         | [] => [47; 62]
         | [XText s] => [62] ++ flat_map esc_dom s ++ [60; 47] ++ t ++ [62]
         | _ => [62; 10] ++ flat_map (dom_print (S d)) kids ++ tabs d ++ [60; 47] ++ t ++ [62]
         end ++ [10]
  end.

(** ** Reading *)

(** Line breaks: every CR LF and every other CR becomes LF. *)
Fixpoint newlines (s : pystr) : pystr :=
  match s with
  | [] => []
  | c :: r => if c =? 13 then 10 :: match r with
                                    | d :: r' => if d =? 10 then newlines r' else newlines r
                                    | [] => []
                                    end
              else c :: newlines r
  end.

Definition name_start (c : N) : bool :=
  ((65 <=? c) && (c <=? 90)) || ((97 <=? c) && (c <=? 122)) || (c =? 95).
Definition name_char (c : N) : bool :=
  name_start c || ((48 <=? c) && (c <=? 57)) || (c =? 45) || (c =? 46).
Definition xml_space (c : N) : bool := (c =? 32) || (c =? 9) || (c =? 10).

(** Where a reference stands. *)
Inductive refctx : Type := RText | RValue (t : pystr) (a : sdict pystr) (k v : pystr).
Inductive mode : Type :=
| MText
| MRef (r : refctx) (acc : pystr)                         (* after & *)
| MLt                                                     (* after < *)
| MOpen (t : pystr)
| MTag (t : pystr) (a : sdict pystr)                      (* after the name or an attribute *)
| MSpace (t : pystr) (a : sdict pystr)                    (* after white space there *)
| MKey (t : pystr) (a : sdict pystr) (k : pystr)
| MEq (t : pystr) (a : sdict pystr) (k : pystr)
| MValue (t : pystr) (a : sdict pystr) (k v : pystr)
| MSlash (t : pystr) (a : sdict pystr)
| MClose (t : pystr)
| MBang | MBangDash
| MComment (dashes : nat)
| MInstr (question : bool).
(** [open]: the open elements, innermost first; [root]: whether the document element began. *)
Record scan : Type := mk_scan { sc_mode : mode; sc_open : list pystr; sc_root : bool }.

Fixpoint decimal (acc : N) (s : pystr) : option N :=
  match s with
  | [] => Some acc
  | c :: r => if (48 <=? c) && (c <=? 57) then decimal (10 * acc + (c - 48)) r else None
  end.
Definition reference (s : pystr) : option N :=
  if str_eqb s (py "amp") then Some 38 else if str_eqb s (py "lt") then Some 60
  else if str_eqb s (py "gt") then Some 62 else if str_eqb s (py "quot") then Some 34
  else if str_eqb s (py "apos") then Some 39
  else match s with
       | 35 :: x :: r => match decimal 0 (x :: r) with
                         | Some c => if legal c then Some c else None
                         | None => None
                         end
       | _ => None
       end.

Definition start_tag (empty : bool) (t : pystr) (a : sdict pystr) (s : scan) : option (scan * list sax) :=
  match sc_open s, sc_root s with
  | [], true => None                                      (* a second document element *)
  | o, _ => if empty then Some (mk_scan MText o true, [SStart t a; SEnd t])
            else Some (mk_scan MText (t :: o) true, [SStart t a])
  end.
Definition goto (m : mode) (s : scan) : option (scan * list sax) := Some (mk_scan m (sc_open s) (sc_root s), []).

(** One character.  Text outside the document element must be white space and is not
    reported. *)
Definition scan_char (s : scan) (c : N) : option (scan * list sax) :=
  if negb (legal c) then None else
  match sc_mode s with
  | MText =>
      if c =? 60 then goto MLt s
      else match sc_open s with
           | [] => if xml_space c then goto MText s else None
           | _ => if c =? 38 then goto (MRef RText []) s else Some (s, [SChars [c]])
           end
  | MRef r acc =>
      if c =? 59 then
        match reference acc, r with
        | Some x, RText => Some (mk_scan MText (sc_open s) (sc_root s), [SChars [x]])
        | Some x, RValue t a k v => goto (MValue t a k (v ++ [x])) s
        | None, _ => None
        end
      else goto (MRef r (acc ++ [c])) s
  | MLt =>
      if c =? 33 then goto MBang s else if c =? 63 then goto (MInstr false) s
      else if c =? 47 then goto (MClose []) s
      else if name_start c then goto (MOpen [c]) s else None
  | MOpen t =>
      if name_char c then goto (MOpen (t ++ [c])) s
      else if xml_space c then goto (MSpace t []) s
      else if c =? 47 then goto (MSlash t []) s
      else if c =? 62 then start_tag false t [] s else None
  | MTag t a =>
      if xml_space c then goto (MSpace t a) s
      else if c =? 47 then goto (MSlash t a) s
      else if c =? 62 then start_tag false t a s else None
  | MSpace t a =>
      if xml_space c then goto (MSpace t a) s
      else if c =? 47 then goto (MSlash t a) s
      else if c =? 62 then start_tag false t a s
      else if name_start c then goto (MKey t a [c]) s else None
  | MKey t a k =>
      if name_char c then goto (MKey t a (k ++ [c])) s
      else if c =? 61 then (if smem k a then None else goto (MEq t a k) s) else None
  | MEq t a k => if c =? quote then goto (MValue t a k []) s else None
  | MValue t a k v =>
      if c =? quote then goto (MTag t (a ++ [(k, v)])) s
      else if c =? 38 then goto (MRef (RValue t a k v) []) s
      else if c =? 60 then None
      else goto (MValue t a k (v ++ [if xml_space c then 32 else c])) s
  | MSlash t a => if c =? 62 then start_tag true t a s else None
  | MClose t =>
      if name_char c then goto (MClose (t ++ [c])) s
      else if c =? 62 then
        match sc_open s with
        | o :: rest => if str_eqb o t then Some (mk_scan MText rest (sc_root s), [SEnd t]) else None
        | [] => None
        end
      else None
  | MBang => if c =? 45 then goto MBangDash s else None
  | MBangDash => if c =? 45 then goto (MComment 0) s else None
  | MComment d =>
      match d with
      | O => goto (MComment (if c =? 45 then 1 else 0)) s
      | 1%nat => goto (MComment (if c =? 45 then 2 else 0)) s
      | _ => if c =? 62 then goto MText s else None
      end
  | MInstr q => if q && (c =? 62) then goto MText s else goto (MInstr (c =? 63)) s
  end.

Fixpoint scan_from (cs : pystr) (s : scan) : option (list sax) :=
  match cs with
  | [] => match sc_mode s, sc_open s, sc_root s with
          | MText, [], true => Some []
          | _, _, _ => None
          end
  | c :: r => match scan_char s c with
              | Some (s', es) => option_map (app es) (scan_from r s')
              | None => None
              end
  end.
(** [None]: the document is refused (expat raises ExpatError). *)
Definition read_xml (text : pystr) : option (list sax) := scan_from (newlines text) (mk_scan MText [] false).

(** minidom's document from the calls: text goes to the text node before it, if any.  The
    elements under construction, innermost first, with their children in reverse. *)
Definition add_text (s : pystr) (kids : list xnode) : list xnode :=
  match kids with XText r :: k => XText (r ++ s) :: k | _ => XText s :: kids end.
Fixpoint dom_from (es : list sax) (open : list (pystr * sdict pystr * list xnode)) : option xnode :=
  match es with
  | [] => None
  | SStart t a :: r => dom_from r ((t, a, []) :: open)
  | SChars s :: r => match open with
                     | (t, a, k) :: o => dom_from r ((t, a, add_text s k) :: o)
                     | [] => None
                     end
  | SEnd _ :: r => match open with
                   | [(t, a, k)] => match r with [] => Some (XElem t a (rev k)) | _ => None end
                   | (t, a, k) :: (t2, a2, k2) :: o => dom_from r ((t2, a2, XElem t a (rev k) :: k2) :: o)
                   | [] => None
                   end
  end.

(** ** The two writers *)
Definition declaration : pystr := py "<?xml version=""1.0"" ?>" ++ [10].
Definition comment (s : pystr) : pystr := py "<!--" ++ s ++ py "-->" ++ [10].
(** XesXmlSerializer.py:84-95. *)
Definition xes_comments : list pystr :=
  [py "This file has been generated with the OpenXES library. It conforms";
   py "to the XML serialization of the XES standard for log storage and";
   py "management.";
   py "XES standard version: 1.0";
   py "OpenXES library version: 1.0RC7";
   py "OpenXES is available from http://www.openxes.org/"].
(** XMxmlSerializer.py:122-129. *)
Definition mxml_comments : list pystr :=
  [py "This file has been generated with the OpenXES library. It conforms";
   py "to the legacy MXML standard for log storage and management.";
   py "OpenXES library version: 1.0RC7";
   py "OpenXES is available from http://www.xes-standard.org/"].

(** XesXmlSerializer.py:83-100, XMxmlSerializer.py:121-133: the tree printed, read into a
    document, and printed with line breaks after the comments.  [None]: ExpatError. *)
Definition write_xml (comments : list pystr) (x : xnode) : option pystr :=
  match read_xml (et_print x) with
  | Some es => match dom_from es [] with
               | Some dom => Some (declaration ++ flat_map comment comments ++ dom_print 0 dom)
               | None => None
               end
  | None => None
  end.
