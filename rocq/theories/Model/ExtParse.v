(** Extension objects (/repo/src/opyenxes/extension/XExtension.py) and the parser of extension
    definition files (/repo/src/opyenxes/extension/XExtensionParser.py), on the sequence of SAX
    events. *)
From Coq Require Import String NArith ZArith List Bool SpecFloat.
From Verif Require Import Base.PyBase Base.PyDate Base.PyVal Base.Xml Model.Attr Model.NameMap.
Import ListNotations.

(** XExtension.__init__: XExtension.py:16-24.  Sets of attributes are lists without equal
    elements.  Simplification: two occurrences are never the same object (only visible for
    attributes that are not equal to themselves). *)
Record xobj : Type := mk_xobj {
  xo_id : xext;
  xo_log : list attr; xo_trace : list attr; xo_event : list attr; xo_meta : list attr;
  xo_all : option (list attr)
}.
Definition xo_new (x : xext) : xobj := mk_xobj x [] [] [] [] None.

(** [set.add], [set.update] on sets of attributes. *)
Definition aset_add (a : attr) (s : list attr) : list attr := set_add (attr_eq false) a s.
Definition aset_update (s t : list attr) : list attr := fold_left (fun s a => aset_add a s) t s.

(** get_defined_attributes: XExtension.py:55-69. *)
Definition xo_defined (x : xobj) : xobj * list attr :=
  match xo_all x with
  | Some s => (x, s)
  | None =>
      let s := aset_update (aset_update (aset_update (aset_update [] (xo_log x)) (xo_trace x)) (xo_event x)) (xo_meta x) in
      (mk_xobj (xo_id x) (xo_log x) (xo_trace x) (xo_event x) (xo_meta x) (Some s), s)
  end.

(** The getters of the four levels (XExtension.py:71-105) return the very sets, so callers edit
    them freely. *)
Inductive level : Type := LLog | LTrace | LEvent | LMeta.
Definition xo_level (l : level) (x : xobj) : list attr :=
  match l with LLog => xo_log x | LTrace => xo_trace x | LEvent => xo_event x | LMeta => xo_meta x end.
Definition xo_edit (l : level) (f : list attr -> list attr) (x : xobj) : xobj :=
  let '(mk_xobj i lo tr ev me al) := x in
  match l with
  | LLog => mk_xobj i (f lo) tr ev me al
  | LTrace => mk_xobj i lo (f tr) ev me al
  | LEvent => mk_xobj i lo tr (f ev) me al
  | LMeta => mk_xobj i lo tr ev (f me) al
  end.
Inductive xop : Type := XEdit (l : level) (f : list attr -> list attr) | XQuery.
Definition xo_step (x : xobj) (o : xop) : xobj :=
  match o with XEdit l f => xo_edit l f x | XQuery => fst (xo_defined x) end.
Definition xo_run (h : list xop) (x : xobj) : xobj := fold_left xo_step h x.

(** ** The parser *)

(** What [request.urlopen] does: answer, raise URLError, or raise something else. *)
Inductive opened : Type := Opened | Unreachable | Broken (e : exn).

(** XExtensionHandler: XExtensionParser.py:22-39, with the global name map it writes to and the
    numbers of ids drawn and connections tried so far.  [__xAttributes] is set again before
    every use. *)
Record estate : Type := mk_es {
  e_ext : option xobj; e_cur : option attr; e_names : gmaps; e_drawn : nat; e_tried : nat
}.
Definition es_init (g : gmaps) : estate := mk_es None None g 0 0.

(** The six attribute tags: XExtensionParser.py:78-112. *)
Definition decl_tag (t : pystr) : option acls :=
  if str_eqb t (py "string") then Some CLiteral
  else if str_eqb t (py "date") then Some CTimestamp
  else if str_eqb t (py "int") then Some CDiscrete
  else if str_eqb t (py "float") then Some CContinuous
  else if str_eqb t (py "boolean") then Some CBoolean
  else if str_eqb t (py "id") then Some CID
  else None.
Definition level_tag (t : pystr) : bool :=
  str_eqb t (py "log") || str_eqb t (py "trace") || str_eqb t (py "event") || str_eqb t (py "meta").

(** [attributes.getValue(k)] *)
Definition get_val (k : pystr) (atts : sdict pystr) : res pystr :=
  match sget k atts with Some v => Ok v | None => Raise KeyError end.

Section Parser.
(** [urlparse] as a map between texts (see [xext]), the outcome of the n-th [urlopen], the ids
    drawn, and [datetime.fromtimestamp(0)]. *)
Variables (urlparse : pystr -> res pystr) (urlopen : nat -> pystr -> opened) (draw : nat -> N) (epoch : datetime).

(** The value a declared attribute gets: XExtensionParser.py:81, 87, 93, 99, 105, 111. *)
Definition decl_value (c : acls) (n : nat) : pyval :=
  match c with
  | CLiteral => PStr (py "DEFAULT")
  | CTimestamp => PDate epoch
  | CDiscrete => PInt 0
  | CContinuous => PFloat (S754_zero false)
  | CBoolean => PBool false
  | CID => PXid (draw n)
  | CList | CContainer => PNone
  end.

(** XExtensionParser.py:58-67. *)
Definition ext_start_extension (atts : sdict pystr) (s : estate) : res estate :=
  let! name := get_val (py "name") atts in
  let! prefix := get_val (py "prefix") atts in
  let! u := get_val (py "uri") atts in
  let! uri := urlparse u in
  match urlopen (e_tried s) u with
  | Broken e => Raise e
  | Unreachable => Ok (mk_es (e_ext s) (e_cur s) (e_names s) (e_drawn s) (S (e_tried s)))
  | Opened => Ok (mk_es (Some (xo_new (mk_xext name prefix uri))) (e_cur s) (e_names s) (e_drawn s) (S (e_tried s)))
  end.

(** XExtensionParser.py:78-112: the same four lines for each type. *)
Definition ext_start_attr (c : acls) (atts : sdict pystr) (s : estate) : res estate :=
  match e_ext s with
  | None => Raise AttributeError
  | Some x =>
      let! k := get_val (py "key") atts in
      let a := mk_attr c (x_prefix (xo_id x) ++ py ":" ++ k) (Some (xo_id x)) (decl_value c (e_drawn s)) [] [] in
      Ok (mk_es (Some (xo_edit LLog (aset_add a) x)) (Some a) (e_names s)
                (match c with CID => S (e_drawn s) | _ => e_drawn s end) (e_tried s))
  end.

(** XExtensionParser.py:114-117. *)
Definition ext_start_alias (atts : sdict pystr) (s : estate) : res estate :=
  match e_cur s with
  | None => Ok s
  | Some a =>
      let! mapping := get_val (py "mapping") atts in
      let! name := get_val (py "name") atts in
      Ok (mk_es (e_ext s) (e_cur s) (gm_register (e_names s) mapping (KStr (a_key a)) (PStr name)) (e_drawn s) (e_tried s))
  end.

(** startElement: XExtensionParser.py:47-117; the four level elements only fail if there is no
    extension. *)
Definition ext_start (tag : pystr) (atts : sdict pystr) (s : estate) : res estate :=
  let t := lower tag in
  if str_eqb t (py "xesextension") then ext_start_extension atts s
  else if level_tag t then match e_ext s with None => Raise AttributeError | Some _ => Ok s end
  else match decl_tag t with
  | Some c => ext_start_attr c atts s
  | None => if str_eqb t (py "alias") then ext_start_alias atts s else Ok s
  end.

(** endElement: XExtensionParser.py:119-129. *)
Definition ext_end (tag : pystr) (s : estate) : estate :=
  match decl_tag (lower tag) with
  | Some _ => mk_es (e_ext s) None (e_names s) (e_drawn s) (e_tried s)
  | None => s
  end.

Definition ext_step (s : estate) (e : sax) : res estate :=
  match e with
  | SStart t a => ext_start t a s
  | SEnd t => Ok (ext_end t s)
  | SChars _ => Ok s
  end.
Definition ext_run (es : list sax) (s : estate) : res estate := fold_res ext_step es s.

(** parse: XExtensionParser.py:131-148.  [None]: the path is a directory; [Some doc]: what the
    file or the address delivers. *)
Definition ext_parse (doc : option xnode) (g : gmaps) : res (option xobj * gmaps) :=
  match doc with
  | None => Ok (None, g)
  | Some d => let! s := ext_run (sax_of d) (es_init g) in Ok (e_ext s, e_names s)
  end.
End Parser.
