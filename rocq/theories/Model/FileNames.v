(** File names and the choice of a parser: /repo/src/opyenxes/data_in. *)
From Coq Require Import String NArith List Bool.
From Verif Require Import Base.PyBase.
Import ListNotations.

(** ends_with_ignore_case: XesXmlParser.py:52-68 and XMxmlParser.py:60-74, the same code. *)
Definition ends_with_ignore_case (name suffix : pystr) : bool :=
  if Nat.ltb (List.length suffix) (List.length name)                   (* i > 0 *)
  then contains suffix (skipn (List.length name - List.length suffix) name)
  else false.

(** The parsers XParserRegistry.__init__ registers: XParserRegistry.py:18-24. *)
Inductive parser : Type := Mxml | MxmlGzip | Xes | XesGzip.

(** can_parse: XMxmlParser.py:33-41, XMxmlGZIPParser.py:15-23, XesXmlParser.py:26-34,
    XesXmlGZIPParser.py:16-24. *)
Definition can_parse (p : parser) (file : pystr) : bool :=
  match p with
  | Mxml => ends_with_ignore_case file (py ".mxml") || ends_with_ignore_case file (py ".xml")
  | MxmlGzip => ends_with_ignore_case file (py ".mxml.gz")
  | Xes => ends_with_ignore_case file (py ".xes")
  | XesGzip => ends_with_ignore_case file (py ".xes.gz")
  end.

(** XUniversalParser.can_parse: XUniversalParser.py:11-23, over the registered parsers in
    the order the set is walked. *)
Definition universal_can_parse (ps : list parser) (file : pystr) : bool :=
  existsb (fun p => can_parse p file) ps.

(** XUniversalParser.parse: XUniversalParser.py:25-43.  [run p] is the outcome of
    [p.parse(file)]; a failure is printed and the search goes on. *)
Fixpoint universal_parse {A} (run : parser -> res A) (ps : list parser) (file : pystr) : res A :=
  match ps with
  | [] => Raise PlainException
  | p :: ps => if can_parse p file then
                 match run p with
                 | Ok a => Ok a
                 | Raise _ => universal_parse run ps file
                 end
               else universal_parse run ps file
  end.

(** get_suffices of the serializer for each format: XMxmlSerializer.py:29-36,
    XMxmlGZIPSerializer.py:26-33, XesXmlSerializer.py:31-38, XesXmlGZIPSerializer.py:24-31. *)
Definition suffices (p : parser) : list pystr :=
  match p with
  | Mxml => [py "mxml"]
  | MxmlGzip => [py "mxml.gz"]
  | Xes => [py "xes"]
  | XesGzip => [py "xez"; py "xes.gz"]
  end.
