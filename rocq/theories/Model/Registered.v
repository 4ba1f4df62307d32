(** The registries of parsers and factories while a program changes them:
    /repo/src/opyenxes/data_in/XParserRegistry.py, data_out/XSerializerRegistry.py,
    factory/XFactoryRegistry.py, data_in/XUniversalParser.py. *)
From Coq Require Import String NArith List Bool Arith.
From Verif Require Import Base.PyBase Base.Codec Model.Registry Model.FileNames Model.Files.
Import ListNotations.

(** The class of a parser: one of the four of the library, or one of the program's own. *)
Inductive pclass : Type := Std (p : parser) | Custom (c : nat).

(** A parser object.  [po_factory] is the attribute [factory]; factories are objects, told
    apart by numbers. *)
Record pobj : Type := mk_pobj { po_class : pclass; po_factory : option nat }.

(** Parsers and factories have no [__eq__]: registries compare them by identity.  A parser is
    named by its place among all that were made. *)
Record lib : Type := mk_lib {
  l_factories : registry nat;      (* XFactoryRegistry() *)
  l_parsers : registry nat;        (* XParserRegistry() *)
  l_objs : list pobj }.

(** __init__ of a parser: XesXmlParser.py:20-24, XMxmlParser.py:26-30, XesXmlGZIPParser.py:12-13,
    XMxmlGZIPParser.py:11-12.  Factories are taken to be true. *)
Definition new_parser (l : lib) (c : pclass) (factory : option nat) : pobj :=
  mk_pobj c (match factory with Some f => Some f | None => reg_default (l_factories l) end).

(** XFactoryRegistry.__init__: XFactoryRegistry.py:21-23.  The [XFactory()] made there is 0. *)
Definition std_factories : registry nat := reg_set_default Nat.eqb reg_empty 0.

(** XParserRegistry.__init__: XParserRegistry.py:18-24; XSerializerRegistry.__init__ has the same
    calls for the serializers of the four formats: XSerializerRegistry.py:18-25. *)
Definition std_parsers : registry nat :=
  reg_set_default Nat.eqb
    (reg_register Nat.eqb (reg_register Nat.eqb (reg_register Nat.eqb reg_empty 0) 1) 2) 3.

(** The state once both registries exist.  Simplification: they are made when first asked for;
    here both are made at the start. *)
Definition lib_init : lib :=
  let l := mk_lib std_factories reg_empty [] in
  mk_lib std_factories std_parsers
         (map (fun p => new_parser l (Std p) None) [Mxml; MxmlGzip; Xes; XesGzip]).

(** What a program may do: XRegistry.py:25-43 on either registry, and making parsers. *)
Inductive lib_op : Type :=
| AddFactory (f : nat)                           (* XFactoryRegistry().register(f) *)
| SetFactory (f : nat)                           (* XFactoryRegistry().set_current_default(f) *)
| MakeParser (c : pclass) (factory : option nat)
| AddParser (i : nat)                            (* XParserRegistry().register(i) *)
| SetParser (i : nat).                           (* XParserRegistry().set_current_default(i) *)

Definition lib_step (l : lib) (o : lib_op) : lib :=
  match o with
  | AddFactory f => mk_lib (reg_register Nat.eqb (l_factories l) f) (l_parsers l) (l_objs l)
  | SetFactory f => mk_lib (reg_set_default Nat.eqb (l_factories l) f) (l_parsers l) (l_objs l)
  | MakeParser c f => mk_lib (l_factories l) (l_parsers l) (l_objs l ++ [new_parser l c f])
  | AddParser i => mk_lib (l_factories l) (reg_register Nat.eqb (l_parsers l) i) (l_objs l)
  | SetParser i => mk_lib (l_factories l) (reg_set_default Nat.eqb (l_parsers l) i) (l_objs l)
  end.
Definition lib_run (h : list lib_op) : lib := fold_left lib_step h lib_init.

(** A file object as [open(path)] gives it: its name, what has not been read, whether closed. *)
Record fobj : Type := mk_fobj { fo_name : pystr; fo_rest : bytes; fo_closed : bool }.
Definition close (f : fobj) : fobj := mk_fobj (fo_name f) (fo_rest f) true.

Section Parse.
(** [read p factory b]: what the code for a format makes of the bytes [b] of a file, when its
    objects are made by [factory] (Model/Files.v has it for the standard factory).  The
    program's own parsers are arbitrary. *)
Context {A : Type} (read : parser -> nat -> bytes -> res A)
        (custom_accepts : nat -> pystr -> bool) (custom_parse : nat -> fobj -> fobj * res A).

(** The factory asked for each element: [XesXmlParser().factory] (XesXmlParser.py:105-193) or
    [XMxmlParser().factory] (XMxmlParser.py:118-162), a parser made on the spot. *)
Definition asked (l : lib) (p : parser) : option nat :=
  po_factory (new_parser l (Std (match p with Xes | XesGzip => Xes | Mxml | MxmlGzip => Mxml end)) None).
Definition read_with (l : lib) (p : parser) (b : bytes) : res A :=
  match asked l p with None => Raise AttributeError | Some factory => read p factory b end.

(** parse: XesXmlParser.py:36-50, XMxmlParser.py:43-58 (xml.sax.parse closes what it was given,
    also when it fails; a closed file cannot be read), XesXmlGZIPParser.py:26-38,
    XMxmlGZIPParser.py:24-37 (the file is closed and opened again by its name). *)
Definition std_parse (l : lib) (d : disk) (p : parser) (f : fobj) : fobj * res A :=
  if compressed p then
    (close f, match sget (fo_name f) d with None => Raise OSError | Some b => read_with l p b end)
  else if fo_closed f then (f, Raise ValueError)
  else (close f, read_with l p (fo_rest f)).

(** [parser.parse(file)] and [parser.can_parse(name)] for an object. *)
Definition obj_parse (l : lib) (d : disk) (i : nat) (f : fobj) : fobj * res A :=
  match nth_error (l_objs l) i with
  | None => (f, Raise AttributeError)
  | Some o => match po_class o with Std p => std_parse l d p f | Custom c => custom_parse c f end
  end.
Definition obj_accepts (l : lib) (i : nat) (name : pystr) : bool :=
  match nth_error (l_objs l) i with
  | None => false
  | Some o => match po_class o with Std p => can_parse p name | Custom c => custom_accepts c name end
  end.

(** XUniversalParser.parse: XUniversalParser.py:25-43, over the registered parsers in the order
    the set is walked. *)
Fixpoint search (l : lib) (d : disk) (order : list nat) (f : fobj) : fobj * res A :=
  match order with
  | [] => (f, Raise PlainException)
  | i :: order =>
      if obj_accepts l i (fo_name f) then
        match obj_parse l d i f with
        | (f', Ok a) => (f', Ok a)
        | (f', Raise _) => search l d order f'
        end
      else search l d order f
  end.
End Parse.
