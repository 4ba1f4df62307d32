(** What is wrong with an extension definition. *)
From Coq Require Import String NArith ZArith List Bool.
From Verif Require Import Base.PyBase Base.PyVal Base.Xml Model.Attr Model.ExtParse Spec.ExtDef.
Import ListNotations.

(** An attribute element is open after [b]: the last attribute tag of [b] is a start tag. *)
Definition attribute_open (b : list sax) : Prop :=
  exists b1 t a c mid, b = b1 ++ SStart t a :: mid /\ tag_class t c /\ forall e, In e mid -> ~ is_attribute e.
Definition lacks (a : sdict pystr) (names : list pystr) : Prop := exists n, In n names /\ sget n a = None.

Section Faults.
Variables (urlparse : pystr -> res pystr) (urlopen : nat -> pystr -> opened).

(** The fault of a start tag after [b], with the exception it stands for: an extension without
    name, prefix or URI, with a URI that is no URL or cannot be opened in an unforeseen way; a
    level or an attribute before any extension was reached; an attribute without key; an alias
    of an attribute without mapping or name. *)
Inductive fault (b : list sax) (t : pystr) (a : sdict pystr) : exn -> Prop :=
| flt_extension : lower t = py "xesextension" -> lacks a [py "name"; py "prefix"; py "uri"] -> fault b t a KeyError
| flt_uri u e : lower t = py "xesextension" -> ~ lacks a [py "name"; py "prefix"; py "uri"] ->
    sget (py "uri") a = Some u -> urlparse u = Raise e -> fault b t a e
| flt_open u v e : lower t = py "xesextension" -> ~ lacks a [py "name"; py "prefix"; py "uri"] ->
    sget (py "uri") a = Some u -> urlparse u = Ok v -> urlopen (tries b) u = Broken e -> fault b t a e
| flt_early : is_level (SStart t a) \/ (exists c, tag_class t c) -> none_reached urlparse urlopen b -> fault b t a AttributeError
| flt_key c : tag_class t c -> ~ none_reached urlparse urlopen b -> lacks a [py "key"] -> fault b t a KeyError
| flt_alias : lower t = py "alias" -> attribute_open b -> lacks a [py "mapping"; py "name"] -> fault b t a KeyError.

(** Nothing in [es] is wrong. *)
Definition faultless (es : list sax) : Prop := forall b t a c e, es = b ++ SStart t a :: c -> ~ fault b t a e.
End Faults.

(** The start tags of a good definition after the extension: everything is there, and there is
    no further extension. *)
Definition good_tag (t : pystr) (a : sdict pystr) : Prop :=
  lower t <> py "xesextension"
  /\ ((exists c, tag_class t c) -> ~ lacks a [py "key"])
  /\ (lower t = py "alias" -> ~ lacks a [py "mapping"; py "name"]).
