(** What the properties of extension definitions are stated with. *)
From Coq Require Import String NArith ZArith List Bool.
From Verif Require Import Base.PyBase Base.PyDate Base.PyVal Base.Xml Model.Attr Model.NameMap Model.ExtParse.
Import ListNotations.

(** An element that names an extension, a level, an attribute of a class, or an alias. *)
Definition is_extension (e : sax) : Prop := exists t a, e = SStart t a /\ lower t = py "xesextension".
Definition is_level (e : sax) : Prop :=
  exists t a, e = SStart t a /\ In (lower t) [py "log"; py "trace"; py "event"; py "meta"].
Definition tag_class (t : pystr) (c : acls) : Prop :=
  In (lower t, c) [(py "string", CLiteral); (py "date", CTimestamp); (py "int", CDiscrete);
                   (py "float", CContinuous); (py "boolean", CBoolean); (py "id", CID)].
Definition is_attribute (e : sax) : Prop :=
  (exists t a c, e = SStart t a /\ tag_class t c) \/ (exists t c, e = SEnd t /\ tag_class t c).
Definition is_alias_of (m : pystr) (e : sax) : Prop :=
  exists t a, e = SStart t a /\ lower t = py "alias" /\ sget (py "mapping") a = Some m.
(** No attribute element is open after [b]: there was none, or the last one has ended. *)
Definition no_attribute_open (b : list sax) : Prop :=
  (forall e, In e b -> ~ is_attribute e)
  \/ exists b1 t c mid, b = b1 ++ SEnd t :: mid /\ tag_class t c /\ forall e, In e mid -> ~ is_attribute e.

(** How many connections are tried. *)
Definition tries (es : list sax) : nat :=
  List.length (filter (fun e => match e with SStart t _ => str_eqb (lower t) (py "xesextension") | _ => false end) es).

Section Def.
Variables (urlparse : pystr -> res pystr) (urlopen : nat -> pystr -> opened).

(** An extension element, reached through its URI as the [n]-th connection. *)
Definition reached (n : nat) (e : sax) (x : xext) : Prop :=
  exists t a u, e = SStart t a /\ lower t = py "xesextension"
    /\ sget (py "name") a = Some (x_name x) /\ sget (py "prefix") a = Some (x_prefix x)
    /\ sget (py "uri") a = Some u /\ urlparse u = Ok (x_uri x) /\ urlopen n u = Opened.

(** [x] is the last extension reached in [es], and [after] follows it. *)
Definition last_reached (es : list sax) (x : xext) (after : list sax) : Prop :=
  exists before e, es = before ++ e :: after /\ reached (tries before) e x
    /\ forall b e' c x', after = b ++ e' :: c -> ~ reached (S (tries before) + tries b) e' x'.
Definition none_reached (es : list sax) : Prop :=
  forall b e c x, es = b ++ e :: c -> ~ reached (tries b) e x.
(** An extension element that has what is read from it. *)
Definition complete_ext (e : sax) : Prop := forall t a, e = SStart t a -> lower t = py "xesextension" ->
  exists n p u v, sget (py "name") a = Some n /\ sget (py "prefix") a = Some p /\ sget (py "uri") a = Some u /\ urlparse u = Ok v.
End Def.

(** The attribute an element of class [c] with key [k] declares, up to the value. *)
Definition declared_as (x : xext) (c : acls) (k : pystr) (a : attr) : Prop :=
  a_cls a = c /\ a_key a = x_prefix x ++ py ":" ++ k /\ a_ext a = Some x /\ a_coll a = [] /\ a_meta a = [].
Definition default_value (epoch : datetime) (a : attr) : Prop :=
  match a_cls a with
  | CLiteral => a_val a = PStr (py "DEFAULT")
  | CTimestamp => a_val a = PDate epoch
  | CDiscrete => a_val a = PInt 0
  | CContinuous => a_val a = PFloat (SpecFloat.S754_zero false)
  | CBoolean => a_val a = PBool false
  | CID => exists u, a_val a = PXid u
  | CList | CContainer => False
  end.

(** Every value of [l] is in [s], by itself or by an equal attribute. *)
Definition represented (a : attr) (s : list attr) : Prop := exists b, In b s /\ (b = a \/ attr_eq false a b = true).
Definition is_query (o : xop) : bool := match o with XQuery => true | _ => false end.
(** The edits of a level in a history. *)
Definition edits_of (l : level) (h : list xop) : list (list attr -> list attr) :=
  flat_map (fun o => match o, l with
                     | XEdit LLog f, LLog | XEdit LTrace f, LTrace | XEdit LEvent f, LEvent | XEdit LMeta f, LMeta => [f]
                     | _, _ => []
                     end) h.
