(** The XES document that stands for a log: elements, their order, and the text of values. *)
From Coq Require Import String NArith ZArith List Bool.
From Verif Require Import Base.PyBase Base.PyDate Base.PyVal Base.Xml Model.Attr Model.Log Spec.DateText Spec.Registries.
Import ListNotations.

Section Written.
Context `{FIO : FloatIO}.

(** ** Texts *)

Definition horner (b : Z) (ds : list Z) : Z := fold_left (fun n d => b * n + d)%Z ds 0%Z.
(** Decimal digits without leading zeros, a sign only if negative. *)
Definition int_text (z : Z) (t : pystr) : Prop :=
  exists ds, ds <> [] /\ Forall (fun d => 0 <= d <= 9)%Z ds /\ (hd 1%Z ds = 0%Z -> ds = [0%Z])
  /\ horner 10 ds = Z.abs z /\ t = (if (z <? 0)%Z then py "-" else []) ++ map digit ds.
(** 32 hexadecimal digits, capitals, in groups of 8, 4, 4, 4 and 12. *)
Definition hex_digit (d : Z) : N := Z.to_N (if (d <? 10)%Z then 48 + d else 55 + d).
Definition id_text (u : N) (t : pystr) : Prop :=
  exists a b c d e, map (@List.length Z) [a; b; c; d; e] = [8; 4; 4; 4; 12]%nat
  /\ Forall (fun x => 0 <= x <= 15)%Z (a ++ b ++ c ++ d ++ e) /\ horner 16 (a ++ b ++ c ++ d ++ e) = Z.of_N u
  /\ t = join (py "-") (map (map hex_digit) [a; b; c; d; e]).
(** Milliseconds always; "Z" if there is no zone, nothing if it is UTC, else the offset. *)
Definition date_text (d : datetime) (t : pystr) : Prop :=
  exists a b c z, (0 <= a <= 9 /\ 0 <= b <= 9 /\ 0 <= c <= 9)%Z /\ (100 * a + 10 * b + c = us d / 1000)%Z
  /\ t = write_date (yr d) (mo d) (dy d) (hh d) (mi d) (ss d) [a; b; c] z
  /\ match tz d with
     | None => z = ZZulu
     | Some w => if (tz_off w =? 0)%Z then z = ZNone
                 else (exists h m, z = ZPlus h m \/ z = ZMinus h m) /\ zone_ok z /\ (zone_minutes z * 60000000 = tz_off w)%Z
     end.

(** The tag and the text of a value. *)
Inductive typed_text : pyval -> pystr -> pystr -> Prop :=
| text_string s : typed_text (PStr s) (py "string") s
| text_int z t : int_text z t -> typed_text (PInt z) (py "int") t
| text_float f : typed_text (PFloat f) (py "float") (float_repr f)
| text_true : typed_text (PBool true) (py "boolean") (py "true")
| text_false : typed_text (PBool false) (py "boolean") (py "false")
| text_id u t : id_text u t -> typed_text (PXid u) (py "id") t
| text_date d t : date_text d t -> typed_text (PDate d) (py "date") t.

(** ** Elements *)

Inductive attr_elem : attr -> xnode -> Prop :=
| elem_value c k e v coll meta tag t kids : is_collection c = false -> typed_text v tag t ->
    Forall2 attr_elem (map snd meta) kids ->
    attr_elem (mk_attr c k e v coll meta) (XElem tag [(py "key", k); (py "value", t)] kids)
| elem_list k e v coll meta kids : Forall2 attr_elem coll kids ->
    attr_elem (mk_attr CList k e v coll meta) (XElem (py "list") [(py "key", k)] kids)
| elem_container k e v coll meta kids : Forall2 attr_elem coll kids ->
    attr_elem (mk_attr CContainer k e v coll meta) (XElem (py "container") [(py "key", k)] kids).
Definition attr_elems (m : sdict attr) : list xnode -> Prop := Forall2 attr_elem (map snd m).

(** Only if there are any. *)
Definition global_elem (scope : string) (l : list attr) (ns : list xnode) : Prop :=
  match l with
  | [] => ns = []
  | _ => exists kids, Forall2 attr_elem l kids /\ ns = [XElem (py "global") [(py "scope", py scope)] kids]
  end.
Definition event_elem (e : event) (n : xnode) : Prop :=
  exists kids, attr_elems (ev_attrs e) kids /\ n = XElem (py "event") [] kids.
Definition trace_elem (t : trace) (n : xnode) : Prop :=
  exists kids events, attr_elems (tr_attrs t) kids /\ Forall2 event_elem (tr_events t) events
  /\ n = XElem (py "trace") [] (kids ++ events).
Definition ext_elem (x : xext) : xnode :=
  XElem (py "extension") [(py "name", x_name x); (py "prefix", x_prefix x); (py "uri", x_uri x)] [].
Definition classifier_elem (c : classifier) : xnode :=
  XElem (py "classifier")
    [(py "name", cl_name c);
     (py "keys", join (py " ") (map quoted (filter (fun k => negb (Nat.eqb (List.length k) 0)) (cl_keys c))))] [].
Definition log_elem (l : xlog) (n : xnode) : Prop :=
  exists gt ge kids traces,
    global_elem "trace" (lg_gtrace l) gt /\ global_elem "event" (lg_gevent l) ge
    /\ attr_elems (lg_attrs l) kids /\ Forall2 trace_elem (lg_traces l) traces
    /\ n = XElem (py "log")
             [(py "xes.version", py "1.0"); (py "xes.features", py "nested-attributes"); (py "openxes.version", py "1.0RC7")]
             (map ext_elem (lg_exts l) ++ gt ++ ge ++ map classifier_elem (lg_classifiers l) ++ kids ++ traces).
End Written.

(** Values of the type of their class; date-times with a zone of whole minutes; ids of 128 bits. *)
Definition proper (a : attr) : Prop :=
  match a_cls a, a_val a with
  | CLiteral, PStr _ | CDiscrete, PInt _ | CContinuous, PFloat _ | CBoolean, PBool _ => True
  | CID, PXid u => (u < 2 ^ 128)%N
  | CTimestamp, PDate d => valid_dt d = true /\ minute_zone d
  | (CList | CContainer), _ => True
  | _, _ => False
  end.
