(** Nested cost values: /repo/src/opyenxes/extension/std/XAbstractNestedAttributeSupport.py
    and its three uses in XCostExtension.py. *)
From Coq Require Import String NArith ZArith List Bool.
From Verif Require Import Base.PyBase Base.PyVal Model.Attr Model.StdExt.
Import ListNotations.

Section Nested.
(** extract_value and assign_value (XAbstractNestedAttributeSupport.py:11-29) act on the
    attribute map of an attribute. *)
Context (extract_value : getter) (assign_value : setter).

(** __extract_nested_values_private__: XAbstractNestedAttributeSupport.py:109-120.  A list as
    a dictionary key raises TypeError (line 115), so a normal end leaves the dictionary empty;
    the key lists passed down have no other use. *)
Fixpoint extract_private (a : attr) : res unit :=
  match a with
  | mk_attr _ _ _ _ _ meta =>
      let! v := extract_value meta in
      if truthy v then Raise TypeError
      else
        let fix loop (m : list (pystr * attr)) : res unit :=
          match m with
          | [] => Ok tt
          | (_, x) :: t => match extract_private x with
                           | Ok _ => loop t
                           | Raise e => Raise e
                           end
          end in
        loop meta
  end.

(** The dictionary returned by extract_nested_values (XAbstractNestedAttributeSupport.py:102-107)
    and extract_values (62-67): empty, if there is no exception. *)
Definition extract_nested_values (m : sdict attr) : res (list (list pystr * pyval)) :=
  let! _ := fold_res (fun _ kv => extract_private (snd kv)) m tt in Ok [].
Definition extract_values (m : sdict attr) : res (sdict pyval) :=
  let! l := extract_nested_values m in
  Ok (flat_map (fun kv => match fst kv with [k] => [(k, snd kv)] | _ => [] end) l).

(** The attribute found under a key, or a new one: XAbstractNestedAttributeSupport.py:205-208. *)
Definition found (key : pystr) (m : sdict attr) : attr :=
  match sget key m with
  | Some b => b
  | None => mk_attr CLiteral key None (PStr []) [] []
  end.

(** __assign_nested_values_private__ on an attribute: XAbstractNestedAttributeSupport.py:195-210.
    The path is a tuple of keys.  Attributes created on the way stay when assign_value raises. *)
Fixpoint assign_private (path : list pystr) (v : pyval) (a : attr) : attr * res unit :=
  match a with
  | mk_attr c k x w coll meta =>
      match path with
      | [] => match assign_value v meta with
              | Ok meta' => (mk_attr c k x w coll meta', Ok tt)
              | Raise e => (a, Raise e)
              end
      | key :: tail =>
          let '(sub, r) := assign_private tail v (found key meta) in
          (mk_attr c k x w coll (sset key sub meta), r)
      end
  end.

(** The same on a log, trace or event with attribute map [m]: no attribute itself, so an empty
    path does nothing (line 200). *)
Definition assign_path (path : list pystr) (v : pyval) (m : sdict attr) : sdict attr * res unit :=
  match path with
  | [] => (m, Ok tt)
  | key :: tail => let '(sub, r) := assign_private tail v (found key m) in (sset key sub m, r)
  end.

(** assign_nested_values: XAbstractNestedAttributeSupport.py:192-193, on the entries of the
    dictionary in order. *)
Fixpoint assign_nested_values (amounts : list (list pystr * pyval)) (m : sdict attr) : sdict attr * res unit :=
  match amounts with
  | [] => (m, Ok tt)
  | (p, v) :: t => match assign_path p v m with
                   | (m', Ok _) => assign_nested_values t m'
                   | (m', Raise e) => (m', Raise e)
                   end
  end.

(** assign_values: XAbstractNestedAttributeSupport.py:148-154; a list as a dictionary key raises
    TypeError (line 152). *)
Definition assign_values (values : sdict pyval) (m : sdict attr) : sdict attr * res unit :=
  match values with
  | [] => assign_nested_values [] m
  | _ => (m, Raise TypeError)
  end.
End Nested.

(** XCostAmount, XCostDriver, XCostType: XCostExtension.py:9-84; extract_amounts,
    extract_nested_amounts, assign_amounts, assign_nested_amounts: XCostExtension.py:200-266,
    282-347, and the same for drivers (364-386, 402-428) and types (445-467, 496-509). *)
Definition extract_amounts := extract_values extract_amount.
Definition extract_nested_amounts := extract_nested_values extract_amount.
Definition assign_amounts := assign_values assign_amount.
Definition assign_nested_amounts := assign_nested_values assign_amount.
Definition extract_drivers := extract_values extract_driver.
Definition extract_nested_drivers := extract_nested_values extract_driver.
Definition assign_drivers := assign_values assign_driver.
Definition assign_nested_drivers := assign_nested_values assign_driver.
Definition extract_types := extract_values extract_type.
Definition extract_nested_types := extract_nested_values extract_type.
Definition assign_nested_types := assign_nested_values assign_type.
(** assign_types: XCostExtension.py:483-494 calls assign_nested_values, so a text used as a key
    is taken as the path of its characters. *)
Definition assign_types (types : sdict pyval) : sdict attr -> sdict attr * res unit :=
  assign_nested_types (map (fun kv => (map (fun c => [c]) (fst kv), snd kv)) types).
