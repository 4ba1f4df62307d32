(** Attribute name mappings: /repo/src/opyenxes/info/XAttributeNameMap.py,
    XGlobalAttributeNameMap.py. *)
From Coq Require Import String NArith ZArith List Bool.
From Verif Require Import Base.PyBase Base.PyVal Model.Attr.
Import ListNotations.

(** XAttributeNameMap.__init__: XAttributeNameMap.py:10-12. *)
Record namemap : Type := mk_nm { nm_name : pystr; nm_map : sdict pystr }.

(** The global facility with all name map objects.  Maps are objects: [g_heap] holds them,
    [g_maps] and [g_std] refer to positions. *)
Record gmaps : Type := mk_gm { g_heap : list namemap; g_maps : sdict nat; g_std : nat }.

(** __init__: XGlobalAttributeNameMap.py:22-24. *)
Definition gm_init : gmaps := mk_gm [mk_nm (py "EN") []] [(py "EN", 0)] 0.

(** An argument that may be a key, an attribute, or something else. *)
Inductive karg : Type := KStr (k : pystr) | KAttr (a : attr) | KOther.
Definition karg_key (x : karg) : option pystr :=
  match x with KStr k => Some k | KAttr a => Some (a_key a) | KOther => None end.

(** map: XAttributeNameMap.py:22-36. *)
Definition nm_lookup (m : namemap) (x : karg) : option pystr :=
  match karg_key x with Some k => sget k (nm_map m) | None => None end.

(** register_mapping: XAttributeNameMap.py:38-51. *)
Definition nm_register (m : namemap) (x : karg) (alias : pyval) : namemap :=
  match alias, karg_key x with
  | PStr al, Some k => mk_nm (nm_name m) (sset k al (nm_map m))
  | _, _ => m
  end.

(** get_mapping: XGlobalAttributeNameMap.py:47-63. *)
Definition gm_get_mapping (g : gmaps) (n : pystr) : gmaps * nat :=
  match sget n (g_maps g) with
  | Some l => (g, l)
  | None => let l := List.length (g_heap g) in
            (mk_gm (g_heap g ++ [mk_nm n []]) (sset n l (g_maps g)) (g_std g), l)
  end.

(** register_mapping on a map object. *)
Definition gm_map_register (g : gmaps) (l : nat) (x : karg) (alias : pyval) : gmaps :=
  mk_gm (update l (fun m => nm_register m x alias) (g_heap g)) (g_maps g) (g_std g).

(** register_mapping: XGlobalAttributeNameMap.py:112-126. *)
Definition gm_register (g : gmaps) (n : pystr) (x : karg) (alias : pyval) : gmaps :=
  let '(g1, l) := gm_get_mapping g n in gm_map_register g1 l x alias.

(** Histories: also maps made outside the facility ([NNew]). *)
Inductive nop : Type :=
| NNew (n : pystr)
| NGet (n : pystr)
| NRegister (l : nat) (x : karg) (alias : pyval)
| NGlobal (n : pystr) (x : karg) (alias : pyval).
Definition nstep (g : gmaps) (o : nop) : gmaps :=
  match o with
  | NNew n => mk_gm (g_heap g ++ [mk_nm n []]) (g_maps g) (g_std g)
  | NGet n => fst (gm_get_mapping g n)
  | NRegister l x al => gm_map_register g l x al
  | NGlobal n x al => gm_register g n x al
  end.
Definition nrun (h : list nop) : gmaps := fold_left nstep h gm_init.

(** [g.heap[l].map(x)] *)
Definition gm_map_of (g : gmaps) (l : nat) (x : karg) : option pystr :=
  match nth_error (g_heap g) l with Some m => nm_lookup m x | None => None end.

(** map: XGlobalAttributeNameMap.py:137-148, through the standard mapping. *)
Definition gm_map (g : gmaps) (x : karg) : option pystr := gm_map_of g (g_std g) x.

(** The second argument of map_safely. *)
Inductive marg : Type := MObj (l : nat) | MName (n : pystr) | MOther.

(** map_safely with a map object: XGlobalAttributeNameMap.py:90-104. *)
Definition gm_safely_obj (g : gmaps) (x : karg) (l : nat) : option pystr :=
  match karg_key x with
  | Some k =>
      match gm_map_of g l (KStr k) with
      | Some al => Some al
      | None => match gm_map_of g (g_std g) (KStr k) with
                | Some al => Some al
                | None => Some k
                end
      end
  | None => None
  end.
(** map_safely: XGlobalAttributeNameMap.py:74-110.  With an unknown name, [__mappings.get]
    gives None, which no branch accepts. *)
Definition gm_safely (g : gmaps) (x : karg) (m : marg) : option pystr :=
  match m with
  | MObj l => gm_safely_obj g x l
  | MName n => match sget n (g_maps g) with
               | Some l => gm_safely_obj g x l
               | None => None
               end
  | MOther => None
  end.

(** __str__: XAttributeNameMap.py:53-63, XGlobalAttributeNameMap.py:150-156. *)
Definition nm_str (m : namemap) : pystr :=
  py "Attribute name map: " ++ nm_name m
  ++ flat_map (fun kv => [10%N] ++ fst kv ++ py " -> " ++ snd kv) (nm_map m).
Definition gm_str (g : gmaps) : pystr :=
  py "Global attribute name map." ++ [10; 10]%N ++ py "Contained maps:" ++ [10; 10]%N
  ++ flat_map (fun kv => match nth_error (g_heap g) (snd kv) with
                         | Some m => nm_str m ++ [10; 10]%N
                         | None => []
                         end) (g_maps g).

(** get_available_mapping_names: XGlobalAttributeNameMap.py:26-33. *)
Definition gm_names (g : gmaps) : list pystr := map fst (g_maps g).

(** get_available_mappings: XGlobalAttributeNameMap.py:35-45.  The map objects; they compare
    by identity, and go through a set, so that the tuple is in no fixed order (here: that of
    the dictionary). *)
Definition gm_available (g : gmaps) : list nat :=
  fold_left (fun s kv => if existsb (Nat.eqb (snd kv)) s then s else s ++ [snd kv]) (g_maps g) [].

(** get_standard_mapping: XGlobalAttributeNameMap.py:65-72. *)
Definition gm_standard (g : gmaps) : nat := g_std g.
