(** Registries, the extension manager, singletons: /repo/src/opyenxes/utils/XRegistry.py,
    extension/XExtensionManager.py, utils/SingletonClassGenerator.py. *)
From Coq Require Import String NArith ZArith List Bool.
From Verif Require Import Base.PyBase Base.PyVal Model.Attr.
Import ListNotations.

(** ** XRegistry *)

Section Registry.
(** Elements are objects other than None, with Python's [==]. *)
Context {A : Type} (eqb : A -> A -> bool).

(** __init__: XRegistry.py:5-7.  The set is a list in the order in which it is iterated. *)
Record registry : Type := mk_reg { reg_set : list A; reg_current : option A }.
Definition reg_empty : registry := mk_reg [] None.

(** __contains__: XRegistry.py:45-46. *)
Definition reg_mem (r : registry) (x : A) : bool := existsb (eqb x) (reg_set r).

(** register: XRegistry.py:25-34. *)
Definition reg_register (r : registry) (x : A) : registry :=
  if reg_mem r x then r
  else mk_reg (set_add eqb x (reg_set r))
              (match reg_current r with None => Some x | Some c => Some c end).

(** set_current_default: XRegistry.py:36-43. *)
Definition reg_set_default (r : registry) (x : A) : registry :=
  mk_reg (set_add eqb x (reg_set r)) (Some x).

(** get_available, current_default: XRegistry.py:9-23. *)
Definition reg_available (r : registry) : list A := reg_set r.
Definition reg_default (r : registry) : option A := reg_current r.

Inductive reg_op : Type := RegRegister (x : A) | RegSetDefault (x : A).
Definition reg_step (r : registry) (o : reg_op) : registry :=
  match o with RegRegister x => reg_register r x | RegSetDefault x => reg_set_default r x end.
Definition reg_run (h : list reg_op) : registry := fold_left reg_step h reg_empty.
End Registry.
Arguments registry A : clear implicits.
Arguments reg_op A : clear implicits.

(** ** XExtensionManager *)

Section Manager.
(** Extension objects with the three fields of XExtension.py:16-24. *)
Context {E : Type} (name prefix uri : E -> pystr).

(** XExtension.__eq__: XExtension.py:107-110. *)
Definition same_uri (a b : E) : bool := str_eqb (uri a) (uri b).

(** __init__: XExtensionManager.py:32-35 (before the standard extensions). *)
Record manager : Type := mk_mgr { mg_map : sdict E; mg_list : list E }.
Definition mgr_empty : manager := mk_mgr [] [].

(** register: XExtensionManager.py:37-45. *)
Definition mgr_register (m : manager) (x : E) : manager :=
  mk_mgr (sset (uri x) x (mg_map m))
         (if existsb (fun y => same_uri y x) (mg_list m) then mg_list m else mg_list m ++ [x]).
Definition mgr_run (h : list E) : manager := fold_left mgr_register h mgr_empty.

(** get_by_uri: XExtensionManager.py:47-58. *)
Definition mgr_by_uri (m : manager) (u : pystr) : option E := sget u (mg_map m).
(** get_by_name: XExtensionManager.py:60-72. *)
Definition mgr_by_name (m : manager) (n : pystr) : option E := find (fun x => str_eqb (name x) n) (mg_list m).
(** get_by_prefix: XExtensionManager.py:74-86. *)
Definition mgr_by_prefix (m : manager) (p : pystr) : option E := find (fun x => str_eqb (prefix x) p) (mg_list m).
(** get_by_index: XExtensionManager.py:88-99. *)
Definition mgr_by_index (m : manager) (i : Z) : option E :=
  if ((0 <=? i) && (i <? Z.of_nat (List.length (mg_list m))))%Z then nth_error (mg_list m) (Z.to_nat i)
  else None.
(** get_index: XExtensionManager.py:101-114. *)
Fixpoint index_from (i : Z) (l : list E) (x : E) : Z :=
  match l with
  | [] => -1
  | y :: t => if same_uri y x then i else index_from (i + 1) t x
  end.
Definition mgr_index (m : manager) (x : E) : Z := index_from 0 (mg_list m) x.
End Manager.
Arguments manager E : clear implicits.

(** The standard extensions with name, prefix and URI (extension/std/*.py), in the order of
    register_standard_extensions: XExtensionManager.py:116-128. *)
Definition ext_concept := mk_xext (py "Concept") (py "concept") (py "http://www.xes-standard.org/concept.xesext").
Definition ext_cost := mk_xext (py "Cost") (py "cost") (py "http://www.xes-standard.org/cost.xesext").
Definition ext_identity := mk_xext (py "Identity") (py "identity") (py "http://www.xes-standard.org/identity.xesext").
Definition ext_lifecycle := mk_xext (py "Lifecycle") (py "lifecycle") (py "http://www.xes-standard.org/lifecycle.xesext").
Definition ext_micro := mk_xext (py "Micro") (py "micro") (py "http://www.xes-standard.org/micro.xesext").
Definition ext_org := mk_xext (py "Organizational") (py "org") (py "http://www.xes-standard.org/org.xesext").
Definition ext_semantic := mk_xext (py "Semantic") (py "semantic") (py "http://www.xes-standard.org/semantic.xesext").
Definition ext_time := mk_xext (py "Time") (py "time") (py "http://www.xes-standard.org/time.xesext").
Definition standard_extensions : list xext :=
  [ext_concept; ext_cost; ext_identity; ext_lifecycle; ext_micro; ext_org; ext_semantic; ext_time].
Definition std_manager : manager xext := mgr_run x_uri standard_extensions.

(** ** Singletons *)

(** Every class in SingletonClassGenerator.py has its own slot (class attribute
    [instance], e.g. lines 1-10).  Objects are numbered; [sg_objs] gives the class each was
    made of.  All instances are true in a boolean context (none of the classes defines
    [__bool__] or [__len__]). *)
Record singletons : Type := mk_sg { sg_slots : list (nat * nat); sg_objs : list nat; sg_inits : list nat }.
Definition sg_empty : singletons := mk_sg [] [] [].

(** A call of class [sc_class] whose metaclass is [sc_meta]; [sc_init] is what its
    [__init__] would do with the given arguments. *)
Record scall : Type := mk_scall { sc_meta : nat; sc_class : nat; sc_init : res unit }.

(** __call__: SingletonClassGenerator.py:7-10 (and the same lines of every metaclass).
    Simplification: calls made by [__init__] itself to other singletons are calls of their
    own, made earlier. *)
Definition sg_call (w : singletons) (c : scall) : singletons * res nat :=
  match dict_get Nat.eqb (sc_meta c) (sg_slots w) with
  | Some i => (w, Ok i)
  | None =>
      match sc_init c with
      | Ok _ => let i := List.length (sg_objs w) in
                (mk_sg (dict_set Nat.eqb (sc_meta c) i (sg_slots w)) (sg_objs w ++ [sc_class c])
                       (sg_inits w ++ [sc_meta c]), Ok i)
      | Raise e => (w, Raise e)
      end
  end.
Fixpoint sg_run (w : singletons) (cs : list scall) : singletons * list (res nat) :=
  match cs with
  | [] => (w, [])
  | c :: t => let '(w1, r) := sg_call w c in
              let '(w2, rs) := sg_run w1 t in (w2, r :: rs)
  end.
