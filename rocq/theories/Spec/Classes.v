(** Vocabulary for statements about classification. *)
From Coq Require Import String NArith ZArith List Bool Sorting.Sorted.
From Verif Require Import Base.PyBase Base.PyVal Model.Attr Model.Log Model.Classify Spec.Orders.
Import ListNotations.
Local Open Scope Z_scope.

Section WithFloatIO.
Context `{FIO : FloatIO}.

(** Presence and printed value of the attribute under a key. *)
Definition shown (e : event) (k : pystr) : option (res pystr) :=
  match sget k (ev_attrs e) with Some a => Some (attr_str a) | None => None end.

(** The attribute under [k] is present and prints as [s]. *)
Definition shows (e : event) (k s : pystr) : Prop := shown e k = Some (Ok s).

(** ... or it is absent and [s] is the empty text. *)
Definition shows_or_empty (e : event) (k s : pystr) : Prop :=
  shown e k = Some (Ok s) \/ (shown e k = None /\ s = []).

(** The attribute is present and its printed value is free of '&'. *)
Definition complete (e : event) (k : pystr) : Prop := exists s, shows e k s /\ ~ In 38%N s.

(** How often each identity occurs. *)
Definition occurrences (id : pystr) (ids : list pystr) : nat :=
  List.length (filter (str_eqb id) ids).

(** The identities of a list of events. *)
Definition identities (c : classifier) (es : list event) : res (list pystr) :=
  map_res (class_identity c) es.
End WithFloatIO.

(** Dictionary order of key lists of equal length. *)
Inductive keys_before : list pystr -> list pystr -> Prop :=
| kb_here x y a b : lex_lt x y -> keys_before (x :: a) (y :: b)
| kb_later x a b : keys_before a b -> keys_before (x :: a) (x :: b).

(** Classifiers: first by name, then by number of keys, then by keys. *)
Definition cl_before (a b : classifier) : Prop :=
  lex_lt (cl_name a) (cl_name b)
  \/ (cl_name a = cl_name b /\ (List.length (cl_keys a) < List.length (cl_keys b))%nat)
  \/ (cl_name a = cl_name b /\ List.length (cl_keys a) = List.length (cl_keys b)
      /\ keys_before (cl_keys a) (cl_keys b)).

(** Operations on a set of event classes. *)
Inductive cop : Type := OpRegister (id : pystr) | OpHarmonize.
Definition run_op (m : cmap) (o : cop) : cmap :=
  match o with OpRegister id => register_id m id | OpHarmonize => harmonize m end.
Definition run_ops (os : list cop) : cmap := fold_left run_op os [].
