(** Property C108: event classes are shared objects. *)
From Coq Require Import String NArith ZArith List Bool.
From Verif Require Import Base.PyBase Model.Classify Model.ClassObjects Spec.Orders Spec.ClassObjects Proofs.ClassObjectFacts.
Import ListNotations.

(** An event class taken from a set stays the one the set has under this identity until indices
    are harmonized, and counts what is registered and what its users add or set. *)
Theorem C108_live : forall s id r o h, reachable s -> class_object id s = Some r -> object s r = Some o ->
  forallb (fun c => negb (harmonizes c)) h = true ->
  class_object id (class_run s h) = Some r
  /\ object (class_run s h) r = Some (mk_co (co_id o) (co_index o) (size_after (str_eqb id) r h (co_size o))).
Proof. intros s id r o h R. exact (live_run h s id r o (reachable_inv s R)). Qed.
Print Assumptions C108_live.

(** The first registration of an identity makes a new event class of size 1, with the number of
    classes as index, and leaves the other entries. *)
Theorem C108_new : forall s id, reachable s -> class_object id s = None ->
  let s' := class_step s (CRegister id) in
  exists r, object s r = None /\ class_object id s' = Some r /\ object s' r = Some (mk_co id (List.length (cs_map s)) 1)
    /\ forall k, k <> id -> class_object k s' = class_object k s.
Proof. intros s id R G. exact (register_new s id (reachable_inv s R) G). Qed.
Print Assumptions C108_new.

(** Harmonizing puts a new event class of the same size in the place of each, numbered in the
    order of the identities; those from before are as they were, but none is in the set. *)
Theorem C108_harmonize : forall s, reachable s -> let s' := class_step s CHarmonize in
  (forall id, class_object id s' = None <-> class_object id s = None)
  /\ (forall id r o, class_object id s = Some r -> object s r = Some o ->
        exists r' i, class_object id s' = Some r' /\ object s r' = None
          /\ object s' r' = Some (mk_co id i (co_size o)) /\ i < List.length (cs_map s))
  /\ (forall k1 k2 r1 r2 o1 o2, class_object k1 s' = Some r1 -> object s' r1 = Some o1 ->
        class_object k2 s' = Some r2 -> object s' r2 = Some o2 ->
        (co_index o1 < co_index o2 <-> lex_lt k1 k2))
  /\ (forall r o, object s r = Some o -> object s' r = Some o /\ ~ in_set s' r).
Proof. intros s R. exact (harmonize_all s (reachable_inv s R)). Qed.
Print Assumptions C108_harmonize.

(** An event class that is not in the set never comes into it, and counts nothing that is
    registered. *)
Theorem C108_detached : forall s r o h, reachable s -> ~ in_set s r -> object s r = Some o ->
  ~ in_set (class_run s h) r
  /\ object (class_run s h) r = Some (mk_co (co_id o) (co_index o) (size_after (fun _ => false) r h (co_size o))).
Proof. intros s r o h R. exact (detached_run h s r o (reachable_inv s R)). Qed.
Print Assumptions C108_detached.

(** The identity and the index of an event class never change. *)
Theorem C108_fixed : forall s r o h, reachable s -> object s r = Some o ->
  exists z, object (class_run s h) r = Some (mk_co (co_id o) (co_index o) z).
Proof. intros s r o h R. exact (fixed_run h s r o (reachable_inv s R)). Qed.
Print Assumptions C108_fixed.

(** When nobody but the set changes its event classes, it is the map of C16 to C18. *)
Theorem C108_map : forall h,
  shown_classes (class_run no_classes (map as_call h)) = fold_left pure_step h [].
Proof.
  intros h. refine (shown_run h no_classes _ _).
  - split; [constructor|intros k r []].
  - intros [|r] o H; discriminate H.
Qed.
Print Assumptions C108_map.

(** A class is taken from the set, counts along, and is left behind by harmonizing. *)
Definition two_classes : cstate := class_run no_classes [CRegister (py "b"); CRegister (py "a"); CRegister (py "b")].
Example C108_example :
  reachable two_classes /\ class_object (py "b") two_classes = Some 0 /\ object two_classes 0 = Some (mk_co (py "b") 0 2)
  /\ object (class_run two_classes [CRegister (py "b"); CIncrement 0; CSetSize 1 7]) 0 = Some (mk_co (py "b") 0 4)
  /\ let s := class_run two_classes [CHarmonize; CRegister (py "b")] in
     class_object (py "b") s = Some 3 /\ object s 3 = Some (mk_co (py "b") 1 3) /\ object s 0 = Some (mk_co (py "b") 0 2)
     /\ object s 2 = Some (mk_co (py "a") 0 1).
Proof. split; [eexists; reflexivity|]. vm_compute. repeat split. Qed.
