(** C96: event classes and sets of event classes compared. *)
From Coq Require Import String NArith ZArith List Bool.
From Verif Require Import Base.PyBase Base.PyVal Model.Attr Model.Log Model.Classify Spec.Orders Spec.Typing Spec.Classes
  Proofs.EventClassFacts Props.P_Classify.
Import ListNotations.
Local Open Scope Z_scope.

(** Event classes are ordered like their identities, whatever their numbers and sizes; equal
    ones have equal hashes. *)
Theorem C96_classes : forall a b c,
  ((ec_lt a b = true <-> lex_lt (ec_id a) (ec_id b)) /\ (ec_gt a b = true <-> lex_lt (ec_id b) (ec_id a))
   /\ (ec_le a b = true <-> lex_lt (ec_id a) (ec_id b) \/ ec_id a = ec_id b)
   /\ (ec_ge a b = true <-> lex_lt (ec_id b) (ec_id a) \/ ec_id a = ec_id b)
   /\ (ec_eqb a b = true <-> ec_id a = ec_id b) /\ ec_ne a b = negb (ec_eqb a b)
   /\ (ec_compare a b = 0 <-> ec_eqb a b = true) /\ ec_compare b a = - ec_compare a b)
  /\ (ec_lt a b = true -> ec_lt b c = true -> ec_lt a c = true)
  /\ (forall hs, ec_eqb a b = true -> ec_hash hs a = ec_hash hs b).
Proof. exact class_operators. Qed.
Print Assumptions C96_classes.

(** Sets of event classes derived from any two logs are equal iff their classifiers are; then
    an event of both logs has equal classes in both. *)
Theorem C96_sets : forall `{FIO : FloatIO} c1 c2 l1 l2 s1 s2, derived c1 l1 = Ok s1 -> derived c2 l2 = Ok s2 ->
  (ecs_eqb s1 s2 = true <-> c1 = c2)
  /\ (c1 = c2 -> forall e, In e (log_events l1) -> In e (log_events l2) -> exists a b,
       get_class_of c1 (ecs_map s1) e = Ok (Some a) /\ get_class_of c2 (ecs_map s2) e = Ok (Some b) /\ ec_eqb a b = true).
Proof. exact @sets_equal. Qed.
Print Assumptions C96_sets.

(** The length is the number of different identities. *)
Theorem C96_length : forall `{FIO : FloatIO} c l s ids, derived c l = Ok s -> identities c (log_events l) = Ok ids ->
  exists distinct, NoDup distinct /\ (forall id, In id distinct <-> In id ids) /\ ecs_len s = List.length distinct.
Proof. exact @set_length. Qed.
Print Assumptions C96_length.

Definition one (n : string) : event := ev [lit "concept:name" n].
Definition log_a : xlog := log_of [[one "b"; one "a"]; [one "b"]].
Definition log_b : xlog := log_of [[one "b"]; [one "c"; one "d"]].

(** Equal sets can have different classes. *)
Theorem C96_sets_refuted : exists c l1 l2 s1 s2,
  @derived no_floats c l1 = Ok s1 /\ @derived no_floats c l2 = Ok s2 /\ ecs_eqb s1 s2 = true
  /\ ecs_len s1 <> ecs_len s2 /\ sget (py "a") (ecs_map s1) <> None /\ sget (py "a") (ecs_map s2) = None.
Proof.
  exists name_classifier, log_a, log_b. eexists. eexists. split; [vm_compute; reflexivity|]. split; [vm_compute; reflexivity|].
  repeat split; vm_compute; discriminate.
Qed.
Print Assumptions C96_sets_refuted.

Example C96_example :
  let a := mk_ec (py "a") 3 1 in let b := mk_ec (py "b") 0 9 in
  ec_lt a b = true /\ ec_ge a b = false /\ ec_eqb a (mk_ec (py "a") 0 7) = true
  /\ (let! s := @derived no_floats name_classifier log_a in Ok (ecs_len s, ecs_str s))
     = Ok (2%nat, py "Event classes defined by Event Name").
Proof. vm_compute. repeat split. Qed.
