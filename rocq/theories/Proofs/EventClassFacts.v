(** Event classes compared. *)
From Coq Require Import String NArith ZArith List Bool Lia.
From Verif Require Import Base.PyBase Base.PyVal Model.Attr Model.Log Model.Classify Spec.Orders Spec.Classes
  Proofs.BaseFacts Proofs.OrderFacts Proofs.ClassFacts.
Import ListNotations.
Local Open Scope Z_scope.

Lemma class_order a b :
  (ec_lt a b = true <-> lex_lt (ec_id a) (ec_id b)) /\ (ec_gt a b = true <-> lex_lt (ec_id b) (ec_id a))
  /\ (ec_le a b = true <-> lex_lt (ec_id a) (ec_id b) \/ ec_id a = ec_id b)
  /\ (ec_ge a b = true <-> lex_lt (ec_id b) (ec_id a) \/ ec_id a = ec_id b)
  /\ (ec_eqb a b = true <-> ec_id a = ec_id b) /\ ec_ne a b = negb (ec_eqb a b)
  /\ (ec_compare a b = 0 <-> ec_eqb a b = true) /\ ec_compare b a = - ec_compare a b.
Proof.
  unfold ec_lt, ec_gt, ec_le, ec_ge, ec_ne, ec_compare, str_compare_to. rewrite !lex_lt_cmp.
  assert (Q : ec_eqb a b = true <-> str_cmp (ec_id a) (ec_id b) = Eq).
  { unfold ec_eqb. rewrite str_eqb_eq. split; [intros ->; apply str_cmp_refl|apply str_cmp_eq]. }
  assert (R : ec_id a = ec_id b <-> str_cmp (ec_id a) (ec_id b) = Eq) by (rewrite <- Q; unfold ec_eqb; now rewrite str_eqb_eq).
  rewrite Q, R, (str_cmp_antisym (ec_id a) (ec_id b)).
  destruct (str_cmp (ec_id a) (ec_id b)); cbn; repeat split; intros; try easy; try tauto;
    repeat match goal with H : _ \/ _ |- _ => destruct H end; easy.
Qed.

Theorem class_operators : forall a b c,
  ((ec_lt a b = true <-> lex_lt (ec_id a) (ec_id b)) /\ (ec_gt a b = true <-> lex_lt (ec_id b) (ec_id a))
   /\ (ec_le a b = true <-> lex_lt (ec_id a) (ec_id b) \/ ec_id a = ec_id b)
   /\ (ec_ge a b = true <-> lex_lt (ec_id b) (ec_id a) \/ ec_id a = ec_id b)
   /\ (ec_eqb a b = true <-> ec_id a = ec_id b) /\ ec_ne a b = negb (ec_eqb a b)
   /\ (ec_compare a b = 0 <-> ec_eqb a b = true) /\ ec_compare b a = - ec_compare a b)
  /\ (ec_lt a b = true -> ec_lt b c = true -> ec_lt a c = true)
  /\ (forall hs, ec_eqb a b = true -> ec_hash hs a = ec_hash hs b).
Proof.
  intros a b c. split; [apply class_order|]. split.
  - destruct (class_order a b) as (-> & _). destruct (class_order b c) as (-> & _). destruct (class_order a c) as (-> & _).
    apply lex_lt_trans.
  - intros hs E. unfold ec_hash. f_equal. now apply (class_order a b).
Qed.

Theorem sets_equal `{FIO : FloatIO} c1 c2 l1 l2 s1 s2 : derived c1 l1 = Ok s1 -> derived c2 l2 = Ok s2 ->
  (ecs_eqb s1 s2 = true <-> c1 = c2)
  /\ (c1 = c2 -> forall e, In e (log_events l1) -> In e (log_events l2) -> exists a b,
       get_class_of c1 (ecs_map s1) e = Ok (Some a) /\ get_class_of c2 (ecs_map s2) e = Ok (Some b) /\ ec_eqb a b = true).
Proof.
  unfold derived. destruct (derive_event_classes c1 l1) as [m1|] eqn:E1; [|discriminate].
  destruct (derive_event_classes c2 l2) as [m2|] eqn:E2; [|discriminate]. cbn [bind]. intros [= <-] [= <-]. split.
  - unfold ecs_eqb. cbn [ecs_classifier]. apply cl_eqb_eq.
  - intros -> e I1 I2. cbn [ecs_map].
    assert (D : forall l m, derive_event_classes c2 l = Ok m -> In e (log_events l) ->
                exists id a, class_identity c2 e = Ok id /\ get_class_of c2 m e = Ok (Some a) /\ ec_id a = id).
    { intros l m E I. assert (X := E). rewrite derive_spec in X. destruct (identities c2 (log_events l)) as [ids|] eqn:N; [|discriminate].
      destruct (derive_partition c2 l m ids E N) as (_ & _ & _ & _ & P). destruct (P e I) as (id & a & A & _ & B & C). eauto. }
    destruct (D l1 m1 E1 I1) as (i1 & a & A1 & A2 & A3). destruct (D l2 m2 E2 I2) as (i2 & b & B1 & B2 & B3).
    exists a, b. repeat split; auto. unfold ec_eqb. apply str_eqb_eq. congruence.
Qed.

Theorem set_length `{FIO : FloatIO} c l s ids : derived c l = Ok s -> identities c (log_events l) = Ok ids ->
  exists distinct, NoDup distinct /\ (forall id, In id distinct <-> In id ids) /\ ecs_len s = List.length distinct.
Proof.
  unfold derived. destruct (derive_event_classes c l) as [m|] eqn:E; [|discriminate]. cbn [bind]. intros [= <-] N.
  destruct (derive_partition c l m ids E N) as (A & B & _). exists (map fst m). repeat split; auto; try apply B.
  unfold ecs_len. cbn [ecs_map]. now rewrite map_length.
Qed.
