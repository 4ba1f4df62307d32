(** Types and prototypes of attributes. *)
From Coq Require Import String NArith ZArith List Bool.
From Verif Require Import Base.PyBase Base.PyVal Model.Attr Model.AttrUtils Model.LogInfo Spec.Info Spec.AttrUtils Proofs.InfoFacts.
Import ListNotations.

Lemma type_string a : exists s, get_type_string (AnAttribute a) = Ok s /\ In (a_cls a, s) type_names /\ get_type (AnAttribute a) = Ok (a_cls a).
Proof.
  destruct a as [c k e v coll meta]. unfold get_type_string, get_type, instance, type_names. cbn [a_cls].
  destruct c; cbn [acls_eqb]; eexists; (split; [reflexivity|]); (split; [cbn [In]; tauto|reflexivity]).
Qed.
Lemma names_inj : forall c s c' s', In (c, s) type_names -> In (c', s') type_names -> (s = s' <-> c = c').
Proof.
  intros c s c' s' H H'. unfold type_names in H, H'. cbn [In] in H, H'.
  assert (E : forall x y : acls, {x = y} + {x <> y}) by decide equality.
  split; intros X; subst.
  - repeat (destruct H as [H|H]); try contradiction; injection H as <- <-;
      repeat (destruct H' as [H'|H']); try contradiction; try discriminate H'; injection H' as <-; reflexivity.
  - repeat (destruct H as [H|H]); try contradiction; injection H as <- <-;
      repeat (destruct H' as [H'|H']); try contradiction; try discriminate H'; injection H' as <-; reflexivity.
Qed.
Lemma same_type_string a b : get_type_string (AnAttribute a) = get_type_string (AnAttribute b) <-> a_cls a = a_cls b.
Proof.
  destruct (type_string a) as (s & -> & I & _). destruct (type_string b) as (t & -> & J & _).
  rewrite <- (names_inj _ _ _ _ I J). split; congruence.
Qed.
Lemma prototype_forgets a b id : has_prototype a = true -> has_prototype b = true ->
  a_cls a = a_cls b -> a_key a = a_key b -> a_ext a = a_ext b -> derive_prototype id a = derive_prototype id b.
Proof.
  destruct a as [c k e v coll meta], b as [c' k' e' v' coll' meta']. cbn [a_cls a_key a_ext]. intros H H' <- <- <-.
  unfold has_prototype, derive_prototype, attr_clone in *. cbn in *.
  destruct c; try discriminate; try reflexivity. destruct v, v'; try discriminate; reflexivity.
Qed.
Lemma prototype_again a id id' p : derive_prototype id a = Ok p -> derive_prototype id' p = derive_prototype id' a.
Proof.
  intros H. destruct (has_prototype a) eqn:P.
  - destruct (derive_has a id P) as (q & E & A & B & C & D & F & G). rewrite E in H. injection H as ->.
    apply prototype_forgets; auto. unfold has_prototype in *. rewrite A. unfold default_value in G.
    destruct (a_cls a); try exact P; try reflexivity. destruct G as [i ->]. reflexivity.
  - rewrite (derive_has_not a id P) in H. discriminate.
Qed.
