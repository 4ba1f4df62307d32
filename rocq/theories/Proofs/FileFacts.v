(** Lemmas about file names and the choice of a parser. *)
From Coq Require Import String NArith List Bool Arith Permutation Lia.
From Verif Require Import Base.PyBase Model.FileNames Spec.Files Proofs.BaseFacts Proofs.StrFacts.
Import ListNotations.

Lemma contains_same sub s : List.length s = List.length sub -> contains sub s = true <-> s = sub.
Proof.
  intros L. rewrite contains_spec. split.
  - intros (a & b & ->). rewrite !app_length in L.
    assert (a = []) as -> by (apply length_zero_iff_nil; lia).
    assert (b = []) as -> by (apply length_zero_iff_nil; lia).
    now rewrite app_nil_r.
  - intros ->. exists [], []. now rewrite app_nil_r.
Qed.

Lemma ends_with_spec name suffix : ends_with_ignore_case name suffix = true <-> named suffix name.
Proof.
  unfold ends_with_ignore_case, named. destruct (Nat.ltb_spec (List.length suffix) (List.length name)) as [L|L].
  - rewrite contains_same by (rewrite skipn_length; lia). split.
    + intros E. exists (firstn (List.length name - List.length suffix) name). split.
      * intros F. apply (f_equal (@List.length _)) in F. rewrite firstn_length in F. simpl in F. lia.
      * rewrite <- (firstn_skipn (List.length name - List.length suffix) name) at 1. now rewrite E.
    + intros (stem & _ & ->). rewrite app_length.
      replace (List.length stem + List.length suffix - List.length suffix) with (List.length stem + 0) by lia.
      rewrite skipn_app. rewrite skipn_all2 by lia.
      replace (List.length stem + 0 - List.length stem) with 0 by lia. reflexivity.
  - split; [discriminate|]. intros (stem & N0 & ->). rewrite app_length in L.
    destruct stem; [easy|simpl in L; lia].
Qed.

Lemma can_parse_spec p file :
  can_parse p file = true <-> exists e, In e (endings p) /\ named e file.
Proof.
  destruct p; cbn [can_parse endings]; rewrite ?orb_true_iff, !ends_with_spec; split.
  all: try (intros H; eexists; split; [left; reflexivity|exact H]).
  all: try (intros (e & [<-|[]] & H); exact H).
  - intros [H|H]; eexists; (split; [|exact H]); simpl; auto.
  - intros (e & [<-|[<-|[]]] & H); auto.
Qed.

(** The reversed name starts with the reversed ending. *)
Lemma named_rev e file : named e file -> exists t, rev file = rev e ++ t.
Proof. intros (stem & _ & ->). rewrite rev_app_distr. eauto. Qed.

Lemma one_parser p q file : can_parse p file = true -> can_parse q file = true -> p = q.
Proof.
  rewrite !can_parse_spec. intros (e & I & H) (e' & I' & H').
  apply named_rev in H, H'. destruct H as [t H], H' as [t' H']. rewrite H in H'. clear H.
  destruct p, q; try reflexivity; exfalso; simpl in I, I';
    repeat match goal with H : _ \/ _ |- _ => destruct H end; subst; try easy; vm_compute in H'; congruence.
Qed.

Lemma universal_can_parse_perm ps qs file :
  Permutation ps qs -> universal_can_parse ps file = universal_can_parse qs file.
Proof.
  intros P. unfold universal_can_parse. apply eq_true_iff_eq. rewrite !existsb_exists.
  split; intros (x & I & E); exists x; (split; [|exact E]).
  - now apply (Permutation_in _ P).
  - now apply (Permutation_in _ (Permutation_sym P)).
Qed.

Section Parse.
Context {A : Type} (run : parser -> res A).

Lemma universal_none ps file :
  (forall p, In p ps -> can_parse p file = false) -> universal_parse run ps file = Raise PlainException.
Proof.
  induction ps as [|q ps IH]; intros H; simpl; [reflexivity|].
  rewrite H by now left. apply IH. intros p I. apply H. now right.
Qed.

Definition outcome (p : parser) : res A := match run p with Ok a => Ok a | Raise _ => Raise PlainException end.

Lemma universal_one p ps file : NoDup ps -> In p ps -> can_parse p file = true ->
  universal_parse run ps file = outcome p.
Proof.
  unfold outcome.
  induction ps as [|q ps IH]; intros D I C; [easy|]. inversion D; subst. simpl.
  destruct I as [->|I].
  - rewrite C. destruct (run p); [reflexivity|]. apply universal_none. intros q I.
    destruct (can_parse q file) eqn:C'; [|reflexivity].
    now rewrite (one_parser _ _ _ C C') in H1.
  - destruct (can_parse q file) eqn:C'; [|now apply IH].
    rewrite (one_parser _ _ _ C C') in I. easy.
Qed.

Lemma universal_parse_perm ps qs file : NoDup ps -> Permutation ps qs ->
  universal_parse run ps file = universal_parse run qs file.
Proof.
  intros D P. assert (D' : NoDup qs) by now apply (Permutation_NoDup P).
  destruct (existsb (fun p => can_parse p file) ps) eqn:E.
  - apply existsb_exists in E as (p & I & C). rewrite (universal_one p) by auto.
    rewrite (universal_one p); auto. now apply (Permutation_in _ P).
  - assert (F : forall p, In p ps -> can_parse p file = false).
    { intros p I. destruct (can_parse p file) eqn:C; [|reflexivity].
      rewrite <- E. symmetry. apply existsb_exists. eauto. }
    rewrite !universal_none; auto. intros p I. apply F. now apply (Permutation_in _ (Permutation_sym P)).
Qed.
End Parse.

Lemma named_app stem suffix : stem <> [] -> named suffix (stem ++ suffix).
Proof. intros H. now exists stem. Qed.

Lemma written_readable p suf stem : In suf (suffices p) -> stem <> [] -> suf <> py "xez" ->
  can_parse p (stem ++ py "." ++ suf) = true.
Proof.
  intros I H X. apply can_parse_spec. exists (py "." ++ suf). split; [|now apply named_app].
  destruct p; simpl in I; repeat match goal with H : _ \/ _ |- _ => destruct H end; subst; try easy;
    simpl; auto.
Qed.

Lemma every_format p stem : stem <> [] -> exists suf, In suf (suffices p) /\ can_parse p (stem ++ py "." ++ suf) = true.
Proof.
  intros H. assert (E : exists suf, In suf (suffices p) /\ suf <> py "xez").
  { destruct p; [exists (py "mxml")|exists (py "mxml.gz")|exists (py "xes")|exists (py "xes.gz")];
      (split; [cbn; tauto|discriminate]). }
  destruct E as (suf & I & N). exists suf. split; [exact I|]. now apply written_readable.
Qed.
Lemma xez_refused p stem : can_parse p (stem ++ py ".xez") = false.
Proof.
  destruct (can_parse p (stem ++ py ".xez")) eqn:C; [|reflexivity].
  apply can_parse_spec in C as (e & I & H). apply named_rev in H as [t H]. rewrite rev_app_distr in H.
  destruct p; simpl in I; repeat match goal with H : _ \/ _ |- _ => destruct H end; subst; try easy;
    vm_compute in H; congruence.
Qed.
