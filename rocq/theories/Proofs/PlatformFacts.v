(** Tests of the platform. *)
From Coq Require Import String NArith List Bool.
From Verif Require Import Base.PyBase Model.Cache Spec.Platform Proofs.StrFacts.
Import ListNotations.

Lemma is_running_asks t os : is_running t os = true <-> asks t os.
Proof.
  destruct t; cbn [is_running asks]; unfold begins; try apply starts_with_spec.
  rewrite !orb_true_iff, !starts_with_spec. tauto.
Qed.

Theorem tests_answer h : match h with
  | [] => run_tests None h = []
  | (_, first) :: _ => Forall2 (fun tp b => b = true <-> asks (fst tp) first) h (run_tests None h)
  end.
Proof.
  destruct h as [|[t p] h]; [reflexivity|]. cbn [run_tests determine_os]. constructor; [apply is_running_asks|].
  induction h as [|[u q] h IH]; cbn [run_tests determine_os]; constructor; auto. apply is_running_asks.
Qed.

Theorem tests_exclude os :
  (asks IsWindows os -> ~ asks IsMac os /\ ~ asks IsLinux os /\ ~ asks IsUnix os)
  /\ (asks IsMac os -> ~ asks IsLinux os /\ asks IsUnix os)
  /\ (asks IsLinux os -> asks IsUnix os).
Proof.
  assert (D : forall a b c d x y, (c <> d) -> begins (String.String a x) os -> py (String.String a x) = c :: py x ->
    py (String.String b y) = d :: py y -> ~ begins (String.String b y) os).
  { intros a b c d x y N (t & ->) E1 E2 (t' & H). rewrite E1, E2 in H. now injection H as H. }
  cbn [asks]. repeat split; try tauto; try (intros [F|[F|F]]; revert F); eapply D; eauto; try reflexivity; discriminate.
Qed.
