(** C97: tests of the platform. *)
From Coq Require Import String NArith List Bool.
From Verif Require Import Base.PyBase Model.Cache Spec.Platform Proofs.PlatformFacts.
Import ListNotations.

(** Every test is about the name of the platform at the time of the first test. *)
Theorem C97_tests : forall h, match h with
  | [] => run_tests None h = []
  | (_, first) :: _ => Forall2 (fun tp b => b = true <-> asks (fst tp) first) h (run_tests None h)
  end.
Proof. exact tests_answer. Qed.
Print Assumptions C97_tests.

(** Windows, macOS and Linux exclude each other; the latter two are Unix. *)
Theorem C97_exclude : forall os,
  (asks IsWindows os -> ~ asks IsMac os /\ ~ asks IsLinux os /\ ~ asks IsUnix os)
  /\ (asks IsMac os -> ~ asks IsLinux os /\ asks IsUnix os)
  /\ (asks IsLinux os -> asks IsUnix os).
Proof. exact tests_exclude. Qed.
Print Assumptions C97_exclude.

Example C97_example :
  run_tests None [(IsUnix, py "linux2"); (IsLinux, py "win32"); (IsWindows, py "win32"); (IsMac, py "darwin")]
  = [true; true; false; false]
  /\ run_tests None [(IsUnix, py "cygwin"); (IsWindows, py "cygwin"); (IsUnix, py "aix")] = [false; false; false]
  /\ run_tests None [(IsUnix, py "freebsd13"); (IsLinux, py "freebsd13")] = [true; false].
Proof. vm_compute. repeat split. Qed.
