(** Vocabulary for tests of the platform. *)
From Coq Require Import String List Bool.
From Verif Require Import Base.PyBase Model.Cache.
Import ListNotations.

(** [begins p s]: the text [s] is [p] and something after it. *)
Definition begins (p : string) (s : pystr) : Prop := exists t, s = py p ++ t.
(** What a test asks of the name of the platform. *)
Definition asks (t : os_test) (os : pystr) : Prop :=
  match t with
  | IsWindows => begins "win32" os
  | IsMac => begins "darwin" os
  | IsLinux => begins "linux" os
  | IsUnix => begins "freebsd" os \/ begins "linux" os \/ begins "darwin" os
  end.
