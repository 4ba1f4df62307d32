(** What file names the parsers are meant to take. *)
From Coq Require Import String NArith List Bool.
From Verif Require Import Base.PyBase Model.FileNames.
Import ListNotations.

(** [file] is a non-empty name followed by [suffix], letter by letter. *)
Definition named (suffix file : pystr) : Prop := exists stem, stem <> [] /\ file = stem ++ suffix.

(** The endings each parser takes. *)
Definition endings (p : parser) : list pystr :=
  match p with
  | Mxml => [py ".mxml"; py ".xml"]
  | MxmlGzip => [py ".mxml.gz"]
  | Xes => [py ".xes"]
  | XesGzip => [py ".xes.gz"]
  end.

(** The documented reading: the case of letters does not matter. *)
Definition named_any_case (suffix file : pystr) : Prop :=
  exists stem ending, stem <> [] /\ file = stem ++ ending /\ lower ending = lower suffix.
