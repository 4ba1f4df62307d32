(** Saving a net: /repo/example/AlphaAlgorithm.py. *)
From Coq Require Import String NArith List Bool.
From Verif Require Import Base.PyBase Base.Codec Model.Alpha Model.Files.
Import ListNotations.

(** __str__: AlphaAlgorithm.py:193-194. *)
Definition net_str (a : alpha) : pystr := al_text a.

(** save: AlphaAlgorithm.py:196-203, where the encoding of text files is [loc], with what the
    system does to line ends included.  Opening for writing empties the file. *)
Definition save_net (loc : codec) (a : alpha) (file_name : pystr) (d : disk) : disk * res unit :=
  let path := file_name ++ py ".tpn" in
  match cd_enc loc (al_text a) with
  | Some b => (sset path b d, Ok tt)
  | None => (sset path [] d, Raise UnicodeError)
  end.
