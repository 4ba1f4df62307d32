(** File systems and what must not appear in them. *)
From Coq Require Import String NArith List Bool.
From Verif Require Import Base.PyBase Base.Codec Model.Cache.
Import ListNotations.

(** Everything lies in a folder. *)
Definition sound (fs : fsys) : Prop := forall p x, present fs (p ++ [x]) = true -> is_dir fs p = true.

(** Files that are not as before are empty. *)
Definition nothing_written (fs fs' : fsys) : Prop :=
  forall p b, file_at fs' p = Some b -> b = [] \/ file_at fs p = Some b.

(** At most one of the results is a normal return. *)
Definition at_most_one (rs : list (res unit)) : Prop :=
  forall i j, nth_error rs i = Some (Ok tt) -> nth_error rs j = Some (Ok tt) -> i = j.

(** The support folder of each platform below the home folder, and the folder of the cache. *)
Definition support_names (platform : pystr) : path :=
  if starts_with (py "win32") platform then [py "OpenXES"]
  else if starts_with (py "darwin") platform then [py "Library"; py "Application Support"; py "OpenXES"]
  else [py ".OpenXES"].
(** A folder that os.makedirs can create. *)
Definition creatable (fs : fsys) (p : path) : Prop :=
  present fs p = false /\ forall q r, q <> [] -> p = q ++ r -> is_file fs q = false.
(** [fs'] has the folders of [fs] and those on the way to [p]. *)
Definition with_folders (fs : fsys) (p : path) (fs' : fsys) : Prop :=
  forall q, is_dir fs' q = true <-> is_dir fs q = true \/ exists r, p = q ++ r.
(** [file] is [name], with the ending .xesext if it has not got it. *)
Definition cached_name (name file : pystr) : Prop :=
  ((exists t, name = (t ++ py ".xesext")%list) /\ file = name)
  \/ ((forall t, name <> (t ++ py ".xesext")%list) /\ file = (name ++ py ".xesext")%list).
