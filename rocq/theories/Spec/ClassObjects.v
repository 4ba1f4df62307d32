(** What happens to one event class object. *)
From Coq Require Import NArith ZArith List Bool.
From Verif Require Import Base.PyBase Model.Classify Model.ClassObjects.
Import ListNotations.

Definition reachable (s : cstate) : Prop := exists h, s = class_run no_classes h.
Definition object (s : cstate) (r : nat) : option cobj := nth_error (cs_objs s) r.
(** The object is in the set. *)
Definition in_set (s : cstate) (r : nat) : Prop := exists id, class_object id s = Some r.

(** The size of an object after a history, when registering an identity counts for it. *)
Definition size_after (counts : pystr -> bool) (r : nat) (h : list class_call) (z : Z) : Z :=
  fold_left (fun z c =>
    match c with
    | CRegister id => if counts id then z + 1 else z
    | CSetSize q y => if Nat.eqb q r then y else z
    | CIncrement q => if Nat.eqb q r then z + 1 else z
    | CHarmonize | CMake _ _ => z
    end)%Z h z.
Definition harmonizes (c : class_call) : bool := match c with CHarmonize => true | _ => false end.

(** The set without its objects, as in Model/Classify.v. *)
Definition shown_class (s : cstate) (kr : pystr * nat) : pystr * eclass :=
  (fst kr, match object s (snd kr) with
           | Some o => mk_ec (co_id o) (co_index o) (Z.to_nat (co_size o))
           | None => mk_ec [] 0 0
           end).
Definition shown_classes (s : cstate) : cmap := map (shown_class s) (cs_map s).
(** Registering and harmonizing only. *)
Inductive set_call : Type := SRegister (id : pystr) | SHarmonize.
Definition as_call (c : set_call) : class_call := match c with SRegister id => CRegister id | SHarmonize => CHarmonize end.
Definition pure_step (m : cmap) (c : set_call) : cmap :=
  match c with SRegister id => register_id m id | SHarmonize => harmonize m end.
