(** Induction over attribute trees. *)
From Coq Require Import NArith ZArith List Bool.
From Verif Require Import Base.PyBase Base.PyVal Model.Attr.
Import ListNotations.

Section AttrInd.
Variable P : attr -> Prop.
Hypothesis step : forall c k e v coll meta,
  Forall P coll -> Forall (fun kv => P (snd kv)) meta -> P (mk_attr c k e v coll meta).

Fixpoint attr_ind2 (a : attr) : P a :=
  match a with
  | mk_attr c k e v coll meta =>
      step c k e v coll meta
        ((fix go (l : list attr) : Forall P l :=
            match l with
            | [] => Forall_nil P
            | x :: t => Forall_cons x (attr_ind2 x) (go t)
            end) coll)
        ((fix go (l : list (pystr * attr)) : Forall (fun kv => P (snd kv)) l :=
            match l with
            | [] => Forall_nil _
            | kv :: t => Forall_cons kv (attr_ind2 (snd kv)) (go t)
            end) meta)
  end.
End AttrInd.
