(** C99. The text of an attribute. *)
From Coq Require Import String NArith ZArith List Bool.
From Verif Require Import Base.PyBase Base.PyVal Base.PyDate Model.Attr Spec.Typing Spec.XesWritten Spec.AttrText Proofs.AttrTextFacts.
Import ListNotations.

(** Lists and containers of any depth. *)
Theorem C99_text : forall (FIO : FloatIO) a, (forall b, shown_in a b -> proper b) -> exists t, attr_str a = Ok t /\ shows a t.
Proof. exact @text_shown. Qed.
Print Assumptions C99_text.

(** The only way to fail. *)
Theorem C99_fails : forall (FIO : FloatIO) a x,
  attr_str a = Raise x <-> x = AttributeError /\ exists b, shown_in a b /\ undated b.
Proof. exact @text_fails. Qed.
Print Assumptions C99_fails.

(** Its own key, extensions and nested attributes are not shown, nor whether it is a list or a
    container. *)
Theorem C99_alike : forall (FIO : FloatIO) a b, looks_alike a b -> attr_str a = attr_str b.
Proof. exact @text_alike. Qed.
Print Assumptions C99_alike.

(** The text tells the members if they have no separators in them. *)
Theorem C99_tells : forall (FIO : FloatIO) a b t, is_collection (a_cls a) = true -> is_collection (a_cls b) = true ->
  comma_free (a_coll a) -> comma_free (a_coll b) -> attr_str a = Ok t -> attr_str b = Ok t ->
  Forall2 (fun m n => a_key m = a_key n /\ attr_str m = attr_str n) (a_coll a) (a_coll b).
Proof. exact @text_tells. Qed.
Print Assumptions C99_tells.

Definition text_of (k v : string) : attr := mk_attr CLiteral (py k) None (PStr (py v)) [] [].
Definition a_list (k : string) (l : list attr) : attr := mk_attr CList (py k) None PNone l [].

(** But not in general. *)
Theorem C99_tells_refuted : exists (FIO : FloatIO) a b t,
  is_collection (a_cls a) = true /\ is_collection (a_cls b) = true /\ attr_str a = Ok t /\ attr_str b = Ok t
  /\ List.length (a_coll a) <> List.length (a_coll b).
Proof.
  exists no_floats, (a_list "l" [text_of "a" "1"; text_of "b" "2"]), (a_list "l" [text_of "a" "1,b:2"]), (py "[a:1,b:2]").
  repeat split. discriminate.
Qed.
Print Assumptions C99_tells_refuted.

Definition nested : attr :=
  a_list "outer" [mk_attr CDiscrete (py "n") None (PInt (-7)) [] [(py "x", text_of "x" "hidden")];
                  mk_attr CContainer (py "in") None PNone [mk_attr CBoolean (py "b") None (PBool true) [] []; a_list "e" []] [];
                  text_of "s" "t"].
Example C99_example : (forall b, shown_in nested b -> proper b)
  /\ @attr_str no_floats nested = Ok (py "[n:-7,in:[b:true,e:[]],s:t]").
Proof.
  split; [|reflexivity]. intros b S.
  repeat match goal with
  | H : In _ _ |- _ => cbn in H
  | H : _ \/ _ |- _ => destruct H as [<-|H]
  | H : False |- _ => destruct H
  | H : is_collection _ = true |- _ => discriminate H || clear H
  | H : shown_in _ _ |- _ => inversion H; subst; clear H
  end; exact Logic.I.
Qed.

(** A list whose members have no separators, and one with a time stamp that fails. *)
Example C99_others : @comma_free no_floats (a_coll (a_list "l" [text_of "a" "1"; text_of "b" "2"]))
  /\ @attr_str no_floats (a_list "l" [mk_attr CTimestamp (py "d") None PNone [] []]) = Raise AttributeError.
Proof.
  split; [|reflexivity]. intros m t [<-|[<-|[]]] E; vm_compute in E; injection E as <-; vm_compute;
    repeat split; intros H; repeat destruct H as [H|H]; try discriminate; easy.
Qed.
