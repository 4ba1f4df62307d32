(** What a program that changes the registries is meant to find. *)
From Coq Require Import String NArith List Bool Arith.
From Verif Require Import Base.PyBase Base.Codec Model.FileNames Model.Files Model.Registered.
Import ListNotations.

(** The factory set last; the standard one is 0. *)
Definition factory_set (h : list lib_op) : nat :=
  fold_left (fun f o => match o with SetFactory g => g | _ => f end) h 0.
(** The parser made the default last; at the start it is the one for compressed XES. *)
Definition parser_set (h : list lib_op) : nat :=
  fold_left (fun i o => match o with SetParser j => j | _ => i end) h 3.

(** The classes of the parsers made, the library's own four first. *)
Definition made (h : list lib_op) : list pclass :=
  [Std Mxml; Std MxmlGzip; Std Xes; Std XesGzip]
    ++ flat_map (fun o => match o with MakeParser c _ => [c] | _ => [] end) h.

(** One of the parsers is registered by the program. *)
Definition added (h : list lib_op) (i : nat) : Prop := In (AddParser i) h \/ In (SetParser i) h.

(** The search found parser [i]: those before it that take the file fail one after the other,
    each with the file as the one before left it. *)
Section Search.
Context {A : Type} (accepts : nat -> pystr -> bool) (parse : nat -> fobj -> fobj * res A).
Inductive all_fail : list nat -> fobj -> fobj -> Prop :=
| fail_none f : all_fail [] f f
| fail_skip i l f g : accepts i (fo_name f) = false -> all_fail l f g -> all_fail (i :: l) f g
| fail_one i l f f' e g : accepts i (fo_name f) = true -> parse i f = (f', Raise e) ->
    all_fail l f' g -> all_fail (i :: l) f g.
End Search.

(** None of the program's own parsers takes files of this name. *)
Definition others (custom_accepts : nat -> pystr -> bool) (h : list lib_op) (name : pystr) : Prop :=
  forall c, In (Custom c) (made h) -> custom_accepts c name = false.
