(** Vocabulary for registries, extension managers, name mappings, singletons, key lists. *)
From Coq Require Import String NArith ZArith List Bool.
From Verif Require Import Base.PyBase Base.PyVal Model.Attr Model.Registry Model.NameMap Model.Token.
Import ListNotations.

(** An equality test that behaves like one. *)
Definition equivalence {A} (eqb : A -> A -> bool) : Prop :=
  (forall x, eqb x x = true) /\ (forall x y, eqb x y = true -> eqb y x = true)
  /\ (forall x y z, eqb x y = true -> eqb y z = true -> eqb x z = true).

(** No two elements at different places are equal. *)
Fixpoint all_different {A} (eqb : A -> A -> bool) (l : list A) : Prop :=
  match l with
  | [] => True
  | x :: t => (forall y, In y t -> eqb x y = false) /\ all_different eqb t
  end.

Definition op_element {A} (o : reg_op A) : A := match o with RegRegister x | RegSetDefault x => x end.
(** The element of the last [set_current_default] of a history. *)
Definition last_set {A} (h : list (reg_op A)) : option A :=
  fold_left (fun r o => match o with RegSetDefault x => Some x | _ => r end) h None.
(** The default a history should lead to: the last one set, or the first element. *)
Definition expected_default {A} (h : list (reg_op A)) : option A :=
  match last_set h with
  | Some x => Some x
  | None => option_map op_element (hd_error h)
  end.

(** The first extension of each URI in a history, in order. *)
Fixpoint firsts_from {E} (uri : E -> pystr) (seen : list pystr) (h : list E) : list E :=
  match h with
  | [] => []
  | x :: t => if existsb (str_eqb (uri x)) seen then firsts_from uri seen t
              else x :: firsts_from uri (uri x :: seen) t
  end.
Definition firsts {E} (uri : E -> pystr) (h : list E) : list E := firsts_from uri [] h.
(** The last extension with a URI. *)
Definition last_with {E} (uri : E -> pystr) (u : pystr) (h : list E) : option E :=
  find (fun x => str_eqb (uri x) u) (rev h).

(** The key an argument stands for. *)
Definition arg_key (x : karg) : option pystr :=
  match x with KStr k => Some k | KAttr a => Some (a_key a) | KOther => None end.
(** The alias last registered for a key in the mapping called [n] by a history of calls of
    the global facility. *)
Definition registered (n k : pystr) (o : nop) : option pystr :=
  match o with
  | NGlobal m x (PStr al) => if str_eqb m n then
                               match arg_key x with
                               | Some k' => if str_eqb k' k then Some al else None
                               | None => None
                               end
                             else None
  | _ => None
  end.
Definition last_alias (n k : pystr) (h : list nop) : option pystr :=
  fold_left (fun r o => match registered n k o with Some al => Some al | None => r end) h None.
(** Calls of the global facility only. *)
Definition global_call (o : nop) : bool := match o with NGet _ | NGlobal _ _ _ => true | _ => false end.
(** The calls that ask for or write to a mapping called [n] (EN exists from the start). *)
Definition names (o : nop) : list pystr := match o with NGet n | NGlobal n _ _ => [n] | _ => [] end.
(** What the mapping called [n] holds for a key. *)
Definition named_map (g : gmaps) (n : pystr) (k : pystr) : option pystr :=
  match sget n (g_maps g) with Some l => gm_map_of g l (KStr k) | None => None end.

(** The names of the mappings after a history, and the keys registered under a name, in the
    order in which they were first met. *)
Definition names_met (h : list nop) : list pystr := firsts (fun n => n) (py "EN" :: flat_map names h).
Definition keys_met (n : pystr) (h : list nop) : list pystr :=
  firsts (fun k => k)
    (flat_map (fun o => match o with
                        | NGlobal m x (PStr _) =>
                            if str_eqb m n then match arg_key x with Some k => [k] | None => [] end else []
                        | _ => []
                        end) h).
(** The text of the mapping called [n] after a history. *)
Definition map_text (n : pystr) (h : list nop) : pystr :=
  py "Attribute name map: " ++ n
  ++ flat_map (fun k => [10%N] ++ k ++ py " -> " ++ match last_alias n k h with Some al => al | None => [] end)
       (keys_met n h).

(** Key lists. *)
Definition spaced (k : pystr) : bool := mem_char 32 k.
Definition good_key (k : pystr) : Prop := k <> [] /\ strip k = k /\ ~ In 39%N k.
(** Adjacent keys without spaces run together; [run] are those read so far. *)
Fixpoint merged (run : list pystr) (keys : list pystr) : list pystr :=
  match keys with
  | [] => match run with [] => [] | _ => [join (py " ") run] end
  | k :: t => if spaced k
              then match run with [] => [] | _ => [join (py " ") run] end ++ k :: merged [] t
              else merged (run ++ [k]) t
  end.
(** No two adjacent keys are both free of spaces. *)
Fixpoint no_adjacent_plain (keys : list pystr) : Prop :=
  match keys with
  | k1 :: ((k2 :: _) as t) => (spaced k1 = true \/ spaced k2 = true) /\ no_adjacent_plain t
  | _ => True
  end.
Definition quoted (k : pystr) : pystr := if spaced k then py "'" ++ k ++ py "'" else k.

(** A part of a duration text, left out when zero. *)
Definition part (n : Z) (label : pystr) : pystr := if (n =? 0)%Z then [] else print_Z n ++ label.
