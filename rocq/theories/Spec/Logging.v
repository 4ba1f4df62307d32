(** Who gets a message. *)
From Coq Require Import String NArith List Bool.
From Verif Require Import Base.PyBase Model.Logging.
Import ListNotations.

(** [sends_to ops i l]: after [ops] logger [i] sends to [l]. *)
Definition new_loggers (ops : list gop) : nat := List.length (filter (fun o => match o with GNew => true | _ => false end) ops).
Inductive sends_to : list gop -> nat -> option listener -> Prop :=
| st_new ops : sends_to (ops ++ [GNew]) (new_loggers ops) (Some LStd)
| st_set ops i l l' : sends_to ops i l -> sends_to (ops ++ [GSet i l']) i l'
| st_other ops i l o : sends_to ops i l -> (forall l', o <> GSet i l') -> sends_to (ops ++ [o]) i l.

(** Messages of the library in order. *)
Definition library (ops : list gop) : list message :=
  flat_map (fun o => match o with GLibrary t p => [(p, t)] | _ => [] end) ops.
(** Messages the caller logs. *)
Definition callers (o : gop) : bool := match o with GLog _ _ _ => true | _ => false end.
