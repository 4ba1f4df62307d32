(** What a program does to the identifiers held by events and attributes. *)
From Coq Require Import NArith List Bool PeanoNat.
From Verif Require Import Base.PyBase Model.XidObjects.
Import ListNotations.

(** The last value a call of the program gives, or the first one. *)
Definition last_given {A} (f : id_call -> option A) (h : list id_call) (x : A) : A :=
  fold_left (fun x c => match f c with Some y => y | None => x end) h x.
Definition gives_uuid (r : nat) (c : id_call) : option N :=
  match c with SetUuid q u => if Nat.eqb q r then Some u else None | _ => None end.
Definition gives_event_id (e : nat) (c : id_call) : option nat :=
  match c with SetEventId f r => if Nat.eqb f e then Some r else None | _ => None end.
Definition gives_attr_id (a : nat) (c : id_call) : option nat :=
  match c with SetIdAttr b r => if Nat.eqb b a then Some r else None | _ => None end.

(** Calls name objects that exist. *)
Definition exists_in (s : ids) (c : id_call) : Prop :=
  match c with
  | NewXid _ | ParseXid _ | NewEvent None => True
  | CloneXid r | SetUuid r _ | NewEvent (Some r) | NewIdAttr r => r < List.length (i_uuid s)
  | CloneEvent e => e < List.length (i_event s)
  | SetEventId e r => e < List.length (i_event s) /\ r < List.length (i_uuid s)
  | CloneIdAttr a => a < List.length (i_attr s)
  | SetIdAttr a r => a < List.length (i_attr s) /\ r < List.length (i_uuid s)
  end.
Inductive program (draw : nat -> N) : list id_call -> ids -> Prop :=
| program_none : program draw [] ids_init
| program_more h s c s' : program draw h s -> exists_in s c -> id_step draw s c = Ok s' -> program draw (h ++ [c]) s'.

(** An identifier object with one holder at most: no event but [e] and no attribute but [a]. *)
Definition held_only (s : ids) (r : nat) (e a : option nat) : Prop :=
  (forall f, event_xid s f = Some r -> Some f = e) /\ (forall b, attr_xid s b = Some r -> Some b = a).

(** Calls that make identifiers by drawing only. *)
Definition draws_only (c : id_call) : bool :=
  match c with
  | NewXid None | NewEvent _ | CloneEvent _ | SetEventId _ _ | NewIdAttr _ | SetIdAttr _ _ => true
  | NewXid (Some _) | ParseXid _ | CloneXid _ | SetUuid _ _ | CloneIdAttr _ => false
  end.
