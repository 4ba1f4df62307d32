(** Vocabulary for statements about chronological order. *)
From Coq Require Import String NArith ZArith List Bool Sorting.Sorted.
From Verif Require Import Base.PyBase Base.PyDate Base.PyVal Model.Attr Model.TimeBounds.
Import ListNotations.
Local Open Scope Z_scope.

(** The event carries a time stamp attribute whose value is the date-time [d]. *)
Definition timed (ev : event) (d : datetime) : Prop :=
  exists a, sget (py "time:timestamp") (ev_attrs ev) = Some a
  /\ is_collection (a_cls a) = false /\ a_val a = PDate d.

(** The time of an event, for counting and sorting. *)
Definition time_of (ev : event) : Z :=
  match sget (py "time:timestamp") (ev_attrs ev) with
  | Some a => match a_val a with PDate d => instant d | _ => 0 end
  | None => 0
  end.

(** Events with time stamps that are all aware ([aw = true]) or all naive. *)
Definition all_timed (aw : bool) (t : list event) : Prop :=
  Forall (fun ev => exists d, timed ev d /\ is_aware d = aw) t.

Definition chronological (t : list event) : Prop :=
  StronglySorted (fun a b => time_of a <= time_of b) t.

(** The time stamps an element contributes to time bounds. *)
Definition opt_list {A} (o : option A) : list A := match o with Some x => [x] | None => [] end.

Definition contributed (x : relem) : list datetime :=
  match x with
  | RBounds b => opt_list (tb_first b) ++ opt_list (tb_last b)
  | REvent e =>
      match sget (py "time:timestamp") (ev_attrs e) with
      | Some a => match a_val a with PDate d => [d] | _ => [] end
      | None => []
      end
  | RDate d => [d]
  | ROther => []
  end.

(** No event has a list or container under the time stamp key. *)
Definition plain_stamp (x : relem) : Prop :=
  match x with
  | REvent e => forall a, sget (py "time:timestamp") (ev_attrs e) = Some a -> is_collection (a_cls a) = false
  | _ => True
  end.

(** [d] is among [l] and no member of [l] is earlier (later). *)
Definition earliest (d : datetime) (l : list datetime) : Prop :=
  In d l /\ Forall (fun x => instant d <= instant x) l.
Definition latest (d : datetime) (l : list datetime) : Prop :=
  In d l /\ Forall (fun x => instant x <= instant d) l.

(** [t'] is [t] with [e] inserted at position [i]. *)
Definition inserted (t t' : list event) (e : event) (i : nat) : Prop :=
  exists l1 l2, t = l1 ++ l2 /\ t' = l1 ++ e :: l2 /\ length l1 = i.

(** If the event has a time stamp at all, it is a date-time. *)
Definition dates_only (ev : event) : Prop :=
  forall a, sget (py "time:timestamp") (ev_attrs ev) = Some a ->
  is_collection (a_cls a) = false /\ exists d, a_val a = PDate d.

(** Both absent, or both present and denoting the same instant. *)
Definition same_instant (a b : option datetime) : Prop :=
  match a, b with
  | None, None => True
  | Some x, Some y => instant x = instant y
  | _, _ => False
  end.
