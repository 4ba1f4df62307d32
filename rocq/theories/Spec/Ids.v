(** The ids of events that were read. *)
From Coq Require Import NArith List.
From Verif Require Import Base.PyBase Model.Attr Model.Log Model.MxmlRead.
Import ListNotations.

(** Every id is a draw, among the first [n] ones, and no draw is used twice. *)
Definition own_draws (draw : nat -> N) (n : nat) (ids : list N) : Prop :=
  exists ks, NoDup ks /\ Forall (fun k => k < n) ks /\ ids = map draw ks.

Definition event_ids (l : xlog) : list N := map ev_id (log_events l).

(** The ids by trace, which is all that [==] between logs looks at (C73). *)
Definition ids_in_traces (l : xlog) : list (list N) := map (fun t => map ev_id (tr_events t)) (lg_traces l).

(** All events in the logs of an MXML file; where an entry was closed without having been
    opened there is none. *)
Definition read_events (l : mlog) : list event :=
  flat_map (fun t => flat_map (fun o => match o with Some e => [e] | None => [] end) (mt_events t)) (ml_traces l).
