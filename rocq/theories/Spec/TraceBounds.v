(** Vocabulary for statements about the boundaries of traces. *)
From Coq Require Import ZArith NArith List Bool.
From Verif Require Import Base.PyBase Base.PyDate Base.PyVal Model.Attr Model.Log Model.TimeBounds Spec.Time.
Import ListNotations.

Definition event_ids (t : trace) : list N := map ev_id (tr_events t).
Definition trace_stamps (t : trace) : list datetime := flat_map (fun e => contributed (REvent e)) (tr_events t).

(** [b] holds the first and the last time stamp of the trace, or nothing if there is none. *)
Definition spans (b : tbounds) (t : trace) : Prop :=
  match tb_first b, tb_last b with
  | None, None => trace_stamps t = []
  | Some f, Some g => earliest f (trace_stamps t) /\ latest g (trace_stamps t)
  | _, _ => False
  end.

(** Events of the two traces with one id have one time stamp. *)
Definition stamps_agree (t u : trace) : Prop :=
  forall e f, In e (tr_events t) -> In f (tr_events u) -> ev_id e = ev_id f ->
  contributed (REvent e) = contributed (REvent f).
