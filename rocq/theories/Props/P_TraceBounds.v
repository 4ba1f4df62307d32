(** Property C82: the boundaries of a trace are found by luck, and are then right. *)
From Coq Require Import String ZArith NArith List Bool.
From Verif Require Import Base.PyBase Base.PyDate Base.PyVal Model.Attr Model.Log Model.Classify Model.TimeBounds
  Model.LogInfo Model.TraceBounds Spec.Typing Spec.Time Spec.TraceBounds Proofs.TraceBoundFacts
  Props.P_Classify Props.P_Info.
Import ListNotations.

(** C82.  The traces of the log are the objects [ts] with contents [c].  Whatever the hash
    values [h] of its traces, a summary has its dictionary of boundaries. *)
Theorem C82_kept : forall `{FIO : FloatIO} draw (c : nat -> trace) (h : nat -> Z) l ts default extra s,
  lg_traces l = map c ts -> create_info draw l default extra = Ok s ->
  exists d, trace_boundaries c h 0 ts [] = Ok d.
Proof. intros FIO draw c h l ts default extra s. apply summary_has_boundaries. Qed.
Print Assumptions C82_kept.

(** C82.  What is answered are the boundaries of a trace of the log with the same event ids; *)
Theorem C82_found : forall (c : nat -> trace) (h : nat -> Z) ts d hq q b,
  trace_boundaries c h 0 ts [] = Ok d -> get_trace_time_boundaries c hq q d = Some b ->
  exists t, In t ts /\ event_ids (c t) = event_ids (c q) /\ spans b (c t).
Proof. exact bounds_found. Qed.
Print Assumptions C82_found.

(** C82.  these are its own when events with one id have one time stamp. *)
Theorem C82_own : forall (c : nat -> trace) (h : nat -> Z) ts d hq q b,
  trace_boundaries c h 0 ts [] = Ok d -> (forall t, In t ts -> stamps_agree (c t) (c q)) ->
  get_trace_time_boundaries c hq q d = Some b -> spans b (c q).
Proof. exact bounds_own. Qed.
Print Assumptions C82_own.

(** C82.  There is an answer exactly if the hash value of the question is one that was used
    for a trace with these event ids. *)
Theorem C82_answer : forall (c : nat -> trace) (h : nat -> Z) ts d hq q,
  trace_boundaries c h 0 ts [] = Ok d ->
  ((exists b, get_trace_time_boundaries c hq q d = Some b) <->
   exists n t, nth_error ts n = Some t /\ h n = hq /\ event_ids (c t) = event_ids (c q)).
Proof. exact bounds_answer. Qed.
Print Assumptions C82_answer.

(** C82.  So a trace of the log may be answered with [None]. *)
Definition morning : datetime := mk_dt 2020 1 1 8 0 0 0 None.
Definition two_traces (n : nat) : trace :=
  match n with
  | 0 => mk_trace [] [mk_event 1 [late_stamp];
                      mk_event 2 [(py "time:timestamp", mk_attr CTimestamp (py "time:timestamp") None (PDate morning) [] [])]]
  | _ => mk_trace [] [mk_event 3 [late_stamp]]
  end.

Theorem C82_always_answers_refuted : exists (c : nat -> trace) (h : nat -> Z) ts d hq q,
  trace_boundaries c h 0 ts [] = Ok d /\ In q ts /\ get_trace_time_boundaries c hq q d = None.
Proof.
  exists two_traces, (fun n => Z.of_nat n), [0; 1]. eexists. exists 5%Z, 0.
  split; [vm_compute; reflexivity|]. split; [left; reflexivity|vm_compute; reflexivity].
Qed.
Print Assumptions C82_always_answers_refuted.

Example C82_example : exists d,
  trace_boundaries two_traces (fun _ => 4%Z) 0 [0; 1] [] = Ok d
  /\ get_trace_time_boundaries two_traces 4 0 d = Some (mk_tb (Some morning) (Some noon))
  /\ get_trace_time_boundaries two_traces 4 1 d = Some (mk_tb (Some noon) (Some noon))
  /\ get_trace_time_boundaries two_traces 9 1 d = None.
Proof. eexists. split; [vm_compute; reflexivity|]. repeat split; vm_compute; reflexivity. Qed.
