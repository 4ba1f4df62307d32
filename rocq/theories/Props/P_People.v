(** Property C79: the chart of activities done by people. *)
From Coq Require Import String NArith ZArith List Bool.
From Verif Require Import Base.PyBase Base.PyDate Base.PyVal Model.Attr Model.Log Model.Classify Model.Registry Model.People
  Spec.Typing Spec.Xes Spec.Survive Spec.People Proofs.PeopleFacts Props.P_Xes.
Import ListNotations.

(** The bars are the different resources of the events, in the order in which they come first,
    each as long as the number of its events. *)
Theorem C79_chart : forall (FIO : FloatIO) logs ids,
  Forall2 (fun e s => resource_is e (Ok s)) (all_events logs) ids ->
  people_chart logs = Ok (distinct_texts ids, map (fun p => times p ids) (distinct_texts ids)).
Proof. exact @chart_ok. Qed.
Print Assumptions C79_chart.

(** No bar twice and none empty, one for each resource; together they are as long as the
    number of events. *)
Theorem C79_totals : forall (FIO : FloatIO) logs names units, people_chart logs = Ok (names, units) ->
  NoDup names /\ List.length units = List.length names
  /\ list_sum units = List.length (all_events logs)
  /\ Forall (lt 0) units
  /\ forall p, In p names <-> exists e, In e (all_events logs) /\ resource_is e (Ok p).
Proof. exact @chart_totals. Qed.
Print Assumptions C79_totals.

(** There is no chart exactly if some resource has no text; the exception is that of the
    first such event. *)
Theorem C79_raises : forall (FIO : FloatIO) logs x, people_chart logs = Raise x <->
  exists pre e post, all_events logs = pre ++ e :: post /\ resource_is e (Raise x)
    /\ forall y, In y pre -> exists s, resource_is y (Ok s).
Proof. exact @chart_raise. Qed.
Print Assumptions C79_raises.

(** The chart of logs that were read from files is that of the logs that were written. *)
Theorem C79_survives : forall (FIO : FloatIO) mgr urlparse draw logs logs',
  Forall2 (fun l l' => readable_log l /\ keyed_log l /\ calm_log l /\ zoned_for (mk_cl (py "Resource") [py "Resource"]) l
                       /\ stored mgr urlparse draw l l') logs logs' ->
  people_chart logs' = people_chart logs.
Proof. exact @chart_survives. Qed.
Print Assumptions C79_survives.

Definition done_by (n : N) (who : string) : event := mk_event n [(py "Resource", lit "Resource" who)].
Definition team : xlog :=
  mk_log [] [mk_trace [] [done_by 1 "Ann"; done_by 2 "Bob"; mk_event 3 []]; mk_trace [] [done_by 4 "Bob"; mk_event 5 []; done_by 6 "Eve"]]
    [] [] [] [] [].
Example C79_example :
  Forall2 (fun e s => @resource_is no_floats e (Ok s)) (all_events [team; team])
    (map py ["Ann"; "Bob"; ""; "Bob"; ""; "Eve"; "Ann"; "Bob"; ""; "Bob"; ""; "Eve"]%string)
  /\ @people_chart no_floats [team; team] = Ok (map py ["Ann"; "Bob"; ""; "Eve"]%string, [2; 4; 4; 2])
  /\ @people_chart no_floats [mk_log [] [mk_trace [] [done_by 1 "Ann"; mk_event 2 [(py "Resource", mk_attr CTimestamp (py "Resource") None PNone [] [])]]] [] [] [] [] []]
     = Raise AttributeError.
Proof.
  split; [|split; vm_compute; reflexivity].
  cbn [all_events flat_map map app]. repeat (apply Forall2_cons; [apply resource_identity; reflexivity|]). apply Forall2_nil.
Qed.
Example C79_survives_example : @readable_log no_floats team /\ keyed_log team /\ @calm_log no_floats team /\ zoned_for (mk_cl (py "Resource") [py "Resource"]) team.
Proof.
  split; [|split; [|split]].
  - split; [constructor|split; [constructor|split; [constructor|]]].
    repeat (apply Forall_cons; [split; [readables_ok|repeat (apply Forall_cons; [readables_ok|]); apply Forall_nil]|]). apply Forall_nil.
  - assert (K : forall m, keyed m -> Forall well_keyed (map snd m) -> keyed_deep m) by (split; auto).
    split; [apply K; [keyed_ok|constructor]|].
    repeat (apply Forall_cons; [split; [apply K; [keyed_ok|constructor]
      |repeat (apply Forall_cons; [apply K; [keyed_ok|cbn; repeat (apply Forall_cons; [well_keyed_ok|]); apply Forall_nil]|]); apply Forall_nil]|]).
    apply Forall_nil.
  - intros doc E. vm_compute in E. injection E as <-. reflexivity.
  - intros t e k a It Ie Ik G. cbn in Ik. destruct Ik as [<-|[]].
    cbn in It. destruct It as [<-|[<-|[]]]; cbn in Ie; repeat destruct Ie as [<-|Ie]; try contradiction; cbn in G;
      try discriminate; injection G as <-; constructor; try constructor; discriminate.
Qed.
