(** Property C81: the random log. *)
From Coq Require Import String NArith ZArith List Bool SpecFloat.
From Verif Require Import Base.PyBase Base.PyDate Base.PyVal Model.Attr Model.Log Model.StdExt Model.RandomLog Model.Registry
  Spec.DateText Spec.Xes Spec.XmlNorm Spec.Survive Spec.People Spec.FileTexts Spec.RandomLog
  Model.XmlText Model.XmlChars Proofs.RandomFacts Props.P_Ext.
Import ListNotations.

(** The log has a trace for each list of choices, an event for each list of options, and in it
    an attribute for each different option.  [zero] is the local time of the epoch, on Windows
    that of the day after it. *)
Theorem C81_log : forall (C : Clock) (windows : bool) (draw : nat -> N) (zero : datetime), from_ms (PInt (if windows then 86400000 else 0)) = Ok zero ->
  forall choices, choices_ok choices ->
  exists l, random_log windows draw choices = Ok l /\ Forall2 (trace_of zero) choices (lg_traces l) /\ lg_attrs l = [].
Proof.
  intros C w draw zero Z choices F. destruct (random_log_ok w draw zero Z choices F) as (ts & E & X & _).
  eexists. split; [exact E|]. split; [exact X | reflexivity].
Qed.
Print Assumptions C81_log.

(** No id comes twice in it, be it of an event or the value of an attribute. *)
Theorem C81_ids : forall (C : Clock) (windows : bool) (draw : nat -> N) (zero : datetime), from_ms (PInt (if windows then 86400000 else 0)) = Ok zero ->
  (forall i j, draw i = draw j -> i = j) ->
  forall choices l, choices_ok choices -> random_log windows draw choices = Ok l ->
  NoDup (flat_map ids_in (all_events [l])).
Proof.
  intros C w draw zero Z Inj choices l F E. destruct (random_log_ok w draw zero Z choices F) as (ts & E' & _ & N & _).
  rewrite E in E'. injection E' as ->. unfold all_events. cbn [flat_map lg_traces]. rewrite app_nil_r. exact (N Inj).
Qed.
Print Assumptions C81_ids.

Theorem C81_sizes : forall (C : Clock) (windows : bool) (draw : nat -> N) (zero : datetime), from_ms (PInt (if windows then 86400000 else 0)) = Ok zero ->
  forall choices l, script_choices choices -> random_log windows draw choices = Ok l ->
  List.length (lg_traces l) = 10
  /\ Forall (fun t => 3 <= List.length (tr_events t) <= 7) (lg_traces l)
  /\ 30 <= List.length (all_events [l]) <= 70
  /\ Forall (fun e => 1 <= List.length (ev_attrs e) <= 4) (all_events [l]).
Proof. intros C w draw zero. exact (random_sizes w draw zero). Qed.
Print Assumptions C81_sizes.

(** The script can write it and the file holds it. *)
Theorem C81_file : forall (C : Clock) (windows : bool) (draw : nat -> N) (zero : datetime), from_ms (PInt (if windows then 86400000 else 0)) = Ok zero ->
  forall FIO : FloatIO, float_of_str (float_repr (S754_zero false)) = Some (S754_zero false) ->
  legal_text (float_repr (S754_zero false)) = true /\ calm (float_repr (S754_zero false)) = true ->
  valid_dt zero = true /\ minute_zone zero -> (forall k, (draw k < 2 ^ 128)%N) ->
  forall mgr urlparse draw2 choices l, choices_ok choices -> random_log windows draw choices = Ok l ->
  exists l', stored mgr urlparse draw2 l l' /\ Forall2 (same_trace mgr) (lg_traces l) (lg_traces l').
Proof. intros C w draw zero Z FIO. exact (random_file w draw zero Z). Qed.
Print Assumptions C81_file.

(** One trace of an event with every option and an event with two options twice; 0.0 printed
    and read as Python does. *)
Definition zero_floats : FloatIO := {|
  float_repr := fun _ => py "0.0";
  float_of_str := fun s => if str_eqb s (py "0.0") then Some (S754_zero false) else None |}.
Definition day0 (w : bool) : datetime := mk_dt 1970 1 (if w then 2 else 1) 0 0 0 0 None.
Definition some_choices : list (list (list pystr)) :=
  [[random_options; map py ["id"; "int"; "id"; "int"]%string]; []].
Definition tripled : list (list (list pystr)) := repeat (repeat (firstn 4 random_options) 3) 10.
Example C81_example :
  (forall w : bool, @from_ms january (PInt (if w then 86400000 else 0)) = Ok (day0 w))
  /\ choices_ok some_choices /\ script_choices tripled
  /\ (forall w, valid_dt (day0 w) = true /\ minute_zone (day0 w))
  /\ @float_of_str zero_floats (@float_repr zero_floats (S754_zero false)) = Some (S754_zero false)
  /\ legal_text (@float_repr zero_floats (S754_zero false)) = true /\ calm (@float_repr zero_floats (S754_zero false)) = true
  /\ match @random_log january false N.of_nat some_choices with
     | Ok l => lg_traces l = [mk_trace [] [
         mk_event 0 [(py "string", mk_attr CLiteral (py "string") None (PStr (py "UNKNOWN")) [] []);
           (py "date", mk_attr CTimestamp (py "date") None (PDate (day0 false)) [] []);
           (py "int", mk_attr CDiscrete (py "int") None (PInt 0) [] []);
           (py "float", mk_attr CContinuous (py "float") None (PFloat (S754_zero false)) [] []);
           (py "boolean", mk_attr CBoolean (py "boolean") None (PBool true) [] []);
           (py "id", mk_attr CID (py "id") None (PXid 1) [] []);
           (py "list", mk_attr CList (py "list") None PNone [] []);
           (py "container", mk_attr CContainer (py "container") None PNone [] [])];
         mk_event 2 [(py "id", mk_attr CID (py "id") None (PXid 4) [] []);
           (py "int", mk_attr CDiscrete (py "int") None (PInt 0) [] [])]]; mk_trace [] []]
     | Raise _ => False
     end.
Proof.
  assert (O : forall n, Forall (fun o => In o random_options) (firstn n random_options)).
  { intros n. apply Forall_forall. intros o I. rewrite <- (firstn_skipn n random_options). apply in_or_app. now left. }
  split; [intros []; reflexivity|]. split.
  { apply Forall_cons; [|apply Forall_cons; constructor]. apply Forall_cons; [exact (O 8)|]. apply Forall_cons; [|constructor].
    apply Forall_forall. intros o I. cbn [map In] in I. assert (D : o = py "id" \/ o = py "int") by (intuition congruence).
    destruct D as [-> | ->]; [do 5 right; now left | do 2 right; now left]. }
  split. { split; [|split; [reflexivity|]].
    - apply Forall_forall. intros t T. apply repeat_spec in T as ->. apply Forall_forall. intros e E. apply repeat_spec in E as ->. apply O.
    - apply Forall_forall. intros t T. apply repeat_spec in T as ->. split; [cbn; split; repeat constructor|].
      apply Forall_forall. intros e E. apply repeat_spec in E as ->. reflexivity. }
  split; [intros []; split; reflexivity || exact I|].
  do 3 (split; [vm_compute; reflexivity|]). vm_compute. reflexivity.
Qed.
