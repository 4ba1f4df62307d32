(** Property C86: writing a log to MXML and reading it, again and again.

    [reloaded draw l l'] says that [l'] is the one log read from what [l] is written as;
    [draw] stands for the ids drawn for its events, which may differ every time. *)
From Coq Require Import String NArith ZArith List Bool.
From Verif Require Import Base.PyBase Base.PyDate Base.PyVal Base.Xml Model.Attr Model.DateConv Model.Log
  Model.StdExt Model.XmlText Model.MxmlRead Model.MxmlWrite Spec.Typing Spec.Mxml Spec.Settled Spec.MxmlSettled
  Proofs.MxmlSettledFacts Props.P_Mxml.
Import ListNotations.

(** What was read can always be written and read again. *)
Theorem C86_again `{FIO : FloatIO} draw draw2 l l1 : reloaded draw l l1 -> exists l2, reloaded draw2 l1 l2.
Proof. exact (reload_again draw draw2 l l1). Qed.
Print Assumptions C86_again.

(** The second time the events are the same, with the same attributes. *)
Theorem C86_events `{FIO : FloatIO} draw draw2 l l1 l2 : reloaded draw l l1 -> reloaded draw2 l1 l2 -> event_maps l2 = event_maps l1.
Proof. exact (reload_events draw draw2 l l1 l2). Qed.
Print Assumptions C86_events.

(** If the log has a name that is not blank, and no trace a blank one, nothing changes the second time. *)
Theorem C86_settles `{FIO : FloatIO} draw draw2 l l1 l2 :
  lasting l -> reloaded draw l l1 -> reloaded draw2 l1 l2 -> same_but_ids l1 l2.
Proof. exact (reload_same draw draw2 l l1 l2). Qed.
Print Assumptions C86_settles.

(** Whatever the names are, nothing changes after the third time. *)
Theorem C86_third `{FIO : FloatIO} d1 d2 d3 d4 l l1 l2 l3 l4 :
  reloaded d1 l l1 -> reloaded d2 l1 l2 -> reloaded d3 l2 l3 -> reloaded d4 l3 l4 -> same_but_ids l3 l4.
Proof. intros A B. exact (reload_same d3 d4 l2 l3 l4 (reload_lasting d1 d2 l l1 l2 A B)). Qed.
Print Assumptions C86_third.

Definition numbers (n : nat) : N := N.of_nat n.
Definition other_numbers (n : nat) : N := N.of_nat n + 100.
Lemma first_of (l : xlog) : (if @mxml_serialize no_floats l then True else False) -> exists l1, @reloaded no_floats numbers l l1.
Proof. intros H. apply reload_exists. destruct (mxml_serialize l) as [d|]; [now exists d|easy]. Qed.

Example C86_example : lasting sample_log /\ exists l1 l2, @reloaded no_floats numbers sample_log l1 /\ @reloaded no_floats other_numbers l1 l2
  /\ List.length (lg_traces l2) = 2.
Proof.
  split.
  - split; [exists (py "log"); split; reflexivity|]. cbn [lg_traces sample_log]. intros t n [<-|[<-|[<-|[]]]] _ E; vm_compute in E; try discriminate.
    injection E as <-. reflexivity.
  - destruct (first_of sample_log) as (l1 & A); [vm_compute; exact I|].
    destruct (@reload_again no_floats numbers other_numbers _ _ A) as (l2 & B). exists l1, l2. split; [exact A|]. split; [exact B|].
    pose proof (@reload_twice no_floats _ _ _ _ _ A B) as E. apply reload_shape in A as (_ & A & _).
    rewrite <- (map_length but_ids), E, map_length, A. reflexivity.
Qed.

(** A name that is blank: what the second and the third time give differs, in the description of the log. *)
Definition blank_log : xlog := mk_log [lit "concept:name" " "] [] [] [] [] [] [].
Theorem C86_blank_refuted : exists l l1 l2 l3, @reloaded no_floats numbers l l1 /\ @reloaded no_floats numbers l1 l2
  /\ @reloaded no_floats numbers l2 l3
  /\ text_of "description" (lg_attrs l1) = Some (py "process with id  ")
  /\ text_of "description" (lg_attrs l2) = Some (py "process with id None")
  /\ text_of "description" (lg_attrs l3) = Some (py "process with id none").
Proof.
  destruct (first_of blank_log) as (l1 & A); [vm_compute; exact I|].
  destruct (@reload_again no_floats numbers numbers _ _ A) as (l2 & B).
  destruct (@reload_again no_floats numbers numbers _ _ B) as (l3 & C).
  exists blank_log, l1, l2, l3. do 3 (split; [assumption|]).
  apply reload_shape in A as (A & _). apply reload_shape in B as (B & _). apply reload_shape in C as (C & _).
  rewrite C, B, A. vm_compute. auto.
Qed.
Print Assumptions C86_blank_refuted.
