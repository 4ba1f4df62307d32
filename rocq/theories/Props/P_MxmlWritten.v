(** C93: which logs are written as MXML, what the document is, and what is raised otherwise. *)
From Coq Require Import String NArith ZArith List Bool.
From Verif Require Import Base.PyBase Base.PyDate Base.PyVal Base.Xml Model.Attr Model.Log Model.XmlText Model.MxmlWrite
  Spec.Typing Spec.Mxml Spec.MxmlWritten Proofs.MxmlWrittenFacts.
Import ListNotations.

(** Every log: if nothing stands in the way it is written as the document of the specification,
    otherwise the first fault is raised. *)
Theorem C93_outcome : forall `{FIO : FloatIO} l,
  mxml_serialize l = match write_faults l with [] => Ok (log_doc l) | e :: _ => Raise e end.
Proof. intros FIO. exact mxml_write_outcome. Qed.
Print Assumptions C93_outcome.

(** Nothing else than AttributeError and TypeError is raised. *)
Theorem C93_exceptions : forall `{FIO : FloatIO} l e, mxml_serialize l = Raise e -> e = AttributeError \/ e = TypeError.
Proof. intros FIO. exact mxml_write_exceptions. Qed.
Print Assumptions C93_exceptions.

(** A log with texts under the keys MXML knows is always written, whatever else it contains. *)
Theorem C93_simple : forall `{FIO : FloatIO} l, simple_log l -> mxml_serialize l = Ok (log_doc l).
Proof. intros FIO. exact mxml_write_simple. Qed.
Print Assumptions C93_simple.

Definition att (c : acls) (k : string) (v : pyval) (me : sdict attr) : pystr * attr := (py k, mk_attr c (py k) None v [] me).
Definition txt (k v : string) : pystr * attr := att CLiteral k (PStr (py v)) [].
Definition one (m : sdict attr) : xlog := mk_log [txt "concept:name" "L"] [mk_trace [] [mk_event 1 m]] [] [] [] [] [].
Definition rich : xlog :=
  one [txt "concept:name" "a"; txt "org:group" "G"; txt "org:role" "R"; att CLiteral "lifecycle:transition" (PStr (py " Start ")) [txt "semantic:modelReference" "u"];
       txt "semantic:modelReference" "w"; att CTimestamp "time:timestamp" (PDate (mk_dt 2020 1 2 3 4 5 0 None)) [];
       att CDiscrete "n" (PInt 1) []].
Ltac entry_ok :=
  split; [reflexivity|];
  split; [intros I0; first [split; [split; [reflexivity|eexists; reflexivity]|discriminate]
                           |exfalso; cbn [fst] in I0; repeat (destruct I0 as [I0|I0]; [discriminate I0|]); exact I0]|];
  split; [intros E; first [reflexivity|discriminate E]|];
  split; [intros E; first [reflexivity|discriminate E]|];
  intros r E; vm_compute in E; first [discriminate E|injection E as <-; split; [reflexivity|eexists; reflexivity]].
Example C93_rich : simple_log rich /\ @log_doc no_floats rich =
  XElem (py "WorkflowLog") []
    [XElem (py "Source") [(py "program", py "XES MXML serialization"); (py "openxes.version", py "1.0RC7")] [];
     XElem (py "Process") [(py "id", py "L"); (py "description", py "process with id L")]
       [XElem (py "Data") [] [];
        XElem (py "ProcessInstance") [(py "id", py "None"); (py "description", py "instance with id None")]
          [XElem (py "Data") [] [];
           XElem (py "AuditTrailEntry") []
             [XElem (py "Data") [] [XElem (py "attribute") [(py "name", py "semantic:modelReference")] [XText (py "w")]];
              XElem (py "WorkflowModelElement") [(py "modelReference", py "w")] [XText (py "a")];
              XElem (py "EventType") [(py "modelReference", py "u")] [XText (py "start")];
              XElem (py "originator") [] [XText (py "R")];
              XElem (py "timestamp") [] [XText (py "2020-01-02 03:04:05")]]]]].
Proof.
  split; [|vm_compute; reflexivity].
  repeat first [entry_ok | constructor].
Qed.

Example C93_faults :
  @write_faults no_floats (one [att CList "lifecycle:transition" PNone []]) = [AttributeError]
  /\ @write_faults no_floats (one [att CDiscrete "org:resource" (PInt 3) []]) = [TypeError]
  /\ @write_faults no_floats (one [att CDiscrete "org:resource" (PInt 0) []]) = []
  /\ @write_faults no_floats (one [att CLiteral "semantic:modelReference" (PStr (py "u")) [txt "x" "y"]]) = [AttributeError]
  /\ @write_faults no_floats (mk_log [att CDiscrete "concept:name" (PInt 3) []] [mk_trace [] [mk_event 1 [att CList "org:role" PNone []]]] [] [] [] [] [])
     = [TypeError; AttributeError].
Proof. vm_compute. repeat split. Qed.
