(** C90: which MXML documents are read, and what the reader raises for the others. *)
From Coq Require Import String NArith ZArith List Bool.
From Verif Require Import Base.PyBase Base.PyDate Base.PyVal Base.Xml Model.Attr Model.Log Model.MxmlRead
  Spec.MxmlFaults Proofs.MxmlFaultFacts.
Import ListNotations.

(** A document whose elements stand where they belong is read iff it has no fault; otherwise
    the exception is that of the first fault. *)
Theorem C90_first_fault : forall draw doc, mplaced Outside doc = true ->
  match mfaults [] (sax_of doc) with
  | [] => exists s, mxml_parse draw doc = Ok s
  | e :: _ => mxml_parse draw doc = Raise e
  end.
Proof. exact mxml_outcome. Qed.
Print Assumptions C90_first_fault.

(** Any document that is read has no fault, wherever its elements stand. *)
Theorem C90_no_fault_survives : forall draw doc s, mxml_parse draw doc = Ok s -> mfaults [] (sax_of doc) = [].
Proof. intros draw doc s. exact (mxml_accepted draw (sax_of doc) ms_init s). Qed.
Print Assumptions C90_no_fault_survives.

(** Whatever the handler is fed, it raises one of three exceptions. *)
Theorem C90_exceptions : forall draw es s e, mx_run draw es s = Raise e -> In e [AttributeError; TypeError; OverflowError].
Proof. exact mx_run_raises. Qed.
Print Assumptions C90_exceptions.

(** A process in a process, an instance in an instance and entries without any instance are
    not read. *)
Theorem C90_nested_process : forall draw doc, nested "Process" doc = true -> exists e, mxml_parse draw doc = Raise e.
Proof. exact nested_process. Qed.
Print Assumptions C90_nested_process.
Theorem C90_nested_instance : forall draw doc, nested "ProcessInstance" doc = true -> exists e, mxml_parse draw doc = Raise e.
Proof. exact nested_instance. Qed.
Print Assumptions C90_nested_instance.
Theorem C90_stray_entry : forall draw doc, occurs "AuditTrailEntry" doc = true -> occurs "ProcessInstance" doc = false ->
  exists e, mxml_parse draw doc = Raise e.
Proof. exact stray_entry. Qed.
Print Assumptions C90_stray_entry.

Definition tag (t : string) (kids : list xnode) : xnode := XElem (py t) [] kids.
Definition field (t v : string) : xnode := tag t [XText (py v)].
Definition a_log (entries : list xnode) : xnode := tag "WorkflowLog" [tag "Process" [tag "ProcessInstance" entries]].
Definition entry (v : string) : xnode :=
  tag "AuditTrailEntry" [field "WorkflowModelElement" "a"; field "Timestamp" v; field "EventType" "start"].
Definition read (doc : xnode) := mxml_parse N.of_nat doc.
Definition far : string := "2008-12-09T08:20:01+99999999999999:00".

Example C90_example :
  let good := a_log [entry "2008-12-09T08:20:01+01:00"; entry "tomorrow"] in
  let late := a_log [entry far; tag "Attribute" []] in
  let bare := a_log [tag "Data" [tag "Attribute" []]; entry far] in
  let twice := a_log [tag "Process" []] in
  let inner := a_log [tag "ProcessInstance" []; entry "tomorrow"] in
  let stray := tag "Process" [entry "tomorrow"] in
  mplaced Outside good = true /\ mfaults [] (sax_of good) = []
  /\ match read good with Ok s => length (m_logs s) = 1 | Raise _ => False end
  /\ mplaced Outside late = true /\ mfaults [] (sax_of late) = [OverflowError; AttributeError] /\ read late = Raise OverflowError
  /\ mplaced Outside bare = true /\ mfaults [] (sax_of bare) = [AttributeError; OverflowError] /\ read bare = Raise AttributeError
  /\ nested "Process" twice = true /\ read twice = Raise AttributeError
  /\ nested "ProcessInstance" inner = true /\ read inner = Raise AttributeError
  /\ occurs "AuditTrailEntry" stray = true /\ occurs "ProcessInstance" stray = false /\ read stray = Raise AttributeError.
Proof. vm_compute. repeat split. Qed.

(** Not every document that is read is well formed: an entry in an entry leaves None in the
    trace. *)
Theorem C90_misplaced_refuted : exists doc s, read doc = Ok s /\ mplaced Outside doc = false
  /\ map (fun l => map (fun t => map (fun e => match e with Some _ => true | None => false end) (mt_events t)) (ml_traces l)) (m_logs s)
     = [[[true; false]]].
Proof. exists (a_log [tag "AuditTrailEntry" [tag "AuditTrailEntry" []]]). eexists. vm_compute. repeat split. Qed.
Print Assumptions C90_misplaced_refuted.
