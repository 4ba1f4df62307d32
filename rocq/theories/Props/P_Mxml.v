(** Properties C43-C46: reading and writing MXML.

    [draw] stands for the ids drawn for new events; the theorems hold whatever they are. *)
From Coq Require Import String NArith ZArith List Bool.
From Verif Require Import Base.PyBase Base.PyDate Base.PyVal Base.Xml Model.Attr Model.DateConv Model.Log
  Model.Token Model.StdExt Model.XmlText Model.MxmlRead Model.MxmlWrite Spec.Typing Spec.Xes Spec.Mxml
  Proofs.MxmlLogFacts Proofs.MxmlPlaceFacts Proofs.MxmlRoundFacts.
Import ListNotations.

(** ** A document *)

Definition data (k v : string) : xnode := XElem (py "Data") [] [XElem (py "Attribute") [(py "name", py k)] [XText (py v)]].
Definition step (n : string) : xnode :=
  XElem (py "AuditTrailEntry") []
    [XElem (py "WorkflowModelElement") [] [XText (py n)]; XText (py " ");
     XElem (py "EventType") [] [XText (py " Start ")]; data "cost" "3"].
Definition sample_doc : xnode :=
  XElem (py "WorkflowLog") []
    [XElem (py "Source") [(py "program", py "P")] [];
     XElem (py "Process") [(py "id", py "p1")]
       [data "zero" "0";
        XElem (py "ProcessInstance") [(py "id", py "empty")] [data "one" "1"];
        XElem (py "ProcessInstance") [(py "id", py "i1")] [data "two" "2"; step "a"; data "three" "3"; step "b"];
        XElem (py "ProcessInstance") [(py "id", py "i2")] [data "four" "4"; step "c"];
        data "five" "5"]].
Definition sample_items : list mx_item := match mxml_items sample_doc with Some l => l | None => [] end.
Definition sample_run : mstate := match mxml_parse (fun n => N.of_nat n) sample_doc with Ok s => s | Raise _ => ms_init end.

(** ** C43 *)

(** The complete result: the parser makes the logs of the specification. *)
Theorem C43_reading draw doc logs : mxml_logs draw doc = Some logs ->
  exists s, mxml_parse draw doc = Ok s /\ Forall2 (log_is (m_sources s)) (m_logs s) logs.
Proof. exact (mxml_reads draw doc logs). Qed.
Print Assumptions C43_reading.

(** One log per process; its traces are the instances with an entry, in order; the events of
    a trace are its entries, in order. *)
Theorem C43_instances draw doc its : mxml_items doc = Some its ->
  exists s, mxml_parse draw doc = Ok s
  /\ Forall2 (fun m p => Forall2 (fun t i => map (option_map ev_attrs) (mt_events t) = map (fun e => Some (index e)) (entries i))
                                 (ml_traces m) (filter filled (rights (pr_items p))))
             (m_logs s) (processes None its).
Proof. exact (instances_kept draw doc its). Qed.
Print Assumptions C43_instances.

Example C43_sample :
  mxml_items sample_doc = Some sample_items
  /\ map (fun p => map (fun i => List.length (entries i)) (filter filled (rights (pr_items p)))) (processes None sample_items) = [[2; 1]]
  /\ map (fun m => map (fun t => List.length (mt_events t)) (ml_traces m)) (m_logs sample_run) = [[2; 1]].
Proof. vm_compute. auto. Qed.

(** ** C44 *)

(** Whatever fields the entries have: the events have their trimmed texts as name, transition
    (an unknowntype wins), resource (UNKNOWN if blank) and time, and nothing else. *)
Theorem C44_fields draw d : Forall (Forall (Forall time_ok)) d ->
  exists s, mxml_parse draw (document_elem d) = Ok s
  /\ Forall2 (fun m p => Forall2 (fun t i => Forall2 (fun o e => exists ev, o = Some ev /\ entry_is (ev_attrs ev) e) (mt_events t) i)
                                 (ml_traces m) (filter has_items p))
             (m_logs s) d.
Proof. exact (flat_entries draw d). Qed.
Print Assumptions C44_fields.

(** Letter case is kept, as the texts of the specification are only trimmed: standard types
    are not brought to a normal form. *)
Definition sample_entry : entry :=
  mk_en (Some (py " a ")) None (Some (py "COMPLETE")) (Some (py "2020-01-02T03:04:05.000+01:00")) (Some (py "  ")).
Example C44_sample :
  Forall (Forall (Forall time_ok)) [[[sample_entry; mk_en None (Some (py "odd")) (Some (py "x")) None None]]]
  /\ map (fun m => map (fun t => map (option_map (fun e => map (fun kv => (fst kv, a_val (snd kv))) (ev_attrs e))) (mt_events t)) (ml_traces m))
         (match mxml_parse (fun n => N.of_nat n) (document_elem [[[sample_entry; mk_en None (Some (py "odd")) (Some (py "x")) None None]]]) with
          | Ok s => m_logs s | Raise _ => [] end)
     = [[[Some [(py "concept:name", PStr (py "a")); (py "lifecycle:transition", PStr (py "COMPLETE"));
                (py "time:timestamp", PDate (mk_dt 2020 1 2 3 4 5 0 (Some (mk_tz 3600000000 None))));
                (py "org:resource", PStr (py "UNKNOWN"))];
          Some [(py "lifecycle:transition", PStr (py "odd"))]]]].
Proof.
  split; [|vm_compute; reflexivity].
  repeat (constructor; try (intros t E; try discriminate E; injection E as <-; eexists; vm_compute; reflexivity)).
Qed.

(** ** C45 *)

(** A trace has the data after its first entry. *)
Theorem C45_on_trace draw doc its : mxml_items doc = Some its ->
  exists s, mxml_parse draw doc = Ok s
  /\ Forall2 (fun m p => Forall2 (fun t i => forall k, ~ In k own_keys -> sget k (mt_attrs t) = last_with k (after_entry (snd i)))
                                 (ml_traces m) (filter filled (rights (pr_items p))))
             (m_logs s) (processes None its).
Proof. exact (trace_data draw doc its). Qed.
Print Assumptions C45_on_trace.

(** The log has the data before the first entry of later instances (and of the process, once
    there is a trace); the source attribute the data before the first trace. *)
Theorem C45_elsewhere draw doc its : mxml_items doc = Some its ->
  exists s, mxml_parse draw doc = Ok s
  /\ Forall2 (fun m p => (forall k, ~ In k own_keys ->
                            look (m_sources s) k (ml_attrs m) = last_with k (log_data (pr_items p)))
                         /\ (last_with (py "source") (log_data (pr_items p)) = None ->
                             match pr_source p with
                             | Some (atts, data) => exists a, look (m_sources s) (py "source") (ml_attrs m) = Some a
                                 /\ forall k, ~ In k own_keys -> sget k (a_meta a) = last_with k data
                             | None => look (m_sources s) (py "source") (ml_attrs m) = None
                             end))
             (m_logs s) (processes None its).
Proof. exact (log_data_placed draw doc its). Qed.
Print Assumptions C45_elsewhere.

Example C45_sample :
  map (fun p => (map (fun a => a_key a) (log_data (pr_items p)),
                 option_map (fun s => map (fun a => a_key a) (snd s)) (pr_source p),
                 map (fun i => (map (fun a => a_key a) (early i), map (fun a => a_key a) (after_entry (snd i)))) (filter filled (rights (pr_items p)))))
      (processes None sample_items)
    = [([py "four"; py "five"], Some [py "zero"; py "one"; py "two"], [([py "two"], [py "three"]); ([py "four"], [])])]
  /\ map (fun m => (map fst (ml_attrs m), map (fun t => map fst (mt_attrs t)) (ml_traces m))) (m_logs sample_run)
    = [([py "source"; py "concept:name"; py "lifecycle:model"; py "four"; py "five"],
        [[py "concept:name"; py "three"]; [py "concept:name"]])]
  /\ map (fun a => map fst (a_meta a)) (m_sources sample_run) = [[py "zero"; py "one"; py "two"]].
Proof. vm_compute. auto. Qed.

(** ** C46 *)

(** The log written and read again, line breaks and tabs included: the traces with events, in
    order, each with all its events in order.  Of an event only its trimmed name, its
    transition (if known; otherwise "unknown", or "complete" if there was none) and its model
    reference are left, of a trace or the log the name, a description and the model reference. *)
Theorem C46_round_trip `{FloatIO} draw l doc : mxml_serialize l = Ok doc ->
  exists s m, mxml_parse draw (pretty 0 doc) = Ok s /\ m_logs s = [m] /\ log_back (m_sources s) m l
  /\ Forall2 (fun t u => trace_back (mt_attrs t) u
                         /\ Forall2 (fun o e => exists ev, o = Some ev /\ event_back (ev_attrs ev) e) (mt_events t) (tr_events u))
             (ml_traces m) (filter (fun u => has_items (tr_events u)) (lg_traces l)).
Proof. exact (mxml_round draw l doc). Qed.
Print Assumptions C46_round_trip.

Definition lit (k v : string) : pystr * attr := (py k, mk_attr CLiteral (py k) None (PStr (py v)) [] []).
Definition sample_log : xlog :=
  mk_log [lit "concept:name" "log"; lit "x" "1"]
    [mk_trace [lit "concept:name" "t1"]
       [mk_event 1 [lit "concept:name" " a "; lit "org:resource" "me"; lit "lifecycle:transition" " Start "; lit "cost" "1"];
        mk_event 2 [lit "lifecycle:transition" "odd"]];
     mk_trace [] [];
     mk_trace [] [mk_event 3 []]]
    [] [] [] [] [].
Definition sample_written : xnode := match @mxml_serialize no_floats sample_log with Ok d => d | Raise _ => XText [] end.
Example C46_sample :
  @mxml_serialize no_floats sample_log = Ok sample_written
  /\ map (fun m => map (fun t => map (option_map (fun e => map (fun kv => (fst kv, a_val (snd kv))) (ev_attrs e))) (mt_events t)) (ml_traces m))
         (match mxml_parse (fun n => N.of_nat n) (pretty 0 sample_written) with Ok s => m_logs s | Raise _ => [] end)
     = [[[Some [(py "concept:name", PStr (py "a")); (py "lifecycle:transition", PStr (py "start"))];
          Some [(py "lifecycle:transition", PStr (py "unknown"))]];
         [Some [(py "lifecycle:transition", PStr (py "complete"))]]]].
Proof. vm_compute. auto. Qed.
