(** C102: the lines of the written files. *)
From Coq Require Import String NArith ZArith List Bool.
From Verif Require Import Base.PyBase Base.PyVal Base.Xml Model.Attr Model.Log Model.XmlChars Model.XesWrite Model.MxmlWrite
  Spec.Typing Spec.XmlNorm Spec.XmlLines Proofs.XmlLineFacts Props.P_XesWritten.
Import ListNotations.
Local Open Scope N_scope.

(** The file of a log: a head, then the elements with tabs for their depth. *)
Theorem C102_xes : forall (FIO : FloatIO) l doc text, xes_serialize l = Ok doc -> write_xml xes_comments doc = Some text ->
  text = in_lines (xes_head ++ xml_lines 0 doc).
Proof. exact @xes_layout. Qed.
Print Assumptions C102_xes.
Theorem C102_mxml : forall (FIO : FloatIO) l doc text, mxml_serialize l = Ok doc -> write_xml mxml_comments doc = Some text ->
  text = in_lines (mxml_head ++ xml_lines 0 (lf_texts doc)).
Proof. exact @mxml_layout. Qed.
Print Assumptions C102_mxml.

(** Without line breaks and tabs in the texts of the log these are the lines of the file. *)
Theorem C102_one_line : forall (FIO : FloatIO) l doc text, xes_serialize l = Ok doc -> calm_tree doc = true ->
  write_xml xes_comments doc = Some text -> split [10] text = xes_head ++ xml_lines 0 doc ++ [[]].
Proof. exact @xes_one_line. Qed.
Print Assumptions C102_one_line.

(** In any case there is one line with just a start tag of a trace for each trace, and one for
    each event: no text in the log can make up another. *)
Theorem C102_counts : forall (FIO : FloatIO) l doc text, xes_serialize l = Ok doc -> write_xml xes_comments doc = Some text ->
  count_lines trace_lines text = List.length (lg_traces l)
  /\ count_lines event_lines text = List.length (flat_map tr_events (lg_traces l)).
Proof. exact @xes_counts. Qed.
Print Assumptions C102_counts.

Example C102_rich : exists doc text, xes_serialize (FIO := no_floats) rich = Ok doc /\ calm_tree doc = true
  /\ write_xml xes_comments doc = Some text
  /\ skipn 7 (split [10] text) =
       [py "<log xes.version=""1.0"" xes.features=""nested-attributes"" openxes.version=""1.0RC7"">";
        9 :: py "<extension name=""Concept"" prefix=""concept"" uri=""u""/>";
        9 :: py "<global scope=""event"">";
        9 :: 9 :: py "<id key=""i"" value=""00000000-0000-0000-0000-0000000000AB""/>";
        9 :: py "</global>";
        9 :: py "<classifier name=""c"" keys=""'a b' c""/>";
        9 :: py "<int key=""n"" value=""-120"">";
        9 :: 9 :: py "<boolean key=""b"" value=""true""/>";
        9 :: py "</int>";
        9 :: py "<trace>";
        9 :: 9 :: py "<list key=""l"">";
        9 :: 9 :: 9 :: py "<string key=""x"" value=""&lt;&amp;""/>";
        9 :: 9 :: py "</list>";
        9 :: 9 :: py "<event>";
        9 :: 9 :: 9 :: py "<date key=""d"" value=""2020-02-29T12:00:01.999-01:30""/>";
        9 :: 9 :: py "</event>";
        9 :: py "</trace>";
        py "</log>"; []].
Proof. do 2 eexists. split; [vm_compute; reflexivity|]. split; [vm_compute; reflexivity|]. split; vm_compute; reflexivity. Qed.

(** With a line break in a value an element takes two lines, even though it has nothing in it. *)
Definition broken : xlog :=
  mk_log [(py "k", mk_attr CLiteral (py "k") None (PStr (py "a" ++ 10 :: 9 :: py "<trace>")) [] [])] [] [] [] [] [] [].
Theorem C102_one_line_refuted : exists doc text, xes_serialize (FIO := no_floats) broken = Ok doc
  /\ write_xml xes_comments doc = Some text
  /\ split [10] text <> xes_head ++ xml_lines 0 doc ++ [[]]
  /\ In (9 :: py "<string key=""k"" value=""a") (split [10] text) /\ In (9 :: py "&lt;trace&gt;""/>") (split [10] text)
  /\ count_lines trace_lines text = O.
Proof.
  do 2 eexists. split; [vm_compute; reflexivity|]. split; [vm_compute; reflexivity|].
  split; [vm_compute; discriminate|]. split; [vm_compute; tauto|]. split; [vm_compute; tauto|]. vm_compute; reflexivity.
Qed.
Print Assumptions C102_one_line_refuted.

Definition small_log : xlog :=
  mk_log [(py "concept:name", mk_attr CLiteral (py "concept:name") None (PStr (py "L")) [] [])]
    [mk_trace [(py "concept:name", mk_attr CLiteral (py "concept:name") None (PStr (py "a>b")) [] [])]
       [mk_event 7 [(py "concept:name", mk_attr CLiteral (py "concept:name") None (PStr (py "x" ++ 13 :: py "y")) [] [])]]] [] [] [] [] [].
Example C102_mxml_ex : exists doc text, mxml_serialize (FIO := no_floats) small_log = Ok doc
  /\ write_xml mxml_comments doc = Some text
  /\ firstn 12 (skipn 5 (split [10] text)) =
       [py "<WorkflowLog>";
        9 :: py "<Source program=""XES MXML serialization"" openxes.version=""1.0RC7""/>";
        9 :: py "<Process id=""L"" description=""process with id L"">";
        9 :: 9 :: py "<Data/>";
        9 :: 9 :: py "<ProcessInstance id=""a&gt;b"" description=""instance with id a&gt;b"">";
        9 :: 9 :: 9 :: py "<Data/>";
        9 :: 9 :: 9 :: py "<AuditTrailEntry>";
        9 :: 9 :: 9 :: 9 :: py "<Data/>";
        9 :: 9 :: 9 :: 9 :: py "<WorkflowModelElement>x"; py "y</WorkflowModelElement>";
        9 :: 9 :: 9 :: 9 :: py "<EventType>complete</EventType>";
        9 :: 9 :: 9 :: py "</AuditTrailEntry>"].
Proof. do 2 eexists. split; [vm_compute; reflexivity|]. split; vm_compute; reflexivity. Qed.
