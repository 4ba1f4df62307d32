(** C105: when two logs have the same MXML file. *)
From Coq Require Import String NArith ZArith List Bool.
From Verif Require Import Base.PyBase Base.PyDate Base.PyVal Base.Xml Model.Attr Model.Log Model.XmlChars Model.MxmlWrite Model.FileNames Model.Files
  Base.Codec Spec.OnDisk Spec.Registries
  Spec.Typing Spec.XmlNorm Spec.XmlLines Spec.Mxml Spec.MxmlKept Proofs.MxmlKeptFacts.
Import ListNotations.
Local Open Scope N_scope.

(** The file tells what is kept of a log, and nothing more. *)
Theorem C105_file : forall (FIO : FloatIO) l m doc doc2 text text2, mxml_serialize l = Ok doc -> mxml_serialize m = Ok doc2 ->
  write_xml mxml_comments doc = Some text -> write_xml mxml_comments doc2 = Some text2 -> (text = text2 <-> log_kept l = log_kept m).
Proof. exact @same_mxml_file. Qed.
Print Assumptions C105_file.

(** The text of a date-time tells it to the microsecond, with the offset of its zone. *)
Theorem C105_times : forall d e, valid_dt d = true -> valid_dt e = true -> (dt_str d = dt_str e <->
  (yr d, mo d, dy d) = (yr e, mo e, dy e) /\ (hh d, mi d, ss d, us d) = (hh e, mi e, ss e, us e)
  /\ option_map tz_off (tz d) = option_map tz_off (tz e)).
Proof. exact same_dt_str. Qed.
Print Assumptions C105_times.

(** Two logs with the same file that differ in much: other attributes, classes, the key of the
    originator, letter case of the type, identifiers, a name that is None. *)
Definition att (c : acls) (k : string) (v : pyval) : pystr * attr := (py k, mk_attr c (py k) None v [] []).
Definition txt (k v : string) : pystr * attr := att CLiteral k (PStr (py v)).
Definition day (z : option tzone) : pystr * attr := att CTimestamp "time:timestamp" (PDate (mk_dt 2020 2 29 12 0 1 5 z)).
Definition kept_a : xlog := mk_log [txt "concept:name" "L"; att CDiscrete "n" (PInt 1)]
  [mk_trace [txt "concept:name" "None"] [mk_event 1 [txt "org:role" "Ann"; txt "lifecycle:transition" " START"; day None]]] [] [] [] [] [].
Definition kept_b (z : option tzone) : xlog := mk_log [txt "concept:name" "L"]
  [mk_trace [txt "k" "v"] [mk_event 2 [txt "concept:name" ""; txt "lifecycle:transition" "start"; txt "org:resource" "Ann"; txt "org:role" "x"; day z]]] [] [] [] [] [].
Example C105_ex : exists a b c ta tb tc, mxml_serialize (FIO := no_floats) kept_a = Ok a
  /\ mxml_serialize (FIO := no_floats) (kept_b None) = Ok b /\ mxml_serialize (FIO := no_floats) (kept_b (Some (mk_tz 0 None))) = Ok c
  /\ write_xml mxml_comments a = Some ta /\ write_xml mxml_comments b = Some tb /\ write_xml mxml_comments c = Some tc
  /\ log_kept (FIO := no_floats) kept_a = log_kept (FIO := no_floats) (kept_b None)
  /\ log_kept (FIO := no_floats) kept_a <> log_kept (FIO := no_floats) (kept_b (Some (mk_tz 0 None)))
  /\ ta = tb /\ ta <> tc.
Proof.
  do 6 eexists. repeat (split; [vm_compute; reflexivity|]). split; [vm_compute; discriminate|].
  split; [vm_compute; reflexivity|]. vm_compute. discriminate.
Qed.

(** So the file does not tell the names of traces and the resources of events, but it does
    tell the name of the log. *)
Theorem C105_names_refuted : exists l m doc text, mxml_serialize (FIO := no_floats) l = Ok doc /\ mxml_serialize (FIO := no_floats) m = Ok doc
  /\ write_xml mxml_comments doc = Some text
  /\ map (fun t => text_of "concept:name" (tr_attrs t)) (lg_traces l) <> map (fun t => text_of "concept:name" (tr_attrs t)) (lg_traces m)
  /\ map (fun e => text_of "org:resource" (ev_attrs e)) (log_events l) <> map (fun e => text_of "org:resource" (ev_attrs e)) (log_events m).
Proof.
  exists kept_a, (mk_log [txt "concept:name" "L"] [mk_trace [] [mk_event 2 [txt "lifecycle:transition" "start"; txt "org:resource" "Ann"; day None]]] [] [] [] [] []).
  do 2 eexists. repeat (split; [vm_compute; reflexivity|]). split; vm_compute; discriminate.
Qed.
Print Assumptions C105_names_refuted.

(** The same for the bytes on the disk; compressed ones are compared when unpacked. *)
Theorem C105_saved : forall (FIO : FloatIO) (G1 G2 : Gzip) wr p l m path path2 d d' d1 d2,
  lawful_gzip G1 -> lawful_gzip G2 -> same_unpacking G1 G2 -> zipped p = true \/ lawful wr -> In p [Mxml; MxmlGzip] ->
  save (GZ := G1) wr p l path d = (d1, Ok tt) -> save (GZ := G2) wr p m path2 d' = (d2, Ok tt) ->
  exists b c, sget path d1 = Some b /\ sget path2 d2 = Some c
  /\ (log_kept l = log_kept m <-> unpacked (GZ := G1) p b = unpacked (GZ := G1) p c) /\ (b = c -> log_kept l = log_kept m).
Proof. exact same_mxml_saved. Qed.
Print Assumptions C105_saved.

(** Compressors with a one-byte header and a byte for the time. *)
Definition at_time (t : N) : Gzip :=
  {| gz := fun b => 31 :: t :: b; gunz := fun b => match b with 31 :: _ :: r => Some r | _ => None end |}.
Example C105_saved_ex : lawful_gzip (at_time 5) /\ lawful_gzip (at_time 6) /\ same_unpacking (at_time 5) (at_time 6)
  /\ exists b c e, save (FIO := no_floats) (GZ := at_time 5) ascii MxmlGzip kept_a (py "a.mxml.gz") [] = ([(py "a.mxml.gz", b)], Ok tt)
  /\ save (FIO := no_floats) (GZ := at_time 6) ascii MxmlGzip (kept_b None) (py "b.mxml.gz") [] = ([(py "b.mxml.gz", c)], Ok tt)
  /\ save (FIO := no_floats) (GZ := at_time 6) ascii MxmlGzip (kept_b (Some (mk_tz 0 None))) (py "b.mxml.gz") [] = ([(py "b.mxml.gz", e)], Ok tt)
  /\ b <> c /\ @gunz (at_time 5) b = @gunz (at_time 5) c /\ @gunz (at_time 5) b <> @gunz (at_time 5) e.
Proof.
  split; [intros b; reflexivity|]. split; [intros b; reflexivity|]. split; [intros b; reflexivity|].
  do 3 eexists. do 3 (split; [vm_compute; reflexivity|]). split; [vm_compute; discriminate|].
  split; [vm_compute; reflexivity|]. vm_compute. discriminate.
Qed.
