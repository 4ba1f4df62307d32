(** The tests in /repo/tests, run on the model.  They are no proofs; they show that the model
    does what the authors of the code expect of it where they say so.

    Tests of imports, of the command line and of file system calls have no counterpart here. *)
From Coq Require Import String NArith ZArith List Bool.
From Verif Require Import Base.PyBase Base.PyDate Base.PyVal Base.Xml Model.Attr Model.Log Model.Classify Model.Registry
  Model.XesWrite Model.XesRead Model.XmlText Model.XmlChars Spec.Typing Spec.Xes Spec.XmlNorm Spec.Survive Spec.FileTexts
  Proofs.SettledFacts.
Import ListNotations.

(** ** tests/data_in/test_XesXmlParser.py *)

(** The extension that the test loads from the network: test_XesXmlParser.py:46. *)
Definition meta_concept : xext :=
  mk_xext (py "MetaData_Concept") (py "meta_concept") (py "http://www.xes-standard.org/meta_concept.xesext").
(** The log: test_XesXmlParser.py:29-63.  The attribute of the events is stored under another
    key than its own. *)
Definition test_event (n : nat) : event := mk_event (N.of_nat n) [(py "e_attr0", mk_attr CDiscrete (py "e_attr") None (PInt 0) [] [])].
Definition test_log : xlog :=
  mk_log [(py "l_attr", mk_attr CLiteral (py "l_attr") None (PStr (py "UNKNOWN")) [] [])]
         [mk_trace [(py "t_attr", mk_attr CBoolean (py "t_attr") None (PBool true) [] [])] [test_event 0; test_event 1]]
         [meta_concept] [name_classifier]
         [mk_attr CDiscrete (py "glb_t_attr") None (PInt 0) [] []] [mk_attr CDiscrete (py "glb_e_attr") None (PInt 0) [] []] [].
(** The manager, with the extension registered (lines 139-141). *)
Definition test_manager : manager xext := mgr_register x_uri std_manager meta_concept.

(** What is in the file and what is read from it. *)
Definition test_text : pystr :=
  match @xes_serialize no_floats test_log with
  | Ok d => match write_xml xes_comments d with Some t => t | None => [] end
  | Raise _ => []
  end.
Definition test_read : res pstate :=
  match read_xml test_text with
  | Some es => @xes_run no_floats test_manager (fun u => Some u) N.of_nat es ps_init
  | None => Raise ExpatError
  end.

(** test_can_parse_log, lines 90-93: the whole way through the text of the file. *)
Example can_parse_log : match test_read with Ok s => p_log s | Raise _ => None end = Some 0.
Proof. vm_compute. reflexivity. Qed.

(** The log that is read, for the tests below; there is no other. *)
Definition read_log : xlog := log_back test_manager N.of_nat test_log.
Lemma test_readable : @readable_log no_floats test_log.
Proof. repeat constructor. Qed.
Lemma read_log_stored : @stored no_floats test_manager (fun u => Some u) N.of_nat test_log read_log.
Proof. apply stored_back; [exact test_readable|repeat constructor|repeat constructor]. Qed.

(** lines 95-106 *)
Example has_features : List.length (lg_features read_log) = 3
  /\ sget (py "openxes.version") (lg_features read_log) = Some (py "1.0RC7")
  /\ sget (py "xes.features") (lg_features read_log) = Some (py "nested-attributes")
  /\ sget (py "xes.version") (lg_features read_log) = Some (py "1.0").
Proof. vm_compute. auto. Qed.
(** lines 108-115 *)
Example has_attributes : List.length (lg_attrs read_log) = 1
  /\ option_map a_val (sget (py "l_attr") (lg_attrs read_log)) = Some (PStr (py "UNKNOWN")).
Proof. vm_compute. auto. Qed.
(** lines 117-133 *)
Example has_globals : map (fun a => (a_key a, a_val a)) (lg_gtrace read_log) = [(py "glb_t_attr", PInt 0)]
  /\ map (fun a => (a_key a, a_val a)) (lg_gevent read_log) = [(py "glb_e_attr", PInt 0)].
Proof. vm_compute. auto. Qed.
(** lines 135-145 *)
Example has_extensions : map x_name (lg_exts read_log) = [py "MetaData_Concept"].
Proof. vm_compute. auto. Qed.
(** lines 147-168 *)
Example has_trace_and_events : List.length (lg_traces read_log) = 1
  /\ map (fun t => map (fun p => (fst p, a_val (snd p))) (tr_attrs t)) (lg_traces read_log) = [[(py "t_attr", PBool true)]]
  /\ map (fun t => map (fun e => map (fun p => (fst p, a_val (snd p))) (ev_attrs e)) (tr_events t)) (lg_traces read_log)
     = [[[(py "e_attr", PInt 0)]; [(py "e_attr", PInt 0)]]].
Proof. vm_compute. auto. Qed.

(** ** tests/extension/test_XExtensionManager.py *)

(** lines 34-52, 55-73, 76-92: all eight are found by name, prefix and URI. *)
Example found_by_name :
  map (mgr_by_name x_name std_manager)
      [py "Concept"; py "Cost"; py "Identity"; py "Lifecycle"; py "Micro"; py "Organizational"; py "Semantic"; py "Time"]
  = map Some [ext_concept; ext_cost; ext_identity; ext_lifecycle; ext_micro; ext_org; ext_semantic; ext_time].
Proof. vm_compute. reflexivity. Qed.
Example found_by_prefix :
  map (mgr_by_prefix x_prefix std_manager)
      [py "concept"; py "cost"; py "identity"; py "lifecycle"; py "micro"; py "org"; py "semantic"; py "time"]
  = map Some [ext_concept; ext_cost; ext_identity; ext_lifecycle; ext_micro; ext_org; ext_semantic; ext_time].
Proof. vm_compute. reflexivity. Qed.
Example found_by_uri :
  map (fun s => mgr_by_uri std_manager (py "http://www.xes-standard.org/" ++ s ++ py ".xesext"))
      [py "concept"; py "cost"; py "identity"; py "lifecycle"; py "micro"; py "org"; py "semantic"; py "time"]
  = map Some [ext_concept; ext_cost; ext_identity; ext_lifecycle; ext_micro; ext_org; ext_semantic; ext_time].
Proof. vm_compute. reflexivity. Qed.
