(** Property C80: what a file can hold, told by the log. *)
From Coq Require Import String NArith ZArith List Bool.
From Verif Require Import Base.PyBase Base.PyDate Base.PyVal Base.Xml Model.Attr Model.Log Model.Registry Model.XesWrite
  Model.XesRead Model.XmlText Model.XmlChars Spec.Typing Spec.Xes Spec.XmlNorm Spec.Survive Spec.FileTexts
  Proofs.XmlTextFacts Proofs.FileTextFacts Props.P_Xes.
Import ListNotations.

(** The document of a log has only legal characters if and only if its keys, texts, printed
    floats, and the names and keys of its extensions and classifiers have. *)
Theorem C80_legal : forall (FIO : FloatIO) l doc, readable_log l -> xes_serialize l = Ok doc ->
  (legal_tree doc = true <-> legal_log l).
Proof. exact @log_legal. Qed.
Print Assumptions C80_legal.
Theorem C80_smooth : forall (FIO : FloatIO) l doc, readable_log l -> xes_serialize l = Ok doc ->
  (calm_tree doc = true <-> smooth_log l).
Proof. exact @log_calm. Qed.
Print Assumptions C80_smooth.

(** So a log with such texts, without line breaks and tabs, comes back from a file. *)
Theorem C80_file : forall (FIO : FloatIO) mgr urlparse draw l,
  readable_log l -> keyed_log l -> legal_log l -> smooth_log l ->
  exists l', stored mgr urlparse draw l l'
    /\ same_map mgr (lg_attrs l) (lg_attrs l') /\ Forall2 (same_trace mgr) (lg_traces l) (lg_traces l').
Proof. exact @file_exists. Qed.
Print Assumptions C80_file.

(** With line breaks and tabs it comes back with blanks for them, if the keys stay different. *)
Theorem C80_blanks : forall (FIO : FloatIO), (forall f, calm (float_repr f) = true) ->
  forall mgr urlparse draw l, readable_log l -> legal_log l -> smooth_classifiers l -> keyed_log (blanked l) ->
  exists l', stored mgr urlparse draw l l'
    /\ same_map mgr (blanked_map (lg_attrs l)) (lg_attrs l')
    /\ Forall2 (same_trace mgr) (map blanked_trace (lg_traces l)) (lg_traces l').
Proof.
  intros FIO F mgr urlparse draw l R L S K.
  exact (blanked_file F mgr urlparse draw l R L S (blanked_readable_log l R) K).
Qed.
Print Assumptions C80_blanks.

(** And with a character that XML does not have the file cannot be written. *)
Theorem C80_refused : forall (FIO : FloatIO) l doc comments, readable_log l -> xes_serialize l = Ok doc ->
  ~ legal_log l -> write_xml comments doc = None.
Proof.
  intros FIO l doc comments R W N. apply write_none. destruct (legal_tree doc) eqn:E; [|reflexivity].
  exfalso. apply N. now apply (log_legal l doc R W).
Qed.
Print Assumptions C80_refused.

(** A log with a tab in a key, a line break in a text (CR LF) and an umlaut. *)
Definition rough : attr := mk_attr CLiteral [97; 9; 98]%N None (PStr [120; 13; 10; 252; 10; 10]%N) [] [].
Definition rough_log : xlog :=
  mk_log [] [mk_trace [] [mk_event 1 [([97; 9; 98]%N, rough)]]] [concept] [mk_cl (py "A") [py "a b"; py "c"]] [] [] [].
Example C80_example :
  @readable_log no_floats rough_log /\ @legal_log no_floats rough_log /\ ~ @smooth_log no_floats rough_log
  /\ smooth_classifiers rough_log /\ keyed_log (blanked rough_log) /\ (forall f, calm (@float_repr no_floats f) = true)
  /\ blanked_attr rough = mk_attr CLiteral (py "a b") None (PStr [120; 32; 252; 32; 32]%N) [] []
  /\ @legal_log no_floats sample_log /\ @smooth_log no_floats sample_log
  /\ ~ @legal_log no_floats (mk_log [([0]%N, mk_attr CLiteral [0]%N None (PStr []) [] [])] [] [] [] [] [] []).
Proof.
  split. { split; [constructor|split; [constructor|split; [constructor|]]].
    repeat (apply Forall_cons; [split; [readables_ok|repeat (apply Forall_cons; [readables_ok|]); apply Forall_nil]|]). apply Forall_nil. }
  split; [repeat constructor|]. split. { intros H. unfold smooth_log in H. rewrite Forall_forall in H.
    assert (B : calm [97; 9; 98]%N = true) by (apply H; cbn; tauto). discriminate. }
  split; [repeat constructor|]. split.
  { split; [split; [split; [constructor | constructor] | constructor]|].
    repeat (apply Forall_cons; [split; [split; [split; [constructor | constructor] | constructor]
      |repeat (apply Forall_cons; [split; [keyed_ok|cbn; repeat (apply Forall_cons; [well_keyed_ok|]); apply Forall_nil]|]); apply Forall_nil]|]).
    apply Forall_nil. }
  split; [reflexivity|]. split; [reflexivity|]. split; [repeat constructor|]. split; [repeat constructor|].
  intros H. inversion H. discriminate.
Qed.
