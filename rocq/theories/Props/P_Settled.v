(** Property C84: saving a log that was loaded changes nothing any more. *)
From Coq Require Import String NArith ZArith List Bool.
From Verif Require Import Base.PyBase Base.PyDate Base.PyVal Base.Xml Model.Attr Model.Log Model.Registry Model.XesWrite
  Model.XesRead Model.XmlText Model.XmlChars Spec.Typing Spec.Registries Spec.Xes Spec.XmlNorm Spec.Survive Spec.FileTexts Spec.Settled
  Proofs.XesReadFacts Proofs.SettledFacts Props.P_Xes.
Import ListNotations.

(** What was loaded from a file can be saved and loaded any number of times, and every time
    the log is the same but for the ids of the events, and the file is the same text. *)
Theorem C84_settles : forall (FIO : FloatIO) mgr urlparse draw l l1,
  tidy_manager mgr -> readable_log l -> legal_log l -> smooth_log l -> Forall usable (lg_classifiers l) ->
  stored mgr urlparse draw l l1 ->
  forall l2, stored_often mgr urlparse l1 l2 ->
  same_but_ids l1 l2 /\ (forall text, file_of l2 text <-> file_of l1 text)
  /\ forall draw', exists l3, stored mgr urlparse draw' l2 l3.
Proof. intros FIO mgr urlparse. exact (settles mgr urlparse). Qed.
Print Assumptions C84_settles.

(** The first file, too, is the same text if all time stamps have zones, globals have no
    nested attributes, the extensions are registered and no two adjacent keys of a
    classifier lack blanks. *)
Theorem C84_first : forall (FIO : FloatIO) mgr urlparse draw l l1,
  readable_log l -> keyed_log l -> smooth_log l -> all_zoned_log l ->
  Forall flat (lg_gtrace l) -> Forall flat (lg_gevent l) ->
  Forall (registered mgr) (lg_exts l) -> distinct_exts (lg_exts l) ->
  Forall usable (lg_classifiers l) -> Forall (fun c => no_adjacent_plain (cl_keys c)) (lg_classifiers l) ->
  stored mgr urlparse draw l l1 ->
  forall text, file_of l1 text <-> file_of l text.
Proof. intros FIO mgr urlparse. exact (first_file mgr urlparse). Qed.
Print Assumptions C84_first.

(** The sample log changes on the first save (the keys of a classifier run together, a
    nested global comes loose) and not any more. *)
Example C84_example :
  tidy_manager sample_mgr /\ @readable_log no_floats sample_log /\ @legal_log no_floats sample_log
  /\ @smooth_log no_floats sample_log /\ Forall usable (lg_classifiers sample_log)
  /\ exists l1, @stored no_floats sample_mgr (fun u => Some u) N.of_nat sample_log l1 /\ ~ same_but_ids sample_log l1
     /\ lg_classifiers l1 = [mk_cl (py "A") [py "concept:name"]; mk_cl (py "B") [py "concept:name lifecycle:transition"]]
     /\ List.length (lg_gevent l1) = 2.
Proof.
  assert (T : tidy_manager sample_mgr).
  { intros p x E. unfold mgr_by_prefix in E. apply find_some in E as [[<-|[]] _]. repeat constructor. }
  assert (R := proj1 sample_log_ok). assert (L : @legal_log no_floats sample_log) by repeat constructor.
  assert (S : @smooth_log no_floats sample_log) by repeat constructor.
  split; [exact T|]. split; [exact R|]. split; [exact L|]. split; [exact S|]. split.
  { repeat constructor; try discriminate; intros H; cbv in H; intuition discriminate. }
  exists (log_back sample_mgr N.of_nat sample_log). split; [now apply stored_back|].
  split; [|split; reflexivity]. intros (_ & _ & _ & C & _). vm_compute in C. discriminate C.
Qed.

(** A log that the first save leaves as it is: two traces, a time stamp with a list below it. *)
Definition steady_log : xlog :=
  mk_log (lg_attrs sample_log) (lg_traces sample_log) [concept] [mk_cl (py "A") [py "concept:name"; py "a b"]]
    [lit "g" "1"] [mk_attr CDiscrete (py "h") None (PInt 3) [] []] [].
Example C84_first_example :
  @readable_log no_floats steady_log /\ keyed_log steady_log /\ @smooth_log no_floats steady_log /\ all_zoned_log steady_log
  /\ Forall flat (lg_gtrace steady_log) /\ Forall flat (lg_gevent steady_log)
  /\ Forall (registered sample_mgr) (lg_exts steady_log) /\ distinct_exts (lg_exts steady_log)
  /\ Forall usable (lg_classifiers steady_log) /\ Forall (fun c => no_adjacent_plain (cl_keys c)) (lg_classifiers steady_log)
  /\ (exists l1, @stored no_floats sample_mgr (fun u => Some u) N.of_nat steady_log l1)
  /\ exists text, @file_of no_floats steady_log text.
Proof.
  assert (R : @readable_log no_floats steady_log).
  { destruct sample_log_ok as [(A & _ & _ & B) _]. split; [exact A|]. split; [readables_ok|]. split; [readables_ok|exact B]. }
  assert (S : @smooth_log no_floats steady_log) by repeat constructor.
  assert (L : @legal_log no_floats steady_log) by repeat constructor.
  split; [exact R|]. split; [exact (proj2 sample_log_ok)|]. split; [exact S|]. split.
  { assert (Z : forall a, (forall d, a_val a = PDate d -> tz d <> None) -> Forall all_zoned (kids_of a) -> all_zoned a) by (intros; now constructor).
    repeat constructor; intros d E; discriminate || (injection E as <-; discriminate). }
  split; [repeat constructor|]. split; [repeat constructor|]. split; [repeat constructor|]. split; [now apply distinct_by|]. split.
  { repeat constructor; try discriminate; intros H; cbv in H; intuition discriminate. }
  split; [repeat constructor; now right|]. split.
  - exists (log_back sample_mgr N.of_nat steady_log). now apply stored_back.
  - destruct (stored_back sample_mgr (fun u => Some u) N.of_nat steady_log R L S) as (doc & text & _ & _ & _ & W & T & _).
    exists text, doc. auto.
Qed.

(** Without a zone the first file differs: the time is written with Z, and with nothing
    from then on. *)
Definition naive_log : xlog :=
  mk_log [(py "t", mk_attr CTimestamp (py "t") None (PDate (mk_dt 2020 2 29 12 0 0 0 None)) [] [])] [] [] [] [] [] [].
Theorem C84_first_refuted : exists l l1,
  @readable_log no_floats l /\ keyed_log l /\ @smooth_log no_floats l /\ @legal_log no_floats l
  /\ lg_gtrace l = [] /\ lg_gevent l = [] /\ lg_exts l = [] /\ lg_classifiers l = []
  /\ @stored no_floats sample_mgr (fun u => Some u) N.of_nat l l1
  /\ ~ exists text, @file_of no_floats l text /\ @file_of no_floats l1 text.
Proof.
  assert (R : @readable_log no_floats naive_log).
  { split; [|repeat constructor]. constructor; [|constructor]. constructor; [split; [reflexivity|exact I]|constructor]. }
  assert (S : @smooth_log no_floats naive_log) by repeat constructor.
  assert (L : @legal_log no_floats naive_log) by repeat constructor.
  exists naive_log, (log_back sample_mgr N.of_nat naive_log).
  split; [exact R|]. split.
  { split; [split; [keyed_ok|]|constructor]. constructor; [|constructor]. well_keyed_ok. }
  split; [exact S|]. split; [exact L|]. do 4 (split; [reflexivity|]). split; [now apply stored_back|].
  intros (text & (d1 & W1 & T1) & (d2 & W2 & T2)). vm_compute in W1, W2. injection W1 as <-. injection W2 as <-.
  rewrite <- T2 in T1. vm_compute in T1. discriminate T1.
Qed.
Print Assumptions C84_first_refuted.

(** With an apostrophe in the key of a classifier the second save still changes the log:
    the key [a'b] is loaded as the two keys [a] and [b], and these as the one key [a b]. *)
Definition quote_log : xlog := mk_log [] [] [] [mk_cl (py "A") [py "a'b"]] [] [] [].
Theorem C84_apostrophe_refuted : exists l l1 l2,
  @readable_log no_floats l /\ @smooth_log no_floats l /\ @legal_log no_floats l
  /\ @stored no_floats sample_mgr (fun u => Some u) N.of_nat l l1 /\ @stored no_floats sample_mgr (fun u => Some u) N.of_nat l1 l2
  /\ map cl_keys (lg_classifiers l1) = [[py "a"; py "b"]] /\ map cl_keys (lg_classifiers l2) = [[py "a b"]].
Proof.
  assert (R : @readable_log no_floats quote_log) by repeat constructor.
  assert (S : @smooth_log no_floats quote_log) by repeat constructor.
  assert (L : @legal_log no_floats quote_log) by repeat constructor.
  exists quote_log, (log_back sample_mgr N.of_nat quote_log),
    (log_back sample_mgr N.of_nat (log_back sample_mgr N.of_nat quote_log)).
  split; [exact R|]. split; [exact S|]. split; [exact L|]. split; [now apply stored_back|].
  split; [|split; reflexivity]. apply stored_back; repeat constructor.
Qed.
Print Assumptions C84_apostrophe_refuted.
