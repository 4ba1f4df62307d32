(** Anonymous logs and what else is done with logs: C113, /repo/example/Anonymize_a_log.py. *)
From Coq Require Import String NArith ZArith List Bool Permutation.
From Verif Require Import Base.PyBase Base.PyDate Base.PyVal Base.Xml Model.Attr Model.Log Model.Registry Model.Classify
  Model.XesWrite Model.XesRead Model.Alpha Model.Examples Model.People Spec.Transform Spec.Anon Spec.People Spec.Loose
  Proofs.AnonFacts Props.P_Loose.
Import ListNotations.

(** ** C113 *)

(** Anonymising again changes nothing. *)
Theorem C113_twice l l' : anonymize l = Ok l' -> anonymize l' = Ok l'.
Proof. exact (anon_twice l l'). Qed.
Print Assumptions C113_twice.

(** With classifiers that do not look at resources: filtering an anonymous log gives what anonymising
    the filtered log gives, or fails like filtering does. *)
Theorem C113_filtered (FIO : FloatIO) c l l' : blind c l -> anonymize l = Ok l' ->
  filter_log c l' = (let! f := filter_log c l in anonymize f).
Proof. exact (filter_anon c l l'). Qed.
Print Assumptions C113_filtered.

(** The net and the vectors are the same, and the clusters are the anonymous ones. *)
Theorem C113_mined (FIO : FloatIO) (SO : SetOrder) c l l' : blind c l -> anonymize l = Ok l' ->
  mine_log c l' = mine_log c l /\ log_vectors c l' = log_vectors c l.
Proof. intros B H. split; [exact (mine_anon SO c l l' B H)|exact (vectors_anon SO c l l' B H)]. Qed.
Print Assumptions C113_mined.

Theorem C113_clustered (FIO : FloatIO) (SO : SetOrder) centres predict c l l' : blind c l -> anonymize l = Ok l' ->
  cluster_log centres predict c l' = (let! ls := cluster_log centres predict c l in map_res anonymize ls).
Proof. exact (cluster_anon SO centres predict c l l'). Qed.
Print Assumptions C113_clustered.

(** The chart of activities per resource has no names any more. *)
Theorem C113_chart (FIO : FloatIO) logs logs' : Forall text_resources logs -> map_res anonymize logs = Ok logs' ->
  exists names units, people_chart logs' = Ok (names, units) /\ incl names [py "UNKNOWN"; []].
Proof. intros T H. apply (chart_anon logs logs' T). now apply map_turns. Qed.
Print Assumptions C113_chart.

(** *** Storing *)

(** If the resources are texts, an anonymous log can be stored and loaded if the log can (see C85). *)
Theorem C113_stored (FIO : FloatIO) l l' : anonymize l = Ok l' ->
  (forall a, In a (top_attrs l) -> hidden_key (a_key a) -> a_cls a = CLiteral) ->
  ((exists doc, xes_serialize l = Ok doc) -> exists doc, xes_serialize l' = Ok doc)
  /\ (Forall plain_date (written_attrs l) -> Forall plain_date (written_attrs l'))
  /\ (Forall convertible (written_attrs l) -> Forall convertible (written_attrs l')).
Proof.
  intros H L. split; [|split].
  - intros W. apply C85_written in W. apply C85_written. revert W. apply kept_written; [|exact L|exact H].
    intros a E K. congruence.
  - apply kept_written; [|exact L|exact H]. intros a E d K. congruence.
  - apply kept_written; [|exact L|exact H]. intros a E. unfold convertible. rewrite E. discriminate.
Qed.
Print Assumptions C113_stored.

(** Resources that are numbers or ids are overwritten by the text, too: then the file is written, but
    nobody can load it.  If one is a time stamp, not even the file can be written. *)
Theorem C113_unreadable (FIO : FloatIO) mgr urlparse draw l l' doc a : anonymize l = Ok l' ->
  In a (top_attrs l) -> hidden_key (a_key a) -> a_cls a = CDiscrete \/ a_cls a = CID ->
  xes_serialize l' = Ok doc -> Forall plain_date (written_attrs l') ->
  exists e, xes_parse mgr urlparse draw doc = Raise e.
Proof.
  intros H I K C W P. apply (C85_refused FIO mgr urlparse draw l' doc W P). apply Exists_exists.
  eexists. split; [exact (hidden_written l l' a H I K)|]. intros N. apply N. cbn [a_cls a_val]. destruct C as [-> | ->]; reflexivity.
Qed.
Print Assumptions C113_unreadable.

Theorem C113_unwritable (FIO : FloatIO) l l' a : anonymize l = Ok l' ->
  In a (top_attrs l) -> hidden_key (a_key a) -> a_cls a = CTimestamp -> xes_serialize l' = Raise AttributeError.
Proof.
  intros H I K C. apply C85_written. intros W. rewrite Forall_forall in W.
  destruct (W _ (hidden_written l l' a H I K) C) as [d E]. discriminate E.
Qed.
Print Assumptions C113_unwritable.

(** So anonymising may make a log unreadable. *)
Definition numbered : xlog :=
  mk_log [] [mk_trace [] [mk_event 1 [(py "Resource", mk_attr CDiscrete (py "Resource") None (PInt 7) [] [])]]] [] [] [] [] [].

Theorem C113_loads_refuted (FIO : FloatIO) : exists l l', anonymize l = Ok l' /\ Forall plain_date (written_attrs l)
  /\ Forall convertible (written_attrs l) /\ (exists doc, xes_serialize l = Ok doc)
  /\ exists doc, xes_serialize l' = Ok doc
  /\ forall mgr urlparse draw, exists e, xes_parse mgr urlparse draw doc = Raise e.
Proof.
  exists numbered. eexists. split; [reflexivity|].
  split; [apply Forall_cons; [intros d X; discriminate X|apply Forall_nil]|].
  split; [apply Forall_cons; [intros X; discriminate X|apply Forall_nil]|].
  split; [eexists; reflexivity|]. eexists. split; [reflexivity|]. intros mgr urlparse draw.
  eapply (C113_unreadable FIO mgr urlparse draw numbered); [reflexivity|now left|now left|now left|reflexivity|].
  apply Forall_cons; [intros d X; discriminate X|apply Forall_nil].
Qed.
Print Assumptions C113_loads_refuted.

(** *** A case *)

Definition text_attr (k v : string) : pystr * attr := (py k, mk_attr CLiteral (py k) None (PStr (py v)) [] []).
Definition by_whom : xlog :=
  mk_log [] [mk_trace [] [mk_event 1 [text_attr "Activity" "a"; text_attr "Resource" "Ann"]; mk_event 2 [text_attr "Activity" "b"]];
             mk_trace [] [mk_event 3 [text_attr "Activity" "a"; text_attr "Resource" "Bob"]; mk_event 4 [text_attr "Activity" "b"]]]
    [] [] [] [] [].
Definition by_activity : classifier := mk_cl (py "activity") [py "Activity"].

Example C113_ex (FIO : FloatIO) : blind by_activity by_whom /\ text_resources by_whom
  /\ (forall a, In a (top_attrs by_whom) -> hidden_key (a_key a) -> a_cls a = CLiteral)
  /\ exists l', anonymize by_whom = Ok l' /\ l' <> by_whom /\ people_chart [l'] = Ok ([py "UNKNOWN"; []], [2; 2])
  /\ exists f, filter_log by_activity l' = Ok f /\ List.length (lg_traces f) = 1.
Proof.
  split; [|split; [|split]].
  - intros e k a E [<-|[]] S. cbn in E. destruct E as [<-|[<-|[<-|[<-|[]]]]]; injection S as <-; intros [X|X]; discriminate X.
  - intros e a E S. cbn in E. destruct E as [<-|[<-|[<-|[<-|[]]]]]; try discriminate S; injection S as <-; now split.
  - intros a I _. cbn in I. now destruct I as [<-|[<-|[<-|[<-|[<-|[<-|[]]]]]]].
  - eexists. split; [reflexivity|]. split; [discriminate|]. split; [reflexivity|]. eexists. split; reflexivity.
Qed.
