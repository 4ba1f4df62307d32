(** From MXML to XES. *)
From Coq Require Import String NArith ZArith List Bool Arith Lia.
From Verif Require Import Base.PyBase Base.PyDate Base.PyVal Base.Xml Model.Attr Model.DateConv Model.Log Model.Classify
  Model.Token Model.Registry Model.StdExt Model.XesWrite Model.XesRead Model.MxmlRead Spec.DateText Spec.Xes Spec.Mxml Spec.Survive Spec.Convert
  Proofs.BaseFacts Proofs.DateFacts Proofs.XesReadFacts Proofs.XesRoundFacts Proofs.XesLogFacts Proofs.MxmlFacts Proofs.MxmlLogFacts Proofs.StatFacts.
Import ListNotations.

Section Convert.
Context `{FIO : FloatIO}.

Definition good (a : attr) : Prop := readable a /\ well_keyed a /\ a_val a <> PNone /\ zoned a.
Lemma good_literal k x v l : Forall good l -> good (text_attr k x v (index l)).
Proof.
  intros F. split; [|split; [|split; [discriminate|constructor; [discriminate|constructor]]]].
  - constructor; [exact I|]. cbn. apply index_snd; [|constructor]. eapply Forall_impl; [|exact F]. now intros a [].
  - apply well_keyed_plain; [reflexivity|apply index_keyed|]. apply index_snd; [|constructor]. eapply Forall_impl; [|exact F]. now intros a (_ & ? & _).
Qed.
Lemma good_plain k x v : good (text_attr k x v []).
Proof. exact (good_literal k x v [] (Forall_nil _)). Qed.
Lemma good_reference atts : Forall good (reference_of atts).
Proof. unfold reference_of. destruct (sget _ atts) as [[|c r]|]; constructor; [apply good_plain|constructor]. Qed.
Lemma good_timestamp s d : parse_date_time s = Ok (Some d) -> good (timestamp_attr d).
Proof.
  intros P. destruct (parse_date_time_sound s d P) as (V & m & Z). split; [|split; [|split; [discriminate|constructor; [|constructor]]]].
  - constructor; [|constructor]. cbn. split; [exact V|]. unfold minute_zone. rewrite Z. split; [reflexivity|]. now exists m.
  - apply well_keyed_plain; [reflexivity| |constructor]. split; constructor.
  - cbn. intros ? [= <-]. rewrite Z. discriminate.
Qed.

Lemma good_data t atts kids l : data_of t atts kids = Some l -> Forall good l.
Proof.
  unfold data_of. destruct (str_eqb _ _); [|discriminate]. destruct (sget _ atts); [|discriminate]. destruct (leaf_text kids); [|discriminate].
  intros [= <-]. destruct (trimmed_text _); [|constructor]. constructor; [|constructor]. apply good_literal, good_reference.
Qed.
Lemma good_field t atts kids l : field_of t atts kids = Some l -> Forall good l.
Proof.
  unfold field_of. destruct (leaf_text kids) as [text|]; [|discriminate].
  destruct (str_eqb t (py "WorkflowModelElement")); [intros [= <-]; apply Forall_app; split; [apply good_reference|];
    destruct (trimmed_text _); [constructor; [apply good_plain|constructor]|constructor]|].
  destruct (str_eqb t (py "EventType")); [intros [= <-]; destruct (type_value _ _); [constructor; [apply good_literal, good_reference|constructor]|constructor]|].
  destruct (str_eqb t (py "Originator")); [intros [= <-]; constructor; [apply good_literal, good_reference|constructor]|].
  destruct (str_eqb t (py "Timestamp")); [|apply good_data].
  destruct (parse_date_time _) as [[d|]|] eqn:P; [| |discriminate]; intros [= <-]; constructor; [exact (good_timestamp _ _ P)|constructor].
Qed.

Lemma map_opt_all {A B} (f : A -> option (list B)) (Q : B -> Prop) l :
  Forall (fun x => forall r, f x = Some r -> Forall Q r) l ->
  forall rs, option_map (@List.concat B) (map_opt f l) = Some rs -> Forall Q rs.
Proof.
  induction 1 as [|x l H F IH]; intros rs; cbn [map_opt].
  - intros [= <-]. constructor.
  - destruct (f x) as [r|] eqn:E; [|discriminate]. destruct (map_opt f l) as [r2|]; [|discriminate]. intros [= <-]. cbn.
    apply Forall_app. split; [now apply H|]. now apply IH.
Qed.
Lemma items_all {A} (own : pystr -> sdict pystr -> list xnode -> option (list A)) (Q : A -> Prop) :
  (forall t a k l, own t a k = Some l -> Forall Q l) -> forall x l, items own x = Some l -> Forall Q l.
Proof.
  intros O x. induction x as [t atts kids IH|s] using xnode_ind2; intros l; cbn [items].
  - destruct (grouping t); [|apply O]. destruct (leaf_text kids); [intros [= <-]; constructor|]. now apply map_opt_all.
  - destruct (blank s); [|discriminate]. intros [= <-]. constructor.
Qed.
Lemma all_items_all {A} (own : pystr -> sdict pystr -> list xnode -> option (list A)) (Q : A -> Prop) :
  (forall t a k l, own t a k = Some l -> Forall Q l) -> forall xs l, all_items own xs = Some l -> Forall Q l.
Proof. intros O xs l. unfold all_items. apply map_opt_all. apply Forall_forall. intros x _. now apply items_all. Qed.

Definition good_in_instance (x : attr + list attr) : Prop := match x with inl a => good a | inr l => Forall good l end.
Definition good_in_process (x : attr + instance) : Prop := match x with inl a => good a | inr i => Forall good_in_instance (snd i) end.
Definition good_item (x : mx_item) : Prop :=
  match x with DData a => good a | DSource _ d => Forall good d | DProcess _ its => Forall good_in_process its end.
Lemma map_all {A B} (f : A -> B) (P : A -> Prop) (Q : B -> Prop) l : (forall a, P a -> Q (f a)) -> Forall P l -> Forall Q (map f l).
Proof. intros H. induction 1; constructor; auto. Qed.
Lemma good_instance t a k l : in_instance t a k = Some l -> Forall good_in_instance l.
Proof.
  unfold in_instance. destruct (str_eqb _ _).
  - destruct (all_items field_of k) as [r|] eqn:E; [|discriminate]. intros [= <-]. constructor; [|constructor].
    exact (all_items_all field_of good good_field _ _ E).
  - destruct (data_of t a k) as [r|] eqn:E; [|discriminate]. intros [= <-]. apply (map_all inl good); [auto|]. exact (good_data _ _ _ _ E).
Qed.
Lemma good_process t a k l : in_process t a k = Some l -> Forall good_in_process l.
Proof.
  unfold in_process. destruct (str_eqb _ _).
  - destruct (all_items in_instance k) as [r|] eqn:E; [|discriminate]. intros [= <-]. constructor; [|constructor].
    exact (all_items_all in_instance _ good_instance _ _ E).
  - destruct (data_of t a k) as [r|] eqn:E; [|discriminate]. intros [= <-]. apply (map_all inl good); [auto|]. exact (good_data _ _ _ _ E).
Qed.
Lemma good_document t a k l : in_document t a k = Some l -> Forall good_item l.
Proof.
  unfold in_document. destruct (str_eqb t (py "Process")).
  - destruct (all_items in_process k) as [r|] eqn:E; [|discriminate]. intros [= <-]. constructor; [|constructor].
    exact (all_items_all in_process _ good_process _ _ E).
  - destruct (str_eqb t (py "Source")).
    + destruct (all_items data_of k) as [r|] eqn:E; [|discriminate]. intros [= <-]. constructor; [|constructor].
      exact (all_items_all data_of _ good_data _ _ E).
    + destruct (data_of t a k) as [r|] eqn:E; [|discriminate]. intros [= <-]. apply (map_all DData good); [auto|]. exact (good_data _ _ _ _ E).
Qed.

(** ** The logs *)

Lemma lefts_all {A B} (P : A -> Prop) (l : list (A + B)) : Forall (fun x => match x with inl a => P a | inr _ => True end) l -> Forall P (lefts l).
Proof. unfold lefts. induction 1 as [|[a|b] l H F IH]; cbn; [constructor|constructor; auto|exact IH]. Qed.
Lemma rights_all {A B} (P : B -> Prop) (l : list (A + B)) : Forall (fun x => match x with inl _ => True | inr b => P b end) l -> Forall P (rights l).
Proof. unfold rights. induction 1 as [|[a|b] l H F IH]; cbn; [constructor|exact IH|constructor; auto]. Qed.
Lemma good_before l : Forall good_in_instance l -> Forall good (before_entry l).
Proof. induction 1 as [|[a|b] l H F IH]; cbn; constructor; auto. Qed.
Lemma good_after l : Forall good_in_instance l -> Forall good (after_entry l).
Proof.
  induction 1 as [|[a|b] l H F IH]; cbn; [constructor|exact IH|]. apply lefts_all. eapply Forall_impl; [|exact F]. now intros [].
Qed.
Lemma good_loose x : good_in_process x -> Forall good (loose x).
Proof. destruct x as [a|i]; cbn; [intros G; now constructor|apply good_before]. Qed.
Lemma good_flat l : Forall good_in_process l -> Forall good (flat_map loose l).
Proof. induction 1; cbn; [constructor|]. apply Forall_app. split; [now apply good_loose|assumption]. Qed.
Lemma good_astray l : Forall good_in_process l -> Forall good (astray l).
Proof.
  induction 1 as [|[a|i] l H F IH]; cbn; [constructor|now constructor|]. apply Forall_app. split; [now apply good_before|].
  destruct (filled i); [constructor|exact IH].
Qed.
Lemma good_log_data l : Forall good_in_process l -> Forall good (log_data l).
Proof. induction 1 as [|[a|i] l H F IH]; cbn; [constructor|exact IH|]. destruct (filled i); [now apply good_flat|exact IH]. Qed.
Lemma good_to_source l : Forall good_item l -> Forall good (to_source l).
Proof.
  induction 1 as [|[a|at_ d|at_ its] l H F IH]; cbn; [constructor|now constructor|constructor|]. apply Forall_app. split; [now apply good_astray|exact IH].
Qed.

Definition deep (m : sdict attr) : Prop := readable_map m /\ keyed_deep m /\ Forall zoned (map snd m).
Lemma good_index l : Forall good l -> deep (index l).
Proof.
  intros F. split; [|split; [split; [apply index_keyed|]|]]; (apply index_snd; [|constructor]); (eapply Forall_impl; [|exact F]); now intros a (? & ? & _ & ?).
Qed.
Lemma good_name s : Forall good (name_of s).
Proof. unfold name_of. destruct (blank s); constructor; [apply good_plain|constructor]. Qed.
Lemma good_description s : Forall good (description_of s).
Proof. unfold description_of. destruct s; constructor; [apply good_plain|constructor]. Qed.

Lemma good_numbered draw es : Forall (Forall good) es -> forall n, Forall (fun e => deep (ev_attrs e)) (number_events draw n (map index es)).
Proof. induction 1; intros n; cbn; constructor; auto. now apply good_index. Qed.
Definition deep_trace (t : trace) : Prop := deep (tr_attrs t) /\ Forall (fun e => deep (ev_attrs e)) (tr_events t).
Lemma good_traces draw is : Forall (fun i : instance => Forall good_in_instance (snd i)) is -> forall n, Forall deep_trace (instance_traces draw n is).
Proof.
  induction 1 as [|i is H F IH]; intros n; cbn; constructor; auto. split.
  - apply good_index. repeat (apply Forall_app; split); auto using good_name, good_description, good_reference, good_after.
  - cbn [instance_trace tr_events]. apply good_numbered. unfold entries. apply rights_all. eapply Forall_impl; [|exact H]. now intros [].
Qed.

(** The source, whose value may be None. *)
Definition nearly (a : attr) : Prop := good (none_named a).
Lemma good_value a : good a -> a_val a <> PNone.
Proof. now intros (_ & _ & N & _). Qed.
Lemma nearly_good a : good a -> nearly a.
Proof.
  intros G. pose proof (good_value a G) as N. unfold nearly, none_named. destruct (a_val a); auto; now destruct N.
Qed.
Lemma nearly_source atts d : Forall good d -> nearly (source_attr atts d).
Proof.
  intros F. assert (G : Forall good (reference_of atts ++ d)) by (apply Forall_app; auto using good_reference).
  unfold source_attr. destruct (sget _ atts) as [p|].
  - apply nearly_good. apply good_literal, G.
  - exact (good_literal _ _ (py "None") _ G).
Qed.

Definition named (l : xlog) : xlog :=
  mk_log (none_named_map (lg_attrs l)) (lg_traces l) (lg_exts l) (lg_classifiers l) (lg_gtrace l) (lg_gevent l) (lg_features l).
Lemma write_named a : write_attr (none_named a) = write_attr a.
Proof.
  destruct a as [c k x v co m]. unfold none_named. cbn in *. destruct v; reflexivity.
Qed.
Lemma serialize_named l : xes_serialize (named l) = xes_serialize l.
Proof.
  unfold xes_serialize, named. cbn [lg_gtrace lg_gevent lg_attrs lg_traces lg_exts lg_classifiers].
  replace (add_attributes (map snd (none_named_map (lg_attrs l)))) with (add_attributes (map snd (lg_attrs l))); [reflexivity|].
  unfold add_attributes, none_named_map. induction (lg_attrs l) as [|[k a] m IH]; [reflexivity|].
  cbn [map map_res fst snd]. rewrite write_named, IH. reflexivity.
Qed.
Lemma named_key a : a_key (none_named a) = a_key a.
Proof. unfold none_named. destruct (a_val a); reflexivity. Qed.

Lemma process_log_good draw n s atts its : Forall nearly (opt_list s) -> Forall good_in_process its ->
  let l := process_log draw n s atts its in readable_log (named l) /\ keyed_log (named l) /\ forall c, zoned_for c l.
Proof.
  intros S F l.
  set (rest := name_of (att "id" atts []) ++ [model_attr (py "standard")] ++ description_of (nonempty_text (sget (py "description") atts))
               ++ reference_of atts ++ log_data its).
  assert (R : Forall good rest).
  { unfold rest. repeat (apply Forall_app; split); auto using good_name, good_description, good_reference, good_log_data.
    constructor; [apply good_plain|constructor]. }
  assert (A : Forall nearly (map snd (lg_attrs l))).
  { change (lg_attrs l) with (index (opt_list s ++ rest)). apply index_snd; [|constructor]. apply Forall_app. split; [exact S|].
    eapply Forall_impl; [|exact R]. apply nearly_good. }
  assert (T : Forall deep_trace (lg_traces l)).
  { unfold l, process_log. cbn [lg_traces]. apply good_traces. unfold kept. apply Forall_forall. intros i I. apply filter_In in I as [I _].
    assert (X : Forall (fun i : instance => Forall good_in_instance (snd i)) (rights its)).
    { apply rights_all. eapply Forall_impl; [|exact F]. now intros []. }
    rewrite Forall_forall in X. auto. }
  assert (D : map snd (none_named_map (lg_attrs l)) = map none_named (map snd (lg_attrs l))).
  { unfold none_named_map. rewrite !map_map. reflexivity. }
  split; [|split].
  - split; [|split; [|split]].
    + unfold readable_map. cbn [lg_attrs named]. rewrite D. apply (map_all none_named nearly); [|exact A]. now intros a (? & ? & _).
    + constructor; [|constructor]. apply good_plain.
    + constructor; [apply good_plain|]. constructor; [|constructor]. apply good_plain.
    + eapply Forall_impl; [|exact T]. intros t [[B _] C]. split; [exact B|]. eapply Forall_impl; [|exact C]. now intros e [].
  - split.
    + split.
      * destruct (index_keyed (opt_list s ++ rest)) as [K1 K2]. split; cbn [lg_attrs named]; unfold none_named_map.
        -- eapply (map_all _ _ _ _ _ K1). Unshelve. intros [k a]. cbn. now rewrite named_key.
        -- rewrite map_map. exact K2.
      * cbn [lg_attrs named]. rewrite D. apply (map_all none_named nearly); [|exact A]. now intros a (? & ? & _).
    + eapply Forall_impl; [|exact T]. intros t [(_ & B & _) C]. split; [exact B|]. eapply Forall_impl; [|exact C]. now intros e (_ & ? & _).
  - intros c t e k a It Ie _ Ha. rewrite Forall_forall in T. destruct (T t It) as [_ U]. rewrite Forall_forall in U.
    destruct (U e Ie) as (_ & _ & Z). rewrite Forall_forall in Z. apply Z. now apply (sget_In' k).
Qed.

Definition is_process_log (l : xlog) : Prop :=
  (readable_log (named l) /\ keyed_log (named l) /\ forall c, zoned_for c l)
  /\ lg_exts l = [ext_concept; ext_org; ext_lifecycle; ext_semantic; ext_time] /\ lg_classifiers l = mxml_classifiers
  /\ lg_gtrace l = [name_attr (py "UNKNOWN")] /\ lg_gevent l = [name_attr (py "UNKNOWN"); transition_attr (py "complete") []].
Lemma logs_good draw its : Forall good_item its -> forall n s, Forall nearly (opt_list s) -> Forall is_process_log (item_logs draw n s its).
Proof.
  induction 1 as [|[a|at_ d|at_ p] its G F IH]; intros n s S; cbn [item_logs]; [constructor|now apply IH| |].
  - apply IH. constructor; [|constructor]. apply nearly_source. apply Forall_app. split; [exact G|now apply good_to_source].
  - constructor; [|now apply IH]. split; [now apply process_log_good|]. repeat split.
Qed.

Lemma globals_same mgr : registered mgr ext_concept -> registered mgr ext_lifecycle ->
  flat_map (globals_back mgr) [name_attr (py "UNKNOWN")] = [name_attr (py "UNKNOWN")]
  /\ flat_map (globals_back mgr) [name_attr (py "UNKNOWN"); transition_attr (py "complete") []]
     = [name_attr (py "UNKNOWN"); transition_attr (py "complete") []].
Proof.
  intros C L. assert (X : key_extension mgr (py "concept:name") = Some ext_concept) by exact C.
  assert (Y : key_extension mgr (py "lifecycle:transition") = Some ext_lifecycle) by exact L.
  cbn [flat_map globals_back name_attr transition_attr text_attr is_collection value_back app]. now rewrite X, Y.
Qed.

Lemma mxml_to_xes mgr urlparse draw draw2 doc logs : mxml_registered mgr -> mxml_logs draw doc = Some logs ->
  exists s, mxml_parse draw doc = Ok s /\ Forall2 (log_is (m_sources s)) (m_logs s) logs
  /\ Forall (converted mgr urlparse draw2) logs.
Proof.
  intros M E. destruct (mxml_reads draw doc logs E) as (s & P & F). exists s. split; [exact P|]. split; [exact F|].
  unfold mxml_logs in E. destruct (mxml_items doc) as [its|] eqn:D; [|discriminate]. injection E as <-.
  assert (G : Forall good_item its) by exact (items_all in_document _ good_document _ _ D).
  eapply Forall_impl; [|exact (logs_good draw its G 0 None (Forall_nil _))].
  intros l ((R & KY & ZN) & X & C & GT & GE).
  destruct (serialize_back mgr urlparse draw2 (named l) R) as (x & W & DL). exists x. split; [now rewrite <- serialize_named|]. intros x' Q.
  destruct (parse_any mgr urlparse draw2 x _ DL x' Q) as (s' & r & P' & L & LI). exists s', r, (Spec.Xes.log_back mgr draw2 (named l)).
  destruct (log_back_same mgr draw2 (named l) KY) as [S1 S2].
  inversion M as [|? ? M1 M2]; subst. inversion M2 as [|? ? _ M3]; subst. inversion M3 as [|? ? M4 _]; subst.
  destruct (globals_same mgr M1 M4) as [G1 G2]. do 5 (split; [assumption|]).
  cbn [Spec.Xes.log_back lg_gtrace lg_gevent lg_exts lg_classifiers named].
  rewrite GT, GE, X, C, G1, G2. do 2 (split; [reflexivity|]). split; [|split; [reflexivity|]].
  - apply extensions_kept; [exact M|]. now apply distinct_by.
  - intros c. exact (proj2 (classes_same mgr c (named l) _ R (ZN c) S2)).
Qed.

Lemma one_class e e' : sget (py "concept:name lifecycle:transition") (ev_attrs e) = None ->
  sget (py "concept:name lifecycle:transition") (ev_attrs e') = None ->
  same_event_class (hd (mk_cl [] []) classifiers_after) e e' = Ok true.
Proof.
  intros A B. unfold same_event_class, classifiers_after. cbn [hd]. unfold class_identity. cbn [cl_keys]. now rewrite A, B.
Qed.
End Convert.
