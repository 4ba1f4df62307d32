(** Properties C33-C39: writing and reading XES.

    [mgr] are the registered extensions, [urlparse] and [draw] stand for urllib and for the
    ids drawn for new events; the theorems hold whatever they are. *)
From Coq Require Import String NArith ZArith List Bool.
From Verif Require Import Base.PyBase Base.PyDate Base.PyVal Base.Xml Model.Attr Model.DateConv Model.Log
  Model.Token Model.Registry Model.XesWrite Model.XesRead Spec.Typing Spec.DateText Spec.Registries Spec.Xes Spec.XesParts
  Proofs.XesReadFacts Proofs.XesRoundFacts Proofs.XesStackFacts Proofs.XesLogFacts Proofs.XesPartsFacts.
Import ListNotations.

(** ** Samples *)

Definition concept : xext := mk_xext (py "Concept") (py "concept") (py "http://www.xes-standard.org/concept.xesext").
Definition sample_mgr : manager xext := mk_mgr [(x_uri concept, concept)] [concept].
Definition lit (k v : string) : attr := mk_attr CLiteral (py k) None (PStr (py v)) [] [].
Definition noon : datetime := mk_dt 2020 2 29 12 0 0 123456 (Some (mk_tz 7200000000 None)).
(** A date with a nested list of two members, one of them twice. *)
Definition sample_attr : attr :=
  mk_attr CTimestamp (py "time:timestamp") None (PDate noon) []
    [(py "l", mk_attr CList (py "l") None PNone [lit "concept:name" "x"; lit "concept:name" "y"; lit "concept:name" "x"] []);
     (py "n", mk_attr CDiscrete (py "n") None (PInt (-7)) [] [(py "b", mk_attr CBoolean (py "b") None (PBool true) [] [])])].
Definition sample_event : event := mk_event 5 [(py "time:timestamp", sample_attr); (py "a", lit "a" "1")].
Definition sample_log : xlog :=
  mk_log [(py "concept:name", lit "concept:name" "log")]
    [mk_trace [(py "concept:name", lit "concept:name" "t1")] [sample_event; mk_event 6 [(py "a", lit "a" "2")]];
     mk_trace [] []]
    [concept]
    [mk_cl (py "A") [py "concept:name"]; mk_cl (py "B") [py "concept:name"; py "lifecycle:transition"]]
    [lit "g" "1"]
    [mk_attr CDiscrete (py "h") None (PInt 3) [] [(py "i", lit "i" "x")]]
    [].

(** Proofs about the samples. *)
Ltac keys_ok := repeat (apply NoDup_cons; [cbv; intuition discriminate|]); apply NoDup_nil.
Ltac keyed_ok := split; [repeat constructor|cbn [map fst]; keys_ok].
Ltac well_keyed_ok :=
  first [apply well_keyed_coll; [reflexivity|repeat (constructor; try well_keyed_ok)]
        |apply well_keyed_plain; [reflexivity|keyed_ok|cbn [map snd]; repeat (apply Forall_cons; [well_keyed_ok|]); apply Forall_nil]].
Ltac readable_ok :=
  apply readable_intro; [first [exact I|split; [reflexivity|split; [reflexivity|exists 120%Z; reflexivity]]]
                        |cbn; repeat (apply Forall_cons; [readable_ok|]); apply Forall_nil].
Ltac readables_ok := cbn; repeat (apply Forall_cons; [readable_ok|]); apply Forall_nil.

Lemma sample_attr_ok : @readable no_floats sample_attr /\ well_keyed sample_attr.
Proof. split; [readable_ok|well_keyed_ok]. Qed.

Lemma sample_log_ok : @readable_log no_floats sample_log /\ keyed_log sample_log.
Proof.
  split.
  - split; [readables_ok|split; [readables_ok|split; [readables_ok|]]].
    repeat (apply Forall_cons; [split; [readables_ok|repeat (apply Forall_cons; [readables_ok|]); apply Forall_nil]|]). apply Forall_nil.
  - assert (K : forall m, keyed m -> Forall well_keyed (map snd m) -> keyed_deep m) by (split; auto).
    split; [apply K; [keyed_ok|cbn; repeat (apply Forall_cons; [well_keyed_ok|]); apply Forall_nil]|].
    repeat (apply Forall_cons; [split; [apply K; [keyed_ok|cbn; repeat (apply Forall_cons; [well_keyed_ok|]); apply Forall_nil]
      |repeat (apply Forall_cons; [apply K; [keyed_ok|cbn; repeat (apply Forall_cons; [well_keyed_ok|]); apply Forall_nil]|]); apply Forall_nil]|]).
    apply Forall_nil.
Qed.

(** ** C33 *)

(** Written and read back inside any element, the attribute comes back as the same tree
    [b], attached to that element; nothing else changes. *)
Theorem C33_attribute_roundtrip : forall (FIO : FloatIO) mgr urlparse draw a, readable a -> well_keyed a ->
  exists x b, write_attr a = Ok x /\ same_attr mgr a b /\ forall s p, inside s p -> exists s' r,
  xes_run mgr urlparse draw (sax_of x) s = Ok s' /\ same_position s s' /\ attr_in (p_heap s') r b
  /\ List.length (p_heap s) <= r
  /\ forall i, i < List.length (p_heap s) ->
       nth_error (p_heap s') i = if Nat.eqb i p then option_map (put_attr (a_key a) r) (nth_error (p_heap s) i)
                                 else nth_error (p_heap s) i.
Proof. exact @attr_roundtrip. Qed.
Print Assumptions C33_attribute_roundtrip.

(** The extension is the registered one the key names. *)
Theorem C33_extension : forall mgr a b, same_attr mgr a b -> a_ext b = named_extension mgr (a_key a).
Proof. exact same_attr_extension. Qed.
Print Assumptions C33_extension.
Example C33_extension_example : named_extension sample_mgr (py "concept:name:x") = Some ext_concept
  /\ named_extension sample_mgr (py "concept") = None /\ named_extension sample_mgr (py "other:name") = None.
Proof. repeat split. Qed.

(** What has come back once comes back identically from then on, whatever its keys. *)
Theorem C33_second_time : forall (FIO : FloatIO) mgr a, readable a -> exists x,
  write_attr a = Ok x /\ elem_attr mgr x = Some (read_back mgr a)
  /\ read_back mgr (read_back mgr a) = read_back mgr a.
Proof.
  intros FIO mgr a R. destruct (writes_attr mgr a R) as (x & W & E & _). exists x.
  split; [exact W|split; [exact E|apply read_back_again]].
Qed.
Print Assumptions C33_second_time.

Definition sample_state : pstate :=
  mk_ps [OLog [] [] [] [] [] [] []; OTrace [] []; OEvent 9 []] (Some 0) (Some 1) (Some 2) [] [2; 1; 0] None 1.
Example C33_example :
  @readable no_floats sample_attr /\ well_keyed sample_attr /\ inside sample_state 2
  /\ (let! x := @write_attr no_floats sample_attr in
      let! s := @xes_run no_floats sample_mgr (fun u => Some u) N.of_nat (sax_of x) sample_state in
      Ok (nth_error (p_heap s) 2, nth_error (p_heap s) 3, nth_error (p_heap s) 4))
     = Ok (Some (OEvent 9 [(py "time:timestamp", 3)]),
           Some (OAttr CTimestamp (py "time:timestamp") None
                   (PDate (mk_dt 2020 2 29 12 0 0 123000 (Some (mk_tz 7200000000 None)))) [] [(py "l", 4); (py "n", 8)]),
           Some (OAttr CList (py "l") None PNone [5; 6; 7] [(py "concept:name", 7)])).
Proof.
  split; [apply sample_attr_ok|]. split; [apply sample_attr_ok|].
  split; [|vm_compute; reflexivity].
  split; [reflexivity|]. split; [apply le_n|]. split; [eexists; reflexivity|].
  intros ? ? ? ? ? ?. discriminate.
Qed.

(** ** C34 *)

(** The document of a log, however it is laid out (with white space and foreign elements),
    is read as a log with the same traces, events and attributes in the same order. *)
Theorem C34_log_roundtrip : forall (FIO : FloatIO) mgr urlparse draw l, readable_log l -> keyed_log l ->
  exists doc, xes_serialize l = Ok doc /\
  forall doc', splice doc' = splice doc -> exists s r l',
  xes_parse mgr urlparse draw doc' = Ok s /\ p_log s = Some r /\ log_in (p_heap s) r l'
  /\ same_map mgr (lg_attrs l) (lg_attrs l') /\ Forall2 (same_trace mgr) (lg_traces l) (lg_traces l')
  /\ (Forall flat (lg_gtrace l) -> Forall2 (same_attr mgr) (lg_gtrace l) (lg_gtrace l'))
  /\ (Forall flat (lg_gevent l) -> Forall2 (same_attr mgr) (lg_gevent l) (lg_gevent l'))
  /\ (Forall (registered mgr) (lg_exts l) -> distinct_exts (lg_exts l) -> lg_exts l' = lg_exts l).
Proof. exact @log_roundtrip_same. Qed.
Print Assumptions C34_log_roundtrip.

(** More generally, the parser reads what a document says. *)
Theorem C34_document : forall (FIO : FloatIO) mgr urlparse draw doc l, doc_log mgr urlparse draw doc = Some l ->
  forall doc', splice doc' = splice doc ->
  exists s r, xes_parse mgr urlparse draw doc' = Ok s /\ p_log s = Some r /\ log_in (p_heap s) r l.
Proof. exact @parse_any. Qed.
Print Assumptions C34_document.

Example C34_example :
  @readable_log no_floats sample_log /\ keyed_log sample_log
  /\ Forall flat (lg_gtrace sample_log) /\ Forall (registered sample_mgr) (lg_exts sample_log) /\ distinct_exts (lg_exts sample_log)
  /\ match @xes_serialize no_floats sample_log with
     | Ok doc => match @xes_parse no_floats sample_mgr (fun u => Some u) N.of_nat doc with
                 | Ok s => List.length (p_heap s) = 19 /\ p_log s = Some 0 /\ p_drawn s = 2
                 | Raise _ => False
                 end
     | Raise _ => False
     end.
Proof.
  split; [apply sample_log_ok|]. split; [apply sample_log_ok|]. split; [repeat constructor|].
  split; [repeat constructor|]. split; [now apply distinct_by|]. vm_compute. repeat split; reflexivity.
Qed.

(** ** C35 *)

(** Reading any element without unreadable dates leaves both stacks as they were. *)
Theorem C35_stacks_restored : forall (FIO : FloatIO) mgr urlparse draw x s s', bad_dates x = 0 ->
  xes_run mgr urlparse draw (sax_of x) s = Ok s' ->
  p_attrs s' = p_attrs s /\ p_attributables s' = p_attributables s.
Proof. exact @stacks_restored. Qed.
Print Assumptions C35_stacks_restored.

(** The list of globals in use is kept by elements with no global element in them, and there
    is none after a global element. *)
Theorem C35_globals : forall (FIO : FloatIO) mgr urlparse draw x s s', no_global x = true ->
  xes_run mgr urlparse draw (sax_of x) s = Ok s' -> p_globals s' = p_globals s.
Proof. exact @element_globals. Qed.
Print Assumptions C35_globals.
Theorem C35_global_ends : forall (FIO : FloatIO) mgr urlparse draw t a kids s s', lower t = py "global" ->
  xes_run mgr urlparse draw (sax_of (XElem t a kids)) s = Ok s' -> p_globals s' = None.
Proof. exact @global_ends. Qed.
Print Assumptions C35_global_ends.

(** An event element inside a trace: one more event in that trace, and the parser is where it was. *)
Theorem C35_event_element : forall (FIO : FloatIO) mgr urlparse draw x m, elem_event mgr x = Some m -> forall s t rest,
  p_trace s = Some t -> p_event s = None -> p_attrs s = [] -> p_globals s = None -> p_attributables s = t :: rest ->
  t < List.length (p_heap s) -> exists s' r,
  xes_run mgr urlparse draw (sax_of x) s = Ok s'
  /\ p_log s' = p_log s /\ p_trace s' = p_trace s /\ p_event s' = None /\ p_attrs s' = [] /\ p_globals s' = None
  /\ p_attributables s' = p_attributables s /\ p_drawn s' = S (p_drawn s)
  /\ event_in (p_heap s') r (mk_event (draw (p_drawn s)) m)
  /\ forall i, i < List.length (p_heap s) ->
      nth_error (p_heap s') i
      = if Nat.eqb i t then option_map (trace_append (Some r)) (nth_error (p_heap s) i) else nth_error (p_heap s) i.
Proof. exact @event_element. Qed.
Print Assumptions C35_event_element.

(** The same for a trace element inside a log. *)
Theorem C35_trace_element : forall (FIO : FloatIO) mgr urlparse draw x m es, elem_trace mgr x = Some (m, es) -> forall s g rest,
  p_log s = Some g -> p_trace s = None -> p_event s = None -> p_attrs s = [] -> p_globals s = None -> p_attributables s = g :: rest ->
  g < List.length (p_heap s) -> exists s' r,
  xes_run mgr urlparse draw (sax_of x) s = Ok s'
  /\ p_log s' = p_log s /\ p_trace s' = None /\ p_event s' = None /\ p_attrs s' = [] /\ p_globals s' = None
  /\ p_attributables s' = p_attributables s /\ p_drawn s' = p_drawn s + List.length es
  /\ trace_in (p_heap s') r (mk_trace m (number_events draw (p_drawn s) es))
  /\ forall i, i < List.length (p_heap s) ->
      nth_error (p_heap s') i
      = if Nat.eqb i g then option_map (log_append (Some r)) (nth_error (p_heap s) i) else nth_error (p_heap s) i.
Proof. exact @trace_element. Qed.
Print Assumptions C35_trace_element.

Definition elem (t : string) (atts : list (string * string)) (kids : list xnode) : xnode :=
  XElem (py t) (map (fun kv => (py (fst kv), py (snd kv))) atts) kids.
Example C35_globals_example :
  let x := elem "event" [] [elem "string" [("key", "a"); ("value", "1")] []]%string in
  let s := mk_ps [OLog [] [] [] [] [] [] []; OTrace [] []] (Some 0) (Some 1) None [] [1; 0] (Some (0, GEvent)) 0 in
  no_global x = true
  /\ match @xes_run no_floats sample_mgr (fun u => Some u) N.of_nat (sax_of x) s with
     | Ok s' => p_globals s' = Some (0, GEvent)
     | Raise _ => False
     end
  /\ match @xes_run no_floats sample_mgr (fun u => Some u) N.of_nat (sax_of (elem "Global" [("scope", "event")] [x])%string) s with
     | Ok s' => p_globals s' = None
     | Raise _ => False
     end.
Proof. vm_compute. auto. Qed.
Example C35_example :
  let e := elem "event" [] [elem "list" [("key", "l")] [elem "string" [("key", "a"); ("value", "1")] []]; elem "int" [("value", "3")] []]%string in
  let s := mk_ps [OLog [] [] [] [] [] [] []; OTrace [] []] (Some 0) (Some 1) None [] [1; 0] None 0 in
  bad_dates e = 0 /\ (exists m, @elem_event no_floats sample_mgr e = Some m)
  /\ match @xes_run no_floats sample_mgr (fun u => Some u) N.of_nat (sax_of e) s with
     | Ok s' => p_attributables s' = [1; 0] /\ nth_error (p_heap s') 1 = Some (OTrace [] [Some 2])
     | Raise _ => False
     end.
Proof. split; [reflexivity|]. split; [eexists; reflexivity|]. vm_compute. auto. Qed.

(** ** C36 *)

(** Every attribute of the trees of globals comes back alone, those below it before it. *)
Theorem C36_globals_flat : forall (FIO : FloatIO) mgr urlparse draw l, readable_log l ->
  exists doc s r l', xes_serialize l = Ok doc
  /\ xes_parse mgr urlparse draw doc = Ok s /\ p_log s = Some r /\ log_in (p_heap s) r l'
  /\ Forall2 (alone mgr) (flat_map post_order (lg_gtrace l)) (lg_gtrace l')
  /\ Forall2 (alone mgr) (flat_map post_order (lg_gevent l)) (lg_gevent l').
Proof. exact @globals_roundtrip. Qed.
Print Assumptions C36_globals_flat.

Example C36_example :
  @readable_log no_floats sample_log
  /\ map a_key (flat_map post_order (lg_gevent sample_log)) = [py "i"; py "h"]
  /\ match @xes_serialize no_floats sample_log with
     | Ok doc => match @xes_parse no_floats sample_mgr (fun u => Some u) N.of_nat doc with
                 | Ok s => match nth_error (p_heap s) 0 with Some (OLog _ _ _ _ gt ge _) => gt = [1] /\ ge = [3; 2] | _ => False end
                 | Raise _ => False
                 end
     | Raise _ => False
     end.
Proof. split; [apply sample_log_ok|]. split; [reflexivity|]. vm_compute. auto. Qed.

(** ** C37 *)

(** The name comes back, the keys as [merged]; the classifiers come back unchanged exactly
    if no two adjacent keys are free of spaces. *)
Theorem C37_classifiers : forall (FIO : FloatIO) mgr urlparse draw l, readable_log l -> Forall usable (lg_classifiers l) ->
  exists doc s r l', xes_serialize l = Ok doc
  /\ xes_parse mgr urlparse draw doc = Ok s /\ p_log s = Some r /\ log_in (p_heap s) r l'
  /\ lg_classifiers l' = map (fun c => mk_cl (cl_name c) (merged [] (cl_keys c))) (lg_classifiers l)
  /\ (lg_classifiers l' = lg_classifiers l <-> Forall (fun c => no_adjacent_plain (cl_keys c)) (lg_classifiers l)).
Proof. exact @classifiers_roundtrip. Qed.
Print Assumptions C37_classifiers.

Example C37_example :
  Forall usable (lg_classifiers sample_log)
  /\ match @xes_serialize no_floats sample_log with
     | Ok doc => match @xes_parse no_floats sample_mgr (fun u => Some u) N.of_nat doc with
                 | Ok s => match nth_error (p_heap s) 0 with
                           | Some (OLog _ _ _ cs _ _ _) => cs = [mk_cl (py "A") [py "concept:name"];
                                                                mk_cl (py "B") [py "concept:name lifecycle:transition"]]
                           | _ => False end
                 | Raise _ => False
                 end
     | Raise _ => False
     end.
Proof.
  split; [|vm_compute; reflexivity].
  repeat constructor; try discriminate; vm_compute; intuition discriminate.
Qed.

(** ** C38 *)

(** A document with an unreadable date anywhere cannot be read. *)
Theorem C38_bad_date_fatal : forall (FIO : FloatIO) mgr urlparse draw doc s,
  xes_parse mgr urlparse draw doc = Ok s -> bad_dates doc = 0.
Proof. exact @bad_date_fatal. Qed.
Print Assumptions C38_bad_date_fatal.

(** Outside of other attributes, its end raises IndexError. *)
Theorem C38_bad_date_raises : forall (FIO : FloatIO) mgr urlparse draw t atts kids s s', bad_date t atts = true ->
  p_attrs s = [] -> xes_run mgr urlparse draw (flat_map sax_of kids) s = Ok s' ->
  xes_run mgr urlparse draw (sax_of (XElem t atts kids)) s = Raise IndexError.
Proof. exact @bad_date_raises. Qed.
Print Assumptions C38_bad_date_raises.

(** Inside another attribute, it acts as the end tag of that attribute. *)
Theorem C38_bad_date_closes : forall (FIO : FloatIO) mgr urlparse draw t atts kids t' s, bad_date t atts = true ->
  attr_tag (lower t') <> None ->
  xes_run mgr urlparse draw (sax_of (XElem t atts kids)) s
  = xes_run mgr urlparse draw (flat_map sax_of kids ++ [SEnd t']) s.
Proof. exact @bad_date_closes. Qed.
Print Assumptions C38_bad_date_closes.

Example C38_example :
  let bad := elem "date" [("key", "d"); ("value", "yesterday")]%string [] in
  bad_date (py "date") [(py "key", py "d"); (py "value", py "yesterday")] = true
  /\ @xes_parse no_floats sample_mgr (fun u => Some u) N.of_nat (elem "log" [] [bad]) = Raise IndexError
  /\ match @xes_run no_floats sample_mgr (fun u => Some u) N.of_nat
             (flat_map sax_of [elem "string" [("key", "a"); ("value", "1")]%string [bad]]) sample_state with
     | Ok s => False | Raise e => e = IndexError end
  /\ match @xes_run no_floats sample_mgr (fun u => Some u) N.of_nat
             (SStart (py "string") [(py "key", py "a")] :: sax_of bad) sample_state with
     | Ok s => p_attrs s = [] /\ p_attributables s = [2; 1; 0] | Raise e => False end.
Proof. vm_compute. auto. Qed.

(** ** C39 *)

(** Text and foreign elements by themselves change nothing, wherever they are: what such
    an element contains is read as if it stood in its place. *)
Theorem C39_foreign_elements : forall (FIO : FloatIO) mgr urlparse draw x y s,
  splice x = splice y -> xes_run mgr urlparse draw (sax_of x) s = xes_run mgr urlparse draw (sax_of y) s.
Proof. intros FIO mgr urlparse draw x y s E. now rewrite splice_run, E, <- splice_run. Qed.
Print Assumptions C39_foreign_elements.

Theorem C39_tag_case : forall (FIO : FloatIO) mgr urlparse draw x y, same_case x y ->
  forall s, xes_run mgr urlparse draw (sax_of x) s = xes_run mgr urlparse draw (sax_of y) s.
Proof. exact @same_case_run. Qed.
Print Assumptions C39_tag_case.

(** Elements of the vocabulary are not dropped. *)
Theorem C39_vocabulary_kept : forall t atts kids, foreign t = false <-> exists kids', splice (XElem t atts kids) = [XElem t atts kids'].
Proof. exact splice_kept. Qed.
Print Assumptions C39_vocabulary_kept.

Example C39_example :
  splice (elem "log" [] [XText (py " "); elem "trace" [] [elem "meta" [] [elem "event" [] []]]; elem "other" [] []])
  = splice (elem "log" [] [elem "trace" [] [elem "event" [] []]])
  /\ same_case (elem "LOG" [] [elem "Trace" [] []]) (elem "log" [] [elem "trace" [] []]).
Proof. split; [reflexivity|]. repeat constructor. Qed.
