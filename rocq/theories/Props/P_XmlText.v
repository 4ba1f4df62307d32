(** Property C40: the text of the written files. *)
From Coq Require Import String NArith ZArith List Bool.
From Verif Require Import Base.PyBase Base.PyVal Base.Xml Model.Attr Model.Log Model.Registry Model.XmlText Model.XmlChars
  Model.XesWrite Model.XesRead Model.MxmlWrite Model.MxmlRead Spec.Typing Spec.Xes Spec.Mxml Spec.XmlNorm
  Proofs.XesLogFacts Proofs.MxmlRoundFacts Proofs.XmlTextFacts Proofs.XmlFileFacts Props.P_Xes Props.P_Mxml.
Import ListNotations.
Local Open Scope N_scope.

(** Any element with legal characters can be written; a reader of the text sees its start and
    end tags and its text, except that line breaks and tabs in attribute values are blanks,
    line breaks in text are LF, and there is white space between elements. *)
Theorem C40_text : forall comments doc, In comments [xes_comments; mxml_comments] ->
  shaped doc = true -> is_text doc = false -> legal_tree doc = true ->
  exists text es, write_xml comments doc = Some text /\ read_xml text = Some es
  /\ same_calls es (sax_of (pretty 0 (normal doc))).
Proof. exact file_calls. Qed.
Print Assumptions C40_text.

(** Exactly the trees without line breaks and tabs in values and without CR in text are not
    changed. *)
Theorem C40_kept : forall doc, normal doc = doc <-> calm_tree doc = true.
Proof. exact normal_same. Qed.
Print Assumptions C40_kept.

(** With any other character the file is not written. *)
Theorem C40_illegal : forall comments doc, legal_tree doc = false -> write_xml comments doc = None.
Proof. exact write_none. Qed.
Print Assumptions C40_illegal.

(** A written log: the XES parser sees the serializer's tree, with normal values. *)
Theorem C40_xes : forall (FIO : FloatIO) l doc, xes_serialize l = Ok doc -> legal_tree doc = true ->
  exists text es, write_xml xes_comments doc = Some text /\ read_xml text = Some es
  /\ forall mgr urlparse draw, xes_run mgr urlparse draw es ps_init = xes_parse mgr urlparse draw (normal doc).
Proof. exact @xes_file. Qed.
Print Assumptions C40_xes.

(** The round trip of C34 through the text. *)
Theorem C40_xes_round_trip : forall (FIO : FloatIO) mgr urlparse draw l, readable_log l -> keyed_log l ->
  exists doc, xes_serialize l = Ok doc /\
  (legal_tree doc = true -> calm_tree doc = true -> exists text es s r l',
  write_xml xes_comments doc = Some text /\ read_xml text = Some es
  /\ xes_run mgr urlparse draw es ps_init = Ok s /\ p_log s = Some r /\ log_in (p_heap s) r l'
  /\ same_map mgr (lg_attrs l) (lg_attrs l') /\ Forall2 (same_trace mgr) (lg_traces l) (lg_traces l')
  /\ (Forall flat (lg_gtrace l) -> Forall2 (same_attr mgr) (lg_gtrace l) (lg_gtrace l'))
  /\ (Forall flat (lg_gevent l) -> Forall2 (same_attr mgr) (lg_gevent l) (lg_gevent l'))
  /\ (Forall (registered mgr) (lg_exts l) -> distinct_exts (lg_exts l) -> lg_exts l' = lg_exts l)).
Proof.
  intros FIO mgr urlparse draw l HR HK. destruct (log_roundtrip_same mgr urlparse draw l HR HK) as (doc & E & B).
  exists doc. split; [exact E|]. intros HL HC. destruct (xes_file l doc E HL) as (text & es & W & R & P).
  destruct (B doc eq_refl) as (s & r & l' & B1). exists text, es, s, r, l'. rewrite (P mgr urlparse draw), (proj2 (normal_same doc) HC).
  split; [exact W|split; [exact R|exact B1]].
Qed.
Print Assumptions C40_xes_round_trip.

(** A written log: the MXML parser. *)
Theorem C40_mxml : forall (FIO : FloatIO) l doc, mxml_serialize l = Ok doc -> legal_tree doc = true ->
  exists text es, write_xml mxml_comments doc = Some text /\ read_xml text = Some es
  /\ forall draw, mx_run draw es ms_init = mxml_parse draw (pretty 0 (normal doc)).
Proof. exact @mxml_file. Qed.
Print Assumptions C40_mxml.

(** The round trip of C46 through the text. *)
Theorem C40_mxml_round_trip : forall (FIO : FloatIO) draw l doc, mxml_serialize l = Ok doc ->
  legal_tree doc = true -> calm_tree doc = true ->
  exists text es s m, write_xml mxml_comments doc = Some text /\ read_xml text = Some es
  /\ mx_run draw es ms_init = Ok s /\ m_logs s = [m] /\ log_back (m_sources s) m l
  /\ Forall2 (fun t u => trace_back (mt_attrs t) u
                         /\ Forall2 (fun o e => exists ev, o = Some ev /\ event_back (ev_attrs ev) e) (mt_events t) (tr_events u))
             (ml_traces m) (filter (fun u => has_items (tr_events u)) (lg_traces l)).
Proof.
  intros FIO draw l doc E HL HC. destruct (mxml_file l doc E HL) as (text & es & W & R & P).
  destruct (mxml_round draw l doc E) as (s & m & B). exists text, es, s, m. rewrite (P draw), (proj2 (normal_same doc) HC). auto.
Qed.
Print Assumptions C40_mxml_round_trip.

(** ** Samples: the texts are those of CPython 3.11 *)
Definition sample_tree : xnode :=
  XElem (py "log") [(py "k", py "a<""&>" ++ [9; 10; 13; 233])]
    [XElem (py "string") [(py "key", py "x" ++ [13; 10] ++ py "y")] [];
     XElem (py "d") [] [XText (py "t <" ++ [13; 10] ++ py ">""")];
     XElem (py "m") [] [];
     XElem (py "mm") [] [XText (py "p"); XElem (py "q") [] []]].
Example C40_first_text : et_print sample_tree
  = py "<log k=""a&lt;&quot;&amp;&gt;&#09;&#10;&#13;" ++ [233]
    ++ py """><string key=""x&#13;&#10;y"" /><d>t &lt;" ++ [13; 10] ++ py "&gt;""</d><m /><mm>p<q /></mm></log>".
Proof. vm_compute. reflexivity. Qed.
Example C40_second_text : write_xml [] sample_tree
  = Some (py "<?xml version=""1.0"" ?>" ++ [10] ++ py "<log k=""a&lt;&quot;&amp;&gt;" ++ [9; 10; 13; 233] ++ py """>" ++ [10; 9]
          ++ py "<string key=""x" ++ [13; 10] ++ py "y""/>" ++ [10; 9]
          ++ py "<d>t &lt;" ++ [10] ++ py "&gt;&quot;</d>" ++ [10; 9]
          ++ py "<m/>" ++ [10; 9] ++ py "<mm>" ++ [10; 9; 9] ++ py "p" ++ [10; 9; 9] ++ py "<q/>" ++ [10; 9] ++ py "</mm>" ++ [10]
          ++ py "</log>" ++ [10]).
Proof. vm_compute. reflexivity. Qed.
Example C40_conditions :
  shaped sample_tree = true /\ is_text sample_tree = false /\ legal_tree sample_tree = true /\ calm_tree sample_tree = false
  /\ normal sample_tree
     = XElem (py "log") [(py "k", py "a<""&>   " ++ [233])]
         [XElem (py "string") [(py "key", py "x y")] [];
          XElem (py "d") [] [XText (py "t <" ++ [10] ++ py ">""")];
          XElem (py "m") [] [];
          XElem (py "mm") [] [XText (py "p"); XElem (py "q") [] []]].
Proof. vm_compute. auto. Qed.
Example C40_refused : legal_tree (XElem (py "log") [(py "k", [0])] []) = false /\ legal_tree (XElem (py "log") [] [XText [55296]]) = false.
Proof. vm_compute. auto. Qed.
(** The logs of C34 and C46 meet the conditions. *)
Example C40_logs :
  @readable_log no_floats P_Xes.sample_log /\ keyed_log P_Xes.sample_log
  /\ match @xes_serialize no_floats P_Xes.sample_log with Ok d => legal_tree d && calm_tree d | Raise _ => false end = true
  /\ @mxml_serialize no_floats P_Mxml.sample_log = Ok sample_written /\ legal_tree sample_written && calm_tree sample_written = true.
Proof. split; [apply sample_log_ok|]. split; [apply sample_log_ok|]. vm_compute. auto. Qed.
