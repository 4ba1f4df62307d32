(** Properties C70, C71: logs in files. *)
From Coq Require Import String NArith ZArith List Bool.
From Verif Require Import Base.PyBase Base.PyVal Base.Xml Base.Codec Model.Attr Model.Log Model.Registry Model.XmlText Model.XmlChars
  Model.XesWrite Model.XesRead Model.MxmlWrite Model.MxmlRead Model.FileNames Model.Files
  Spec.Typing Spec.Xes Spec.Mxml Spec.XmlNorm Spec.Survive Spec.OnDisk
  Proofs.XesLogFacts Proofs.MxmlRoundFacts Proofs.XmlTextFacts Proofs.XmlFileFacts Proofs.StatFacts Proofs.DiskFacts
  Props.P_Xes Props.P_XmlText.
Import ListNotations.

(** UTF-8, ISO 8859-1 and ASCII can be undone. *)
Theorem C70_encodings : lawful utf8 /\ lawful latin1 /\ lawful ascii.
Proof. exact (conj utf8_lawful (conj (below_lawful 256) (below_lawful 128))). Qed.
Print Assumptions C70_encodings.

(** Saving succeeds for logs with readable values and legal characters when the file is
    compressed or the encoding of text files is UTF-8, and touches no other file. *)
Theorem C70_save : forall (FIO : FloatIO) (GZ : Gzip) loc p l path d,
  In p [Xes; XesGzip] -> readable_log l -> keyed_log l ->
  (forall doc, xes_serialize l = Ok doc -> legal_tree doc = true) ->
  zipped p = true \/ loc = utf8 ->
  snd (save loc p l path d) = Ok tt.
Proof.
  intros FIO GZ loc p l path d P R K LT C. destruct (C40_xes_round_trip FIO (mk_mgr [] []) (fun u => Some u) N.of_nat l R K) as (doc & S & _).
  destruct (xes_file l doc S (LT doc S)) as (text & es & W & _).
  assert (T : serialize_text p l = Ok text).
  { destruct P as [<- | [<- | []]]; cbn [serialize_text]; rewrite S; cbn [bind]; now rewrite W. }
  destruct (save_ok loc p l path d text T C) as [b ->]. reflexivity.
Qed.
Print Assumptions C70_save.
(** The same for MXML. *)
Theorem C70_save_mxml : forall (FIO : FloatIO) (GZ : Gzip) loc p l path d doc,
  In p [Mxml; MxmlGzip] -> mxml_serialize l = Ok doc -> legal_tree doc = true -> zipped p = true \/ loc = utf8 ->
  snd (save loc p l path d) = Ok tt.
Proof. exact @save_mxml. Qed.
Print Assumptions C70_save_mxml.
(** It fails exactly when the text cannot be made or encoded. *)
Theorem C70_outcome : forall (FIO : FloatIO) (GZ : Gzip) loc p l path d, match snd (save loc p l path d) with
  | Ok _ => exists text b, serialize_text p l = Ok text /\ cd_enc (if zipped p then utf8 else loc) text = Some b
  | Raise e => serialize_text p l = Raise e
               \/ e = UnicodeError /\ exists text, serialize_text p l = Ok text /\ cd_enc (if zipped p then utf8 else loc) text = None
  end.
Proof. exact @save_outcome. Qed.
Print Assumptions C70_outcome.
(** What is saved is the serialized text: compressed, in UTF-8, for the two gzip formats, as
    it is and in the encoding of text files for the others. *)
Theorem C70_bytes : forall (FIO : FloatIO) (GZ : Gzip) loc p l path d d', save loc p l path d = (d', Ok tt) ->
  exists text b, serialize_text p l = Ok text /\ cd_enc (if zipped p then utf8 else loc) text = Some b
  /\ sget path d' = Some (on_disk p b).
Proof. exact @save_bytes. Qed.
Print Assumptions C70_bytes.
Theorem C70_other_files : forall (FIO : FloatIO) (GZ : Gzip) loc p l path d,
  only_at path d (fst (save loc p l path d)).
Proof. exact @save_other. Qed.
Print Assumptions C70_other_files.

(** A saved log is found by the universal parser, whatever the order of the registered
    parsers, if the name has the serializer's suffix and, for plain files, the encoding is
    the same as when it was written. *)
Theorem C70_xes : forall (FIO : FloatIO) (GZ : Gzip) mgr urlparse draw wr rd p ps l path d d',
  lawful_gzip GZ -> In p [Xes; XesGzip] -> zipped p = true \/ wr = rd /\ lawful wr ->
  can_parse p path = true -> NoDup ps -> In p ps ->
  readable_log l -> keyed_log l -> calm_log l -> save wr p l path d = (d', Ok tt) ->
  exists s r l', load mgr urlparse draw rd ps path d' = Ok (PXes s)
  /\ p_log s = Some r /\ log_in (p_heap s) r l' /\ stored mgr urlparse draw l l'
  /\ same_map mgr (lg_attrs l) (lg_attrs l') /\ Forall2 (same_trace mgr) (lg_traces l) (lg_traces l')
  /\ (Forall flat (lg_gtrace l) -> Forall2 (same_attr mgr) (lg_gtrace l) (lg_gtrace l'))
  /\ (Forall flat (lg_gevent l) -> Forall2 (same_attr mgr) (lg_gevent l) (lg_gevent l'))
  /\ (Forall (registered mgr) (lg_exts l) -> distinct_exts (lg_exts l) -> lg_exts l' = lg_exts l).
Proof.
  intros FIO GZ mgr urlparse draw wr rd p ps l path d d' LG P LC CP ND IN R K C SV.
  destruct (save_load mgr urlparse draw wr rd p ps l path d d' LG LC CP ND IN SV) as (text & T & LD).
  destruct (C40_xes_round_trip FIO mgr urlparse draw l R K) as (doc & S & B).
  assert (W : write_xml xes_comments doc = Some text).
  { destruct P as [<- | [<- | []]]; cbn [serialize_text] in T; rewrite S in T; cbn [bind] in T;
      destruct (write_xml xes_comments doc); congruence. }
  assert (LT : legal_tree doc = true).
  { destruct (legal_tree doc) eqn:LT; [reflexivity |]. rewrite (write_none _ _ LT) in W. discriminate. }
  destruct (B LT (C doc S)) as (text' & es & s & r & l' & W' & RD & X & PL & LI & REST).
  rewrite W in W'. injection W' as <-. exists s, r, l'. split.
  { rewrite LD. unfold parse_text. rewrite RD. destruct P as [<- | [<- | []]]; rewrite X; reflexivity. }
  split; [exact PL |]. split; [exact LI |]. split; [| exact REST].
  exists doc, text, es, s, r. auto 10.
Qed.
Print Assumptions C70_xes.

Theorem C70_mxml : forall (FIO : FloatIO) (GZ : Gzip) mgr urlparse draw wr rd p ps l path d d' doc,
  lawful_gzip GZ -> In p [Mxml; MxmlGzip] -> zipped p = true \/ wr = rd /\ lawful wr ->
  can_parse p path = true -> NoDup ps -> In p ps ->
  mxml_serialize l = Ok doc -> calm_tree doc = true -> save wr p l path d = (d', Ok tt) ->
  exists s m, load mgr urlparse draw rd ps path d' = Ok (PMxml s)
  /\ m_logs s = [m] /\ log_back (m_sources s) m l
  /\ Forall2 (fun t u => trace_back (mt_attrs t) u
                         /\ Forall2 (fun o e => exists ev, o = Some ev /\ event_back (ev_attrs ev) e) (mt_events t) (tr_events u))
             (ml_traces m) (filter (fun u => has_items (tr_events u)) (lg_traces l)).
Proof.
  intros FIO GZ mgr urlparse draw wr rd p ps l path d d' doc LG P LC CP ND IN S C SV.
  destruct (save_load mgr urlparse draw wr rd p ps l path d d' LG LC CP ND IN SV) as (text & T & LD).
  assert (W : write_xml mxml_comments doc = Some text).
  { destruct P as [<- | [<- | []]]; cbn [serialize_text] in T; rewrite S in T; cbn [bind] in T;
      destruct (write_xml mxml_comments doc); congruence. }
  assert (LT : legal_tree doc = true).
  { destruct (legal_tree doc) eqn:LT; [reflexivity |]. rewrite (write_none _ _ LT) in W. discriminate. }
  destruct (C40_mxml_round_trip FIO draw l doc S LT C) as (text' & es & s & m & W' & RD & X & REST).
  rewrite W in W'. injection W' as <-. exists s, m. split; [| exact REST].
  rewrite LD. unfold parse_text. rewrite RD. destruct P as [<- | [<- | []]]; rewrite X; reflexivity.
Qed.
Print Assumptions C70_mxml.

(** Such a case. *)
Definition all_parsers : list parser := [Xes; MxmlGzip; XesGzip; Mxml].
Example C70_example : 
  lawful_gzip store_only /\ NoDup all_parsers /\ can_parse XesGzip (py "a.xes.gz") = true
  /\ readable_log (FIO := no_floats) sample_log /\ keyed_log sample_log
  /\ snd (save (FIO := no_floats) ascii XesGzip sample_log (py "a.xes.gz") [(py "b", [1%N])]) = Ok tt
  /\ sget (py "b") (fst (save (FIO := no_floats) ascii XesGzip sample_log (py "a.xes.gz") [(py "b", [1%N])])) = Some [1%N].
Proof.
  split; [intros b; reflexivity |]. split; [repeat constructor; cbn; intuition discriminate |].
  split; [reflexivity |]. destruct sample_log_ok as [R K]. split; [exact R |]. split; [exact K |].
  split; vm_compute; reflexivity.
Qed.

(** Written in UTF-8 and read in another encoding, a log can be different. *)
Definition umlaut : xlog := mk_log [(py "k", mk_attr CLiteral (py "k") None (PStr [228%N]) [] [])] [] [] [] [] [] [].
Theorem C70_other_encoding_refuted : exists l d' s r l',
  @readable_log no_floats l /\ keyed_log l
  /\ save (FIO := no_floats) utf8 Xes l (py "a.xes") [] = (d', Ok tt)
  /\ load (FIO := no_floats) sample_mgr (fun u => Some u) N.of_nat latin1 all_parsers (py "a.xes") d' = Ok (PXes s)
  /\ p_log s = Some r /\ log_in (p_heap s) r l'
  /\ option_map a_val (sget (py "k") (lg_attrs l)) = Some (PStr [228%N])
  /\ option_map a_val (sget (py "k") (lg_attrs l')) = Some (PStr [195%N; 164%N]).
Proof.
  exists umlaut. eexists. eexists. exists 0%nat.
  exists (mk_log [(py "k", mk_attr CLiteral (py "k") None (PStr [195%N; 164%N]) [] [])] [] [] [] [] []
            (lg_features (mk_log [] [] [] [] [] [] [(py "xes.version", py "1.0"); (py "xes.features", py "nested-attributes"); (py "openxes.version", py "1.0RC7")]))).
  split. { repeat split; repeat constructor. }
  split. { split; [| constructor]. split.
    - split; [apply Forall_cons; [reflexivity | apply Forall_nil] | apply NoDup_cons; [intros [] | apply NoDup_nil]].
    - apply Forall_cons; [| apply Forall_nil].
      apply well_keyed_plain; [reflexivity | split; [apply Forall_nil | apply NoDup_nil] | apply Forall_nil]. }
  split; [vm_compute; reflexivity |]. split; [vm_compute; reflexivity |]. split; [reflexivity |].
  split; [| split; reflexivity].
  exists [(py "k", 1%nat)]. do 3 eexists. split; [reflexivity |].
  split; [| repeat constructor]. constructor; [| constructor]. split; [reflexivity |].
  econstructor; [reflexivity | constructor | constructor].
Qed.
Print Assumptions C70_other_encoding_refuted.

(** ** C71 *)

(** When the log cannot be serialized or encoded, the earlier content of the file is gone: the
    file is empty, or the compression of nothing, and cannot be parsed. *)
Theorem C71_failed_save : forall (FIO : FloatIO) (GZ : Gzip) mgr urlparse draw wr rd p ps l path d d' e,
  lawful_gzip GZ -> cd_dec rd [] = Some [] -> NoDup ps -> save wr p l path d = (d', Raise e) ->
  sget path d' = Some (on_disk p [])
  /\ only_at path d d'
  /\ (can_parse p path = true -> In p ps -> load mgr urlparse draw rd ps path d' = Raise PlainException).
Proof.
  intros FIO GZ mgr urlparse draw wr rd p ps l path d d' e LG LD ND S.
  destruct (save_fails mgr urlparse draw wr rd p ps l path d d' e LG LD ND S) as [A B].
  split; [exact A |]. split; [| exact B]. pose proof (save_other wr p l path d) as O. now rewrite S in O.
Qed.
Print Assumptions C71_failed_save.

(** Logs with a character XML has no place for, such as U+0000, are not serialized. *)
Theorem C71_illegal : forall (FIO : FloatIO) (GZ : Gzip) wr p l path d doc,
  (In p [Xes; XesGzip] /\ xes_serialize l = Ok doc \/ In p [Mxml; MxmlGzip] /\ mxml_serialize l = Ok doc) ->
  legal_tree doc = false ->
  snd (save wr p l path d) = Raise ExpatError.
Proof.
  intros FIO GZ wr p l path d doc H LT. unfold save.
  assert (serialize_text p l = Raise ExpatError) as ->; [| reflexivity].
  destruct H as [[[<- | [<- | []]] S] | [[<- | [<- | []]] S]]; cbn [serialize_text]; rewrite S; cbn [bind];
    now rewrite (write_none _ _ LT).
Qed.
Print Assumptions C71_illegal.

(** Loading raises FileNotFoundError if there is no such file, otherwise the exception that
    there is no parser, whatever is wrong with the content or the name. *)
Theorem C71_load : forall (FIO : FloatIO) (GZ : Gzip) mgr urlparse draw rd ps path d,
  match load mgr urlparse draw rd ps path d with
  | Ok _ => sget path d <> None /\ exists p, In p ps /\ can_parse p path = true
  | Raise e => e = match sget path d with Some _ => PlainException | None => OSError end
  end.
Proof. exact @load_outcome. Qed.
Print Assumptions C71_load.

(** A good file is lost to such a log; in an encoding without the character, too. *)
Definition nul : xlog := mk_log [(py "k", mk_attr CLiteral (py "k") None (PStr [0%N]) [] [])] [] [] [] [] [] [].
Example C71_example :
  let d := fst (save (FIO := no_floats) utf8 Xes umlaut (py "a.xes") []) in
  (exists s, load (FIO := no_floats) sample_mgr (fun u => Some u) N.of_nat utf8 all_parsers (py "a.xes") d = Ok s)
  /\ save (FIO := no_floats) utf8 Xes nul (py "a.xes") d = ([(py "a.xes", [])], Raise ExpatError)
  /\ save (FIO := no_floats) ascii Xes umlaut (py "a.xes") d = ([(py "a.xes", [])], Raise UnicodeError)
  /\ load (FIO := no_floats) sample_mgr (fun u => Some u) N.of_nat utf8 all_parsers (py "a.xes") [(py "a.xes", [])] = Raise PlainException
  /\ load (FIO := no_floats) sample_mgr (fun u => Some u) N.of_nat utf8 all_parsers (py "a.xes") [] = Raise OSError.
Proof.
  cbv zeta. split; [eexists; vm_compute; reflexivity |]. split; [vm_compute; reflexivity |].
  split; [vm_compute; reflexivity |]. split; vm_compute; reflexivity.
Qed.
