(** The written files: text, and what the two parsers make of it. *)
From Coq Require Import String NArith ZArith List Bool Lia.
From Verif Require Import Base.PyBase Base.PyVal Base.Xml Model.Attr Model.Log Model.XmlText Model.XmlChars
  Model.XesWrite Model.XesRead Model.MxmlWrite Model.MxmlRead Spec.XmlNorm Spec.Xes
  Proofs.BaseFacts Proofs.AttrInd Proofs.XesReadFacts Proofs.XesStackFacts Proofs.XesRoundFacts Proofs.MxmlRoundFacts Proofs.XmlScanFacts Proofs.XmlTextFacts.
Import ListNotations.

(** ** Handlers and pieces of text *)
Definition no_chars (e : sax) : bool := match e with SChars _ => false | _ => true end.
Lemma merge_silent es : filter no_chars (merge es) = filter no_chars es.
Proof.
  induction es as [|e es IH]; [reflexivity|]. destruct e as [t a|t|s]; cbn [merge filter no_chars]; try now rewrite IH.
  rewrite <- IH. destruct (merge es) as [|[] r]; cbn; destruct s; reflexivity.
Qed.
Section Handlers.
Context `{FIO : FloatIO}.
Lemma xes_run_silent mgr urlparse draw es : forall s, xes_run mgr urlparse draw es s = xes_run mgr urlparse draw (filter no_chars es) s.
Proof.
  induction es as [|e es IH]; intros s; [reflexivity|]. unfold xes_run in *. destruct e as [t a|t|c]; cbn [fold_res filter no_chars].
  - destruct (xes_step _ _ _ _ _); [apply IH|reflexivity].
  - destruct (xes_step _ _ _ _ _); [apply IH|reflexivity].
  - cbn [xes_step]. apply IH.
Qed.
Lemma xes_same_calls mgr urlparse draw es es' s : same_calls es es' -> xes_run mgr urlparse draw es s = xes_run mgr urlparse draw es' s.
Proof. intros H. rewrite (xes_run_silent mgr urlparse draw es), (xes_run_silent mgr urlparse draw es'), <- (merge_silent es), <- (merge_silent es'), H. reflexivity. Qed.
End Handlers.
Lemma mx_run_merge draw es : forall s, mx_run draw (merge es) s = mx_run draw es s.
Proof.
  unfold mx_run. induction es as [|e es IH]; intros s; [reflexivity|]. destruct e as [t a|t|c]; cbn [merge fold_res].
  - destruct (mx_step _ _ _); [apply IH|reflexivity].
  - destruct (mx_step _ _ _); [apply IH|reflexivity].
  - cbn [mx_step]. rewrite <- IH. destruct (merge es) as [|[t a|t|c'] r]; cbn [fold_res mx_step].
    + destruct c; cbn; [rewrite app_nil_r; destruct s; reflexivity|reflexivity].
    + destruct c; cbn [fold_res mx_step]; [rewrite app_nil_r; destruct s; reflexivity|reflexivity].
    + destruct c; cbn [fold_res mx_step]; [rewrite app_nil_r; destruct s; reflexivity|reflexivity].
    + now rewrite app_assoc.
Qed.
Lemma mx_same_calls draw es es' s : same_calls es es' -> mx_run draw es s = mx_run draw es' s.
Proof. intros H. rewrite <- (mx_run_merge draw es), <- (mx_run_merge draw es'), H. reflexivity. Qed.

Lemma splice_pretty x : forall d, splice (pretty d x) = splice x.
Proof.
  induction x as [t a kids IH|s] using xnode_ind2; intros d; [|reflexivity].
  assert (K : flat_map splice (pkids d kids) = flat_map splice kids).
  { unfold pkids. assert (S : flat_map splice (spread d kids) = flat_map splice kids).
    { unfold spread. rewrite flat_map_app. cbn [flat_map splice newline]. rewrite !app_nil_r.
      clear -IH. induction IH as [|x l HX IH IHl]; [reflexivity|]. cbn [flat_map app splice newline]. now rewrite HX, IHl. }
    destruct kids as [|[t1 a1 k1|s1] [|y l]]; try reflexivity; exact S. }
  rewrite pretty_elem. cbn [splice]. rewrite K. reflexivity.
Qed.

(** ** The serializers' trees *)
Definition neat (x : xnode) : Prop := shaped x = true /\ is_text x = false.
Lemma neat_apart l : Forall neat l -> apart l = true.
Proof.
  induction 1 as [|x l [_ HX] F IH]; [reflexivity|]. destruct l as [|y l]; [reflexivity|].
  change (negb (is_text x && is_text y) && apart (y :: l) = true). now rewrite HX, IH.
Qed.
Lemma neat_elem t a l : simple_name t = true -> forallb (fun kv => simple_name (fst kv)) a = true -> distinct (map fst a) = true ->
  Forall neat l -> neat (XElem t a l).
Proof.
  intros H1 H2 H3 H. split; [|reflexivity]. cbn [shaped]. rewrite H1, H2, H3, (neat_apart l H). cbn [andb].
  apply forallb_Forall. revert H. apply Forall_impl. now intros x [].
Qed.
Lemma neat_res {A} (f : A -> res xnode) l : (forall x y, In x l -> f x = Ok y -> neat y) -> forall ys, map_res f l = Ok ys -> Forall neat ys.
Proof.
  induction l as [|x l IH]; intros H ys E; cbn in E.
  - injection E as <-. constructor.
  - destruct (f x) as [y|] eqn:EX; [|discriminate]. destruct (map_res f l) as [zs|] eqn:EL; [|discriminate]. injection E as <-.
    constructor; [apply (H x); [now left|exact EX]|]. apply IH; [|reflexivity]. intros a b HA. apply H. now right.
Qed.
Section Trees.
Context `{FIO : FloatIO}.
Lemma tag_simple c : simple_name (xes_tag c) = true. Proof. destruct c; reflexivity. Qed.
Lemma write_neat a : forall x, write_attr a = Ok x -> neat x.
Proof.
  induction a as [c k e v coll meta IHc IHm] using attr_ind2. intros x. rewrite write_attr_eq.
  rewrite Forall_forall in IHc, IHm. destruct (is_collection c).
  - destruct (map_res write_attr coll) as [ns|] eqn:E; [|discriminate]. cbn [bind]. intros Q. injection Q as <-.
    apply neat_elem; [apply tag_simple|reflexivity|reflexivity|]. eapply neat_res; [|exact E]. intros y z HY. now apply IHc.
  - destruct (attr_str _) as [s|]; [|discriminate]. cbn [bind]. destruct (map_res write_attr (map snd meta)) as [ns|] eqn:E; [|discriminate]. cbn [bind].
    intros Q. injection Q as <-. apply neat_elem; [apply tag_simple|reflexivity|reflexivity|].
    eapply neat_res; [|exact E]. intros y z HY. apply in_map_iff in HY. destruct HY as (kv & <- & HK). now apply IHm.
Qed.
Lemma attributes_neat l xs : add_attributes l = Ok xs -> Forall neat xs.
Proof. apply neat_res. intros x y _. apply write_neat. Qed.
Lemma globals_neat s l xs : add_global_attributes s l = Ok xs -> Forall neat xs.
Proof.
  unfold add_global_attributes. destruct l as [|a l]; [intros Q; injection Q as <-; constructor|].
  destruct (add_attributes (a :: l)) as [ns|] eqn:E; [|discriminate]. cbn [bind]. intros Q. injection Q as <-.
  constructor; [|constructor]. apply neat_elem; try reflexivity. now apply (attributes_neat _ _ E).
Qed.
Lemma xes_neat l doc : xes_serialize l = Ok doc -> neat doc.
Proof.
  unfold xes_serialize. destruct (add_global_attributes (py "trace") _) as [gt|] eqn:E1; [|discriminate].
  destruct (add_global_attributes (py "event") _) as [ge|] eqn:E2; [|discriminate].
  destruct (add_attributes _) as [ns|] eqn:E3; [|discriminate]. destruct (map_res write_trace _) as [ts|] eqn:E4; [|discriminate].
  cbn [bind]. intros Q. injection Q as <-. apply neat_elem; try reflexivity.
  rewrite !Forall_app. repeat split.
  - apply Forall_forall. intros x HX. apply in_map_iff in HX. destruct HX as (e & <- & _). apply neat_elem; try reflexivity. constructor.
  - now apply (globals_neat _ _ _ E1).
  - now apply (globals_neat _ _ _ E2).
  - apply Forall_forall. intros x HX. apply in_map_iff in HX. destruct HX as (e & <- & _). apply neat_elem; try reflexivity. constructor.
  - now apply (attributes_neat _ _ E3).
  - eapply neat_res; [|exact E4]. intros t y _. unfold write_trace.
    destruct (add_attributes (map snd (tr_attrs t))) as [as_|] eqn:EA; cbn [bind]; [|intros Q; discriminate Q].
    destruct (map_res write_event (tr_events t)) as [es|] eqn:EE; cbn [bind]; intros Q; [|discriminate Q]. injection Q as <-. apply neat_elem; try reflexivity. apply Forall_app. split; [now apply (attributes_neat _ _ EA)|].
    eapply neat_res; [|exact EE]. intros e z _. unfold write_event. destruct (add_attributes (map snd (ev_attrs e))) as [bs|] eqn:EB; [|discriminate].
    cbn [bind]. intros Q. injection Q as <-. apply neat_elem; try reflexivity. now apply (attributes_neat _ _ EB).
Qed.

(** Element trees before their values are known to be texts. *)
Fixpoint tame (x : enode) : bool :=
  match x with
  | EElem t a _ kids => simple_name t && forallb (fun kv => simple_name (fst kv)) a && distinct (map fst a) && forallb tame kids
  end.
Lemma tame_neat : forall x y, tame x = true -> et_tree x = Ok y -> neat y.
Proof.
  fix self 1. intros [t a text kids] y HT HE.
  destruct (et_elem _ _ _ _ _ HE) as (a' & s & ns & HA & HS & HN & ->). clear HE.
  cbn [tame] in HT. rewrite !andb_true_iff in HT. destruct HT as [[[H1 H2] H3] H4].
  assert (KA : map fst a' = map fst a).
  { clear -HA. revert a' HA. induction a as [|[k v] a IH]; intros a' HA; cbn in HA; [now injection HA as <-|].
    destruct v; try discriminate. cbn in HA. destruct (map_res et_attribute a) as [a2|] eqn:E; [|discriminate]. injection HA as <-. cbn. f_equal. now apply IH. }
  assert (NK : Forall neat ns).
  { clear -self H4 HN. revert ns HN. induction kids as [|x kids IH]; intros ns HN; cbn in HN; [injection HN as <-; constructor|].
    cbn in H4. apply andb_prop in H4. destruct H4 as [H4 H5]. destruct (et_tree x) as [n|] eqn:EX; [|discriminate].
    destruct (map_res et_tree kids) as [ms|] eqn:EM; [|discriminate]. injection HN as <-. constructor; [exact (self x n H4 EX)|]. now apply IH. }
  assert (AN : forallb (fun kv => simple_name (fst kv)) a' = true).
  { rewrite <- (forallb_map' simple_name fst a'), KA. rewrite (forallb_map' simple_name fst a). exact H2. }
  split; [|reflexivity]. cbn [shaped]. rewrite H1, AN, KA, H3. cbn [andb].
  assert (SN : forallb shaped ns = true) by (apply forallb_Forall; revert NK; apply Forall_impl; now intros x []).
  unfold et_text in HS. destruct (truthy text) eqn:TT; [|injection HS as <-; cbn [app]; now rewrite (neat_apart ns NK), SN].
  destruct text; try discriminate. injection HS as <-. cbn [app forallb shaped]. rewrite SN.
  assert (NE : s0 <> []) by (intros ->; discriminate). destruct s0 as [|c0 s0]; [contradiction|]. rewrite !andb_true_r.
  pose proof (neat_apart ns NK) as AP. destruct NK as [|y ns' [_ HY] _]; [reflexivity|].
  change (negb (true && is_text y) && apart (y :: ns') = true). now rewrite HY, AP.
Qed.

Lemma reference_keys m r : reference_atts m = Ok r -> r = [] \/ exists v, r = [(py "modelReference", v)].
Proof.
  unfold reference_atts. destruct (sget _ m) as [a|]; [|intros Q; injection Q as <-; now left].
  destruct (get_value a); [|discriminate]. cbn [bind]. intros Q. injection Q as <-. right. eauto.
Qed.
Ltac take x E := destruct x as [?|?] eqn:E; cbn [bind]; [|intros Q; discriminate Q].
Lemma data_tame m n : add_data m = Ok n -> tame n = true.
Proof.
  unfold add_data. destruct (map_res data_entry (map snd m)) as [ns|] eqn:E; cbn [bind]; [|discriminate]. intros Q. injection Q as <-.
  cbn [tame forallb map distinct]. change (simple_name (py "Data")) with true. cbn [andb].
  revert ns E. induction (map snd m) as [|a l IH]; intros ns E; cbn in E; [injection E as <-; reflexivity|].
  destruct (data_entry a) as [x|] eqn:EX; [|discriminate]. destruct (map_res data_entry l) as [xs|] eqn:EL; [|discriminate]. injection E as <-.
  cbn [List.concat]. rewrite forallb_app, (IH xs eq_refl), andb_true_r. clear -EX. unfold data_entry in EX.
  destruct (str_eqb _ _); [|now injection EX as <-]. destruct (reference_atts (a_meta a)) as [r|] eqn:ER; [|discriminate]. cbn [bind] in EX.
  destruct (attr_str a); [|discriminate]. cbn [bind] in EX. destruct (a_meta a) eqn:EM; [|discriminate]. injection EX as <-.
  destruct (reference_keys _ _ ER) as [->|[v ->]]; reflexivity.
Qed.
Lemma tame_res {A} (f : A -> res enode) l : (forall x y, f x = Ok y -> tame y = true) -> forall ys, map_res f l = Ok ys -> forallb tame ys = true.
Proof.
  intros H. induction l as [|x l IH]; intros ys E; cbn in E; [now injection E as <-|].
  destruct (f x) as [y|] eqn:EX; [|discriminate]. destruct (map_res f l) as [zs|] eqn:EL; [|discriminate]. injection E as <-.
  cbn. now rewrite (H x y EX), (IH zs eq_refl).
Qed.
Lemma event_tame e n : mwrite_event e = Ok n -> tame n = true.
Proof.
  unfold mwrite_event. destruct (add_data (ev_attrs e)) as [d|] eqn:ED; cbn [bind]; [|intros Q; discriminate Q].
  destruct (reference_atts (ev_attrs e)) as [r|] eqn:ER; cbn [bind]; [|intros Q; discriminate Q].
  destruct (extract_name (ev_attrs e)) as [nm|]; cbn [bind]; [|intros Q; discriminate Q].
  destruct (write_type (ev_attrs e)) as [t|] eqn:ET; cbn [bind]; [|intros Q; discriminate Q].
  destruct (write_originator (ev_attrs e)) as [o|] eqn:EO; cbn [bind]; [|intros Q; discriminate Q].
  destruct (write_timestamp (ev_attrs e)) as [w|] eqn:EW; cbn [bind]; [|intros Q; discriminate Q].
  intros Q. injection Q as <-.
  assert (T1 : tame (EElem (py "WorkflowModelElement") r nm []) = true) by (destruct (reference_keys _ _ ER) as [->|[v ->]]; reflexivity).
  assert (T2 : tame t = true).
  { clear -ET. unfold write_type in ET. destruct (sget _ _) as [a|]; [|now injection ET as <-].
    destruct (reference_atts (a_meta a)) as [r|] eqn:ER; [|discriminate]. cbn [bind] in ET. destruct (get_value a) as [v|]; [|discriminate]. cbn [bind] in ET.
    destruct v; try discriminate. destruct (existsb _ _); injection ET as <-; destruct (reference_keys _ _ ER) as [->|[v ->]]; reflexivity. }
  assert (T3 : forallb tame o = true).
  { clear -EO. unfold write_originator in EO. destruct (originator_attr _) as [a|]; [|now injection EO as <-].
    destruct (reference_atts (a_meta a)) as [r|] eqn:ER; [|discriminate]. cbn [bind] in EO. destruct (get_value a) as [v|]; [|discriminate]. injection EO as <-.
    destruct (reference_keys _ _ ER) as [->|[v' ->]]; reflexivity. }
  assert (T4 : forallb tame w = true).
  { clear -EW. unfold write_timestamp in EW. destruct (sget _ _) as [a|]; [|now injection EW as <-].
    destruct (reference_atts (a_meta a)) as [r|] eqn:ER; [|discriminate]. cbn [bind] in EW. destruct (get_value a) as [v|]; [|discriminate]. injection EW as <-.
    destruct (reference_keys _ _ ER) as [->|[v' ->]]; reflexivity. }
  cbn [tame]. change (simple_name (py "AuditTrailEntry")) with true. cbn [forallb map distinct andb].
  rewrite (data_tame _ _ ED), T1, T2, forallb_app, T3, T4. reflexivity.
Qed.
Lemma trace_tame t n : mwrite_trace t = Ok n -> tame n = true.
Proof.
  unfold mwrite_trace. destruct (extract_name (tr_attrs t)) as [nm|]; cbn [bind]; [|intros Q; discriminate Q].
  destruct (prefixed _ _) as [tx|]; cbn [bind]; [|intros Q; discriminate Q].
  destruct (reference_atts (tr_attrs t)) as [r|] eqn:ER; cbn [bind]; [|intros Q; discriminate Q].
  destruct (add_data (tr_attrs t)) as [d|] eqn:ED; cbn [bind]; [|intros Q; discriminate Q].
  destruct (map_res mwrite_event (tr_events t)) as [es|] eqn:EE; cbn [bind]; [|intros Q; discriminate Q].
  intros Q. injection Q as <-. cbn [tame forallb]. rewrite (data_tame _ _ ED), (tame_res _ _ event_tame _ EE).
  destruct (reference_keys _ _ ER) as [->|[v ->]]; reflexivity.
Qed.
Lemma mxml_neat l doc : mxml_serialize l = Ok doc -> neat doc.
Proof.
  unfold mxml_serialize. destruct (mwrite_log l) as [x|] eqn:E; [|discriminate]. cbn [bind]. apply tame_neat. revert E.
  unfold mwrite_log. destruct (extract_name (lg_attrs l)) as [nm|]; cbn [bind]; [|intros Q; discriminate Q].
  destruct (prefixed _ _) as [tx|]; cbn [bind]; [|intros Q; discriminate Q].
  destruct (reference_atts (lg_attrs l)) as [r|] eqn:ER; cbn [bind]; [|intros Q; discriminate Q].
  destruct (add_data (lg_attrs l)) as [d|] eqn:ED; cbn [bind]; [|intros Q; discriminate Q].
  destruct (map_res mwrite_trace (lg_traces l)) as [es|] eqn:EE; cbn [bind]; [|intros Q; discriminate Q].
  intros Q. injection Q as <-. cbn [tame forallb]. rewrite (data_tame _ _ ED), (tame_res _ _ trace_tame _ EE).
  destruct (reference_keys _ _ ER) as [->|[v ->]]; reflexivity.
Qed.
End Trees.

(** ** Whole files *)
Lemma file_calls cs doc : In cs [xes_comments; mxml_comments] -> shaped doc = true -> is_text doc = false -> legal_tree doc = true ->
  exists text es, write_xml cs doc = Some text /\ read_xml text = Some es /\ same_calls es (sax_of (pretty 0 (normal doc))).
Proof.
  intros HC HS HT HL. destruct doc as [t a kids|s]; [|discriminate].
  assert (FC : fine_comments cs) by (destruct HC as [<-|[<-|[]]]; apply comments_fine).
  do 2 eexists. split; [now apply write_some|]. split; [now apply read_dom|apply sax1_same].
Qed.
Lemma xes_file `{FIO : FloatIO} l doc : xes_serialize l = Ok doc -> legal_tree doc = true ->
  exists text es, write_xml xes_comments doc = Some text /\ read_xml text = Some es
  /\ forall mgr urlparse draw, xes_run mgr urlparse draw es ps_init = xes_parse mgr urlparse draw (normal doc).
Proof.
  intros HE HL. destruct (xes_neat l doc HE) as [HS HT].
  destruct (file_calls xes_comments doc) as (text & es & HW & HR & HC); auto; [now left|]. exists text, es. split; [exact HW|split; [exact HR|]].
  intros mgr urlparse draw. rewrite (xes_same_calls mgr urlparse draw _ _ _ HC). apply splice_parse. apply splice_pretty.
Qed.
Lemma mxml_file `{FIO : FloatIO} l doc : mxml_serialize l = Ok doc -> legal_tree doc = true ->
  exists text es, write_xml mxml_comments doc = Some text /\ read_xml text = Some es
  /\ forall draw, mx_run draw es ms_init = mxml_parse draw (pretty 0 (normal doc)).
Proof.
  intros HE HL. destruct (mxml_neat l doc HE) as [HS HT].
  destruct (file_calls mxml_comments doc) as (text & es & HW & HR & HC); auto; [right; now left|]. exists text, es. split; [exact HW|split; [exact HR|]].
  intros draw. exact (mx_same_calls draw _ _ _ HC).
Qed.
