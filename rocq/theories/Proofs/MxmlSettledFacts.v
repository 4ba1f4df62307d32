(** Writing a log to MXML and reading it again and again. *)
From Coq Require Import String NArith ZArith List Bool Arith Lia.
From Verif Require Import Base.PyBase Base.PyDate Base.PyVal Base.Xml Model.Attr Model.DateConv Model.Log
  Model.Token Model.StdExt Model.XmlText Model.MxmlRead Model.MxmlWrite Spec.Xes Spec.Mxml Spec.Settled Spec.MxmlSettled
  Proofs.BaseFacts Proofs.XesReadFacts Proofs.MxmlFacts Proofs.MxmlLogFacts Proofs.MxmlPlaceFacts Proofs.MxmlRoundFacts.
Import ListNotations.

Section Settled.
Context `{FIO : FloatIO}.

(** ** What is read, as functions *)

Definition type_back (m : sdict attr) : pystr :=
  match text_of "lifecycle:transition" m with
  | None => py "complete"
  | Some s => if existsb (str_eqb (lower (strip s))) known_types then lower (strip s) else py "unknown"
  end.
Definition fields (m : sdict attr) : list attr := ref_list m ++ name_back m ++ [transition_attr (type_back m) (meta_back m)].
Lemma fields_are m l : fields_back m l -> l = fields m.
Proof.
  intros (t & -> & B). unfold fields, type_back. repeat f_equal. unfold transition_back in B.
  destruct (text_of _ m) as [s|]; [|exact B]. destruct (existsb _ _) eqn:E.
  - apply known_spec in E. now destruct B as [[_ ->]|[K _]].
  - destruct B as [[K _]|[_ ->]]; [|reflexivity]. apply known_spec in K. now rewrite K in E.
Qed.

Definition described (pre : string) (id text : pystr) (m : sdict attr) : list attr :=
  name_of id ++ [text_attr (py "description") None (py pre ++ text) []] ++ ref_list m.
Definition tname (m : sdict attr) : pystr := or_none "None" (text_of "concept:name" m).
Definition tfields (m : sdict attr) : list attr := described "instance with id " (tname m) (tname m) m.
Definition lfields (m : sdict attr) : list attr :=
  [source_attr source_atts []] ++ name_of (or_none "none" (text_of "concept:name" m)) ++ [model_attr (py "standard")]
  ++ [text_attr (py "description") None (py "process with id " ++ tname m) []] ++ ref_list m.
Definition after (t : sdict attr * list (sdict attr)) : sdict attr * list (sdict attr) :=
  (index (tfields (fst t)), map (fun e => index (fields e)) (snd t)).
Definition full (t : trace) : bool := has_items (tr_events t).

Lemma numbered draw es : forall n, map ev_attrs (number_events draw n es) = es.
Proof. induction es as [|e es IH]; intros n; cbn; [reflexivity|]. now rewrite IH. Qed.
Lemma rel_after draw ts is : Forall2 trace_rel ts is -> forall n,
  map but_ids (instance_traces draw n is) = map after (map but_ids ts).
Proof.
  induction 1 as [|t i ts is (ls & -> & F) R IH]; intros n; [reflexivity|]. cbn [instance_traces map]. rewrite IH. f_equal.
  unfold but_ids, instance_trace, after. cbn [tr_attrs tr_events fst snd]. rewrite numbered. unfold entries. cbn [snd].
  rewrite rights_inr, after_inr, app_nil_r. f_equal.
  - pose proof (head_own (tname (tr_attrs t)) (py "instance with id " ++ tname (tr_attrs t)) (tr_attrs t) (instance_text_nonblank _)) as E.
    unfold own_attrs in E. unfold trace_atts. fold (tname (tr_attrs t)). unfold tfields, described. now rewrite <- E.
  - rewrite !map_map. clear IH R. induction F as [|e l es ls H F IH]; [reflexivity|]. cbn [map]. rewrite IH. f_equal. f_equal. now apply fields_are.
Qed.
Lemma log_is_one sources m a b : log_is sources m a -> log_is sources m b -> a = b.
Proof.
  intros (A1 & A2 & A3 & A4 & A5 & A6 & A7) (B1 & B2 & B3 & B4 & B5 & B6 & B7).
  destruct a as [aa at_ ae ac agt age af], b as [ba bt be bc bgt bge bf]. cbn in *. f_equal; try congruence.
  - revert ba B1. clear - A1. induction A1 as [|[k r] [k1 x1] l1 l2 [E R] F IH]; intros l3 H; inversion H as [|? [k3 x3] ? ? [E3 R3] F3]; subst; [reflexivity|].
    cbn in *. f_equal; [|now apply IH]. subst. f_equal. destruct r; cbn in *; congruence.
  - revert bt B2. clear - A2. induction A2 as [|t u l1 l2 [E R] F IH]; intros l3 H; inversion H as [|? u' ? ? [E3 R3] F3]; subst; [reflexivity|].
    f_equal; [|now apply IH]. destruct u as [ua ue], u' as [va ve]. cbn in *. f_equal; [congruence|].
    rewrite R in R3. clear - R3. revert ve R3. induction ue as [|x ue IH]; intros [|y ve] E; cbn in E; try discriminate; [reflexivity|].
    injection E as -> E. f_equal. auto.
Qed.

Lemma reload_shape draw l l1 : reloaded draw l l1 ->
  lg_attrs l1 = index (lfields (lg_attrs l))
  /\ map but_ids (lg_traces l1) = map after (map but_ids (filter full (lg_traces l)))
  /\ lg_exts l1 = [ext_concept; ext_org; ext_lifecycle; ext_semantic; ext_time]
  /\ lg_classifiers l1 = mxml_classifiers
  /\ lg_gtrace l1 = [name_attr (py "UNKNOWN")]
  /\ lg_gevent l1 = [name_attr (py "UNKNOWN"); transition_attr (py "complete") []]
  /\ lg_features l1 = [].
Proof.
  intros (doc & s & m & S & R & M & L). destruct (log_elem_back l doc S) as (T & is & I & F).
  rewrite <- (document_pretty doc 0 T) in I.
  destruct (mxml_reads draw (pretty 0 doc) (item_logs draw 0 None [DSource source_atts []; DProcess (log_atts l) (map inr is)])) as (s' & R' & G).
  { unfold mxml_logs. now rewrite I. }
  rewrite R in R'. injection R' as <-. rewrite M in G. cbn [item_logs to_source] in G.
  inversion G as [|? u ? ? L' _ E1 E2]; subst. pose proof (log_is_one _ _ _ _ L L') as ->. clear L L' G.
  destruct (rel_astray _ _ F) as (As & D & _). unfold process_log. cbn [lg_attrs lg_traces lg_exts lg_classifiers lg_gtrace lg_gevent lg_features].
  split; [|split; [|repeat split]].
  - pose proof (back_log_list l is F) as B. unfold log_list in B. cbn [pr_source pr_atts pr_items option_map fst snd opt_list] in B.
    rewrite As. cbn [app opt_list]. cbn [app] in B. unfold lfields, tname. cbn [app]. now rewrite <- B.
  - exact (rel_after draw _ _ (rel_kept _ _ F) 0).
Qed.

Lemma reload_exists draw l : (exists doc, mxml_serialize l = Ok doc) -> exists l1, reloaded draw l l1.
Proof.
  intros (doc & S). destruct (log_elem_back l doc S) as (T & is & I & F).
  rewrite <- (document_pretty doc 0 T) in I.
  destruct (mxml_reads draw (pretty 0 doc) (item_logs draw 0 None [DSource source_atts []; DProcess (log_atts l) (map inr is)])) as (s' & R' & G).
  { unfold mxml_logs. now rewrite I. }
  cbn [item_logs to_source] in G. inversion G as [|m u ? ? L' H E1 E2]; subst. inversion H; subst.
  eexists. exists doc, s', m. repeat split; [exact S|exact R'|now symmetry|exact (proj1 L')|apply L'..].
Qed.

(** ** The second time *)

Lemma text_index k l : text_of k (index l) = match last_with (py k) l with Some a => match a_val a with PStr s => Some s | _ => None end | None => None end.
Proof. unfold text_of. now rewrite sget_index. Qed.
Lemma trimmed_again s : opt_bind (trimmed_text s) trimmed_text = trimmed_text s.
Proof.
  unfold trimmed_text. destruct (strip s) as [|c r] eqn:E; [reflexivity|]. cbn [opt_bind]. rewrite <- E, strip_idem. now rewrite E.
Qed.
Lemma nonempty_again s : nonempty_text (nonempty_text s) = nonempty_text s.
Proof. destruct s as [[|c s]|]; reflexivity. Qed.

Lemma ref_index l m : text_of "semantic:modelReference" (index l) = nonempty_text (text_of "semantic:modelReference" m) ->
  ref_list (index l) = ref_list m.
Proof. intros E. unfold ref_list. now rewrite E, nonempty_again. Qed.
Lemma ref_meta m : ref_list (index (ref_list m)) = ref_list m.
Proof. apply ref_index. unfold ref_list. rewrite text_index. now destruct (nonempty_text _). Qed.

Lemma type_back_again m l : text_of "lifecycle:transition" l = Some (type_back m) -> type_back l = type_back m.
Proof.
  intros E. unfold type_back at 1. rewrite E. unfold type_back. destruct (text_of _ m) as [s|]; [|reflexivity].
  destruct (existsb (str_eqb (lower (strip s))) known_types) eqn:K; [|reflexivity].
  pose proof K as K'. apply known_spec in K. unfold known_transition in K. cbn [In] in K.
  repeat (destruct K as [<-|K]; [reflexivity|]). destruct K.
Qed.
Lemma fields_again m : fields (index (fields m)) = fields m.
Proof.
  assert (T : last_with (py "lifecycle:transition") (fields m) = Some (transition_attr (type_back m) (meta_back m))).
  { unfold fields. rewrite !last_app. reflexivity. }
  set (g := index (fields m)). transitivity (ref_list g ++ name_back g ++ [transition_attr (type_back g) (meta_back g)]); [reflexivity|].
  change (fields m) with (ref_list m ++ name_back m ++ [transition_attr (type_back m) (meta_back m)]). unfold g.
  f_equal; [|f_equal; [|f_equal; unfold transition_attr; f_equal]].
  - apply ref_index. rewrite text_index. unfold fields. rewrite !last_app. unfold ref_list, name_back.
    destruct (nonempty_text _), (opt_bind _ _); reflexivity.
  - unfold name_back at 1. rewrite text_index. unfold fields. rewrite !last_app. unfold name_back, ref_list.
    change (last_with (py "concept:name") [transition_attr (type_back m) (meta_back m)]) with (@None attr).
    destruct (text_of "concept:name" m) as [s|]; cbn [opt_bind]; [|destruct (nonempty_text _); reflexivity].
    pose proof (trimmed_again s) as A. destruct (trimmed_text s) as [u|]; [|destruct (nonempty_text _); reflexivity].
    cbn [opt_bind] in A. change (last_with (py "concept:name") [name_attr u]) with (Some (name_attr u)). cbn. now rewrite A.
  - apply type_back_again. rewrite text_index, T. reflexivity.
  - unfold meta_back at 1. rewrite sget_index, T. cbn [a_meta transition_attr text_attr]. unfold meta_back.
    destruct (sget _ m); [|reflexivity]. now rewrite ref_meta.
Qed.

(** Names. *)
Lemma blank_name n : blank n = false -> nonblank_text (Some n) = Some n.
Proof. cbn. now intros ->. Qed.
Lemma tname_index pre id text m : text_of "concept:name" (index (described pre id text m)) = nonblank_text (Some id).
Proof.
  rewrite text_index. unfold described. rewrite !last_app. unfold ref_list, name_of. cbn [nonblank_text].
  destruct (nonempty_text _), (blank id); reflexivity.
Qed.
Lemma described_ref pre id text m : ref_list (index (described pre id text m)) = ref_list m.
Proof.
  apply ref_index. rewrite text_index. unfold described. rewrite !last_app. unfold ref_list, name_of.
  destruct (nonempty_text _), (blank id); reflexivity.
Qed.
Lemma tfields_again m : (forall n, text_of "concept:name" m = Some n -> blank n = false) -> tfields (index (tfields m)) = tfields m.
Proof.
  intros H. assert (B : blank (tname m) = false).
  { unfold tname. destruct (text_of _ m) as [n|]; [now apply H|reflexivity]. }
  assert (E : tname (index (tfields m)) = tname m).
  { unfold tname at 1. unfold tfields. rewrite tname_index, (blank_name _ B). reflexivity. }
  unfold tfields at 1. rewrite E. unfold described at 1. unfold tfields at 1. rewrite described_ref. reflexivity.
Qed.
Lemma lname m : text_of "concept:name" (index (lfields m)) = nonblank_text (Some (or_none "none" (text_of "concept:name" m))).
Proof.
  rewrite text_index. unfold lfields. rewrite !last_app. unfold ref_list, name_of. cbn [nonblank_text].
  destruct (nonempty_text _), (blank _); reflexivity.
Qed.
Lemma lref m : ref_list (index (lfields m)) = ref_list m.
Proof.
  apply ref_index. rewrite text_index. unfold lfields. rewrite !last_app. unfold ref_list, name_of.
  destruct (nonempty_text _), (blank _); reflexivity.
Qed.
Lemma lfields_again m n : text_of "concept:name" m = Some n -> blank n = false -> lfields (index (lfields m)) = lfields m.
Proof.
  intros E B. pose proof (lname m) as L. rewrite E in L. cbn [or_none] in L. rewrite (blank_name _ B) in L.
  unfold lfields at 1. rewrite lref. unfold tname. rewrite L. unfold lfields, tname. rewrite E. reflexivity.
Qed.

(** ** All of the log *)

Lemma full_ids t : full t = has_items (snd (but_ids t)).
Proof. unfold full, but_ids. cbn [snd]. now destruct (tr_events t). Qed.
Lemma filter_ids ts : map but_ids (filter full ts) = filter (fun p => has_items (snd p)) (map but_ids ts).
Proof. induction ts as [|t ts IH]; [reflexivity|]. cbn [filter map]. rewrite full_ids, <- IH. now destruct (has_items _). Qed.
Lemma after_full p : has_items (snd (after p)) = has_items (snd p).
Proof. unfold after. cbn [snd]. now destruct (snd p). Qed.
Lemma filter_after ps : Forall (fun p : sdict attr * list (sdict attr) => has_items (snd p) = true) ps -> filter (fun p => has_items (snd p)) (map after ps) = map after ps.
Proof. induction 1 as [|p ps H F IH]; [reflexivity|]. cbn [map filter]. now rewrite after_full, H, IH. Qed.
Lemma filtered ts : Forall (fun p : sdict attr * list (sdict attr) => has_items (snd p) = true) (map but_ids (filter full ts)).
Proof. rewrite filter_ids. apply Forall_forall. intros p I. now apply filter_In in I as [_ I]. Qed.

Lemma reload_twice draw draw2 l l1 l2 : reloaded draw l l1 -> reloaded draw2 l1 l2 ->
  map but_ids (lg_traces l2) = map after (map but_ids (lg_traces l1)).
Proof.
  intros A B. apply reload_shape in A as (_ & A & _). apply reload_shape in B as (_ & B & _).
  rewrite B, filter_ids, A, filter_after by apply filtered. reflexivity.
Qed.
Lemma reload_events draw draw2 l l1 l2 : reloaded draw l l1 -> reloaded draw2 l1 l2 -> event_maps l2 = event_maps l1.
Proof.
  intros A B. pose proof (reload_twice _ _ _ _ _ A B) as E. apply reload_shape in A as (_ & A & _).
  assert (X : forall l, event_maps l = map snd (map but_ids (lg_traces l))) by (intros k; unfold event_maps; now rewrite map_map).
  rewrite !X, E, A, !map_map. apply map_ext. intros t. unfold after, but_ids. cbn [fst snd]. rewrite !map_map. apply map_ext.
  intros e. now rewrite fields_again.
Qed.
Lemma reload_same draw draw2 l l1 l2 : lasting l -> reloaded draw l l1 -> reloaded draw2 l1 l2 -> same_but_ids l1 l2.
Proof.
  intros [(n & N & B) T] R1 R2. pose proof (reload_twice _ _ _ _ _ R1 R2) as E.
  apply reload_shape in R1 as (A1 & A2 & A3 & A4 & A5 & A6 & A7). apply reload_shape in R2 as (B1 & _ & B3 & B4 & B5 & B6 & B7).
  unfold same_but_ids. split; [|split; [|repeat split; congruence]].
  - rewrite B1, A1. now rewrite (lfields_again _ n N B).
  - rewrite E, A2. rewrite !map_map. apply map_ext_in. intros t I. apply filter_In in I as [I F].
    unfold after, but_ids. cbn [fst snd]. f_equal.
    + rewrite tfields_again; [reflexivity|]. intros k K. apply (T t k I); [|exact K]. intros Z. unfold full in F. rewrite Z in F. discriminate.
    + rewrite !map_map. apply map_ext. intros e. now rewrite fields_again.
Qed.

(** After two rounds the names are there. *)
Lemma reload_lasting draw draw2 l l1 l2 : reloaded draw l l1 -> reloaded draw2 l1 l2 -> lasting l2.
Proof.
  intros R1 R2. pose proof (reload_twice _ _ _ _ _ R1 R2) as E.
  apply reload_shape in R1 as (A1 & A2 & _). apply reload_shape in R2 as (B1 & _). split.
  - rewrite B1, lname, A1, lname. cbn [nonblank_text]. destruct (blank (or_none "none" (text_of "concept:name" (lg_attrs l)))) eqn:X; cbn [or_none].
    + exists (py "none"). split; reflexivity.
    + rewrite X. eauto.
  - intros t n I _ N. apply (in_map but_ids) in I. rewrite E in I. apply in_map_iff in I as (p & P & _).
    assert (Q : tr_attrs t = index (tfields (fst p))) by (now injection P). rewrite Q in N. unfold tfields in N. rewrite tname_index in N.
    cbn [nonblank_text] in N. destruct (blank _) eqn:X; [discriminate|]. now injection N as <-.
Qed.

(** ** What was read can be written *)

Lemma et_ok t a text kids a' s ns : map_res et_attribute a = Ok a' -> et_text text = Ok s -> map_res et_tree kids = Ok ns ->
  et_tree (EElem t a text kids) = Ok (XElem t a' (s ++ ns)).
Proof.
  cbn [et_tree]. set (many := fix many (l : list enode) : res (list xnode) := _).
  assert (M : forall l, many l = map_res et_tree l).
  { induction l as [|y l IH]; [reflexivity|]. cbn [many map_res]. fold many. now rewrite IH. }
  rewrite M. intros -> -> ->. reflexivity.
Qed.
Definition writes (r : res enode) : Prop := exists n x, r = Ok n /\ et_tree n = Ok x.

Lemma write_fields i m : writes (mwrite_event (mk_event i (index (fields m)))).
Proof.
  unfold fields, ref_list, name_back. generalize (type_back m). intros t.
  assert (M : exists r, meta_back m = index r /\ (r = [] \/ exists s, r = [reference_attr s])).
  { unfold meta_back. destruct (sget _ m) as [a|]; [|exists []; auto]. exists (ref_list (a_meta a)). split; [reflexivity|].
    unfold ref_list. destruct (nonempty_text _); eauto. }
  destruct M as (r & -> & R). unfold writes, mwrite_event, write_type. cbn [ev_attrs].
  destruct (nonempty_text _) as [[|c0 f]|], (opt_bind _ _) as [[|c n]|], R as [->|[s ->]]; cbn -[existsb known_types lower strip];
    generalize (lower (strip t)); intros u; destruct (existsb _ known_types); destruct u; cbn [bind]; do 2 eexists;
    (split; [reflexivity|cbn; reflexivity]).
Qed.
Lemma writes_all {A} (f : A -> res enode) l : (forall a, In a l -> writes (f a)) ->
  exists ns xs, map_res f l = Ok ns /\ map_res et_tree ns = Ok xs.
Proof.
  induction l as [|a l IH]; intros H; [now exists [], []|].
  destruct (H a (or_introl eq_refl)) as (n & x & E & T). destruct (IH (fun b I => H b (or_intror I))) as (ns & xs & Es & Ts).
  exists (n :: ns), (x :: xs). cbn [map_res]. now rewrite E, Es, T, Ts.
Qed.
Lemma write_again_trace m t : but_ids t = after m -> writes (mwrite_trace t).
Proof.
  intros [= A B]. assert (E : forall e, In e (tr_events t) -> writes (mwrite_event e)).
  { intros e I. apply (in_map ev_attrs) in I. rewrite B in I. apply in_map_iff in I as (x & X & _).
    destruct e as [i a]. cbn in X. subst a. apply write_fields. }
  destruct (writes_all _ _ E) as (ns & xs & N & X). unfold mwrite_trace. rewrite A, N.
  unfold tfields, described, ref_list, name_of. generalize (tname (fst m)). intros u.
  destruct (blank u), (nonempty_text _) as [[|c r]|]; cbn -[et_tree]; do 2 eexists; (split; [reflexivity|]);
    (eapply et_ok; [reflexivity|reflexivity|cbn [map_res]; rewrite X; reflexivity]).
Qed.
Lemma write_again draw l l1 : reloaded draw l l1 -> exists doc, mxml_serialize l1 = Ok doc.
Proof.
  intros R. apply reload_shape in R as (A & B & _).
  assert (E : forall t, In t (lg_traces l1) -> writes (mwrite_trace t)).
  { intros t I. apply (in_map but_ids) in I. rewrite B in I. apply in_map_iff in I as (p & P & _). symmetry in P. now apply write_again_trace in P. }
  destruct (writes_all _ _ E) as (ns & xs & N & X). unfold mxml_serialize, mwrite_log. rewrite A, N.
  unfold lfields, ref_list, name_of. generalize (tname (lg_attrs l)), (or_none "none" (text_of "concept:name" (lg_attrs l))). intros u v.
  destruct (blank v), (nonempty_text _) as [[|c r]|]; cbn -[et_tree]; eexists;
    (eapply et_ok; [reflexivity|reflexivity|]);
    (cbn [map_res]; erewrite (et_ok (py "Process")); [reflexivity|reflexivity|reflexivity|cbn [map_res]; rewrite X; reflexivity]).
Qed.
Lemma reload_again draw draw2 l l1 : reloaded draw l l1 -> exists l2, reloaded draw2 l1 l2.
Proof. intros R. apply reload_exists. exact (write_again _ _ _ R). Qed.
End Settled.
