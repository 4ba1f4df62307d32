(** Where the parts of an MXML document end up. *)
From Coq Require Import String NArith ZArith List Bool Arith Lia.
From Verif Require Import Base.PyBase Base.PyDate Base.PyVal Base.Xml Model.Attr Model.DateConv Model.Log
  Model.Token Model.StdExt Model.MxmlRead Spec.Xes Spec.Mxml Proofs.BaseFacts Proofs.MxmlFacts Proofs.MxmlLogFacts.
Import ListNotations.

Lemma last_snoc k l a : last_with k (l ++ [a]) = if str_eqb (a_key a) k then Some a else last_with k l.
Proof. unfold last_with. now rewrite rev_app_distr. Qed.
Lemma index_snoc l a : index (l ++ [a]) = sset (a_key a) a (index l).
Proof. unfold index. now rewrite fold_left_app. Qed.

Lemma sget_index k l : sget k (index l) = last_with k l.
Proof.
  induction l as [|a l IH] using rev_ind; [reflexivity|]. rewrite index_snoc, last_snoc.
  destruct (str_eqb (a_key a) k) eqn:E.
  - apply str_eqb_eq in E. subst k. apply sget_sset_same.
  - rewrite sget_sset_other; [exact IH|]. intros X. rewrite X, str_eqb_refl in E. discriminate.
Qed.

Lemma last_app k l m : last_with k (l ++ m) = match last_with k m with Some a => Some a | None => last_with k l end.
Proof.
  unfold last_with. rewrite rev_app_distr.
  induction (rev m) as [|x r IH]; simpl; [reflexivity|]. now destruct (str_eqb (a_key x) k).
Qed.
Lemma last_none k l : ~ In k (map a_key l) -> last_with k l = None.
Proof.
  induction l as [|a l IH] using rev_ind; [reflexivity|]. rewrite map_app, in_app_iff, last_snoc. intros H.
  destruct (str_eqb (a_key a) k) eqn:E; [|apply IH; tauto].
  apply str_eqb_eq in E. subst k. destruct H. simpl. auto.
Qed.

Section Run.
Context (draw : nat -> N).

Lemma number_attrs l : forall n, map ev_attrs (number_events draw n l) = l.
Proof. induction l; intros; simpl; f_equal; auto. Qed.

Lemma traces_rel ms its : forall n,
  Forall2 trace_is ms (instance_traces draw n its) ->
  Forall2 (fun t i => map (option_map ev_attrs) (mt_events t) = map (fun e => Some (index e)) (entries i)
                      /\ mt_attrs t = index (own_attrs (fst i) ++ after_entry (snd i))) ms its.
Proof.
  revert ms. induction its as [|i its IH]; intros ms n H; inversion H as [|t u ms' us T F]; subst; constructor; eauto.
  destruct T as [A E]. rewrite E, A. cbn [tr_events tr_attrs instance_trace]. split.
  - rewrite map_map, <- (map_map ev_attrs (fun x => Some x)), number_attrs, map_map. reflexivity.
  - unfold own_attrs. now rewrite <- !app_assoc.
Qed.

Lemma put_refs_get k l : forall m, sget k (put_refs l m) = match last_with k l with Some a => Some (MVal a) | None => sget k m end.
Proof.
  induction l as [|a l IH] using rev_ind; intros m; [reflexivity|].
  unfold put_refs in *. rewrite fold_left_app, last_snoc. cbn [fold_left]. unfold put.
  destruct (str_eqb (a_key a) k) eqn:E.
  - apply str_eqb_eq in E. subst k. apply sget_sset_same.
  - rewrite sget_sset_other; [apply IH|]. intros X. rewrite X, str_eqb_refl in E. discriminate.
Qed.

Lemma own_not k l : ~ In k own_keys -> Forall (fun a => In (a_key a) own_keys) l -> last_with k l = None.
Proof.
  intros N F. apply last_none. intros H. apply in_map_iff in H as (a & <- & I).
  rewrite Forall_forall in F. exact (N (F a I)).
Qed.
Lemma name_own s : Forall (fun a => In (a_key a) own_keys) (name_of s).
Proof. unfold name_of. destruct (blank s); repeat constructor. Qed.
Lemma description_own s : Forall (fun a => In (a_key a) own_keys) (description_of s).
Proof. destruct s; constructor; [right; now left|constructor]. Qed.
Lemma reference_own s : Forall (fun a => In (a_key a) own_keys) (reference_of s).
Proof. unfold reference_of. destruct (sget _ s) as [[|]|]; constructor; [right; right; now left|constructor]. Qed.
Lemma own_attrs_own s : Forall (fun a => In (a_key a) own_keys) (own_attrs s).
Proof. unfold own_attrs. rewrite !Forall_app. auto using name_own, description_own, reference_own. Qed.

(** Each log belongs to a process. *)
Definition log_of (S : list attr) (m : mlog) (p : proc) : Prop :=
  Forall2 (fun t i => map (option_map ev_attrs) (mt_events t) = map (fun e => Some (index e)) (entries i)
                      /\ mt_attrs t = index (own_attrs (fst i) ++ after_entry (snd i))) (ml_traces m) (kept (pr_items p))
  /\ exists n, log_is S m (process_log draw n (option_map (fun s => source_attr (fst s) (snd s)) (pr_source p)) (pr_atts p) (pr_items p)).

Lemma logs_rel S l : forall ms n src,
  Forall2 (log_is S) ms (item_logs draw n (option_map (fun s => source_attr (fst s) (snd s)) src) l) ->
  Forall2 (log_of S) ms (processes src l).
Proof.
  induction l as [|[a|atts data|atts its] l IH]; intros ms n src H; cbn [item_logs processes] in *.
  - inversion H. constructor.
  - eauto.
  - apply (IH ms n (Some (atts, data ++ to_source l))). exact H.
  - inversion H as [|m u ms' us G F]; subst; clear H. constructor; [|eauto]. split; [|exists n; exact G].
    destruct G as (_ & T & _). exact (traces_rel _ _ _ T).
Qed.

Lemma reads_processes doc its : mxml_items doc = Some its ->
  exists s, mxml_parse draw doc = Ok s /\ Forall2 (log_of (m_sources s)) (m_logs s) (processes None its).
Proof.
  intros E. destruct (mxml_reads draw doc (item_logs draw 0 None its)) as (s & R & F).
  { unfold mxml_logs. now rewrite E. }
  exists s. split; [exact R|]. now apply logs_rel with (n := 0).
Qed.

Lemma forall2_impl {A B} (P Q : A -> B -> Prop) l m : (forall a b, P a b -> Q a b) -> Forall2 P l m -> Forall2 Q l m.
Proof. induction 2; constructor; auto. Qed.

Lemma instances_kept doc its : mxml_items doc = Some its ->
  exists s, mxml_parse draw doc = Ok s
  /\ Forall2 (fun m p => Forall2 (fun t i => map (option_map ev_attrs) (mt_events t) = map (fun e => Some (index e)) (entries i))
                                 (ml_traces m) (filter filled (rights (pr_items p))))
             (m_logs s) (processes None its).
Proof.
  intros E. destruct (reads_processes doc its E) as (s & R & F). exists s. split; [exact R|].
  apply (forall2_impl _ _ _ _ (fun m p (H : log_of (m_sources s) m p) => forall2_impl _ _ _ _ (fun t i X => proj1 X) (proj1 H)) F).
Qed.

Lemma trace_data doc its : mxml_items doc = Some its ->
  exists s, mxml_parse draw doc = Ok s
  /\ Forall2 (fun m p => Forall2 (fun t i => forall k, ~ In k own_keys -> sget k (mt_attrs t) = last_with k (after_entry (snd i)))
                                 (ml_traces m) (filter filled (rights (pr_items p))))
             (m_logs s) (processes None its).
Proof.
  intros E. destruct (reads_processes doc its E) as (s & R & F). exists s. split; [exact R|].
  refine (forall2_impl _ _ _ _ (fun m p (H : log_of (m_sources s) m p) => forall2_impl _ _ _ _ (fun t i X => _) (proj1 H)) F).
  destruct X as [_ X]. intros k N. rewrite X, sget_index, last_app, (own_not k (own_attrs _) N (own_attrs_own _)).
  now destruct (last_with k (after_entry (snd i))).
Qed.

Lemma sget_refs S k m m' : Forall2 (fun x y => fst x = fst y /\ ref_is S (snd x) (snd y)) m m' ->
  match sget k m, sget k m' with
  | Some r, Some a => ref_is S r a
  | None, None => True
  | _, _ => False
  end.
Proof.
  induction 1 as [|[k1 r] [k2 a] m m' [X Y] F IH]; simpl; [exact I|]. simpl in X, Y. subst k2.
  destruct (str_eqb _ _); [exact Y|exact IH].
Qed.

Definition log_list (p : proc) : list attr :=
  opt_list (option_map (fun s => source_attr (fst s) (snd s)) (pr_source p)) ++ name_of (att "id" (pr_atts p) []) ++ [model_attr (py "standard")]
  ++ description_of (nonempty_text (sget (py "description") (pr_atts p))) ++ reference_of (pr_atts p) ++ log_data (pr_items p).
Lemma log_look S m p k : log_of S m p -> look S k (ml_attrs m) = last_with k (log_list p).
Proof.
  intros [_ (n & A & _)]. cbn [process_log lg_attrs] in A. rewrite <- sget_index. pose proof (sget_refs _ k _ _ A) as G.
  unfold look, opt_bind. fold (log_list p) in G. 
  destruct (sget k (ml_attrs m)) as [r|], (sget k (index (log_list p))) as [a|]; try easy. destruct r; simpl in G; congruence.
Qed.
Lemma log_keys S m p k : log_of S m p -> (sget k (ml_attrs m) = None <-> last_with k (log_list p) = None).
Proof.
  intros [_ (n & A & _)]. cbn [process_log lg_attrs] in A. rewrite <- sget_index. pose proof (sget_refs _ k _ _ A) as G.
  fold (log_list p) in G.
  destruct (sget k (ml_attrs m)) as [r|], (sget k (index (log_list p))) as [a|]; easy.
Qed.

Lemma log_data_placed doc its : mxml_items doc = Some its ->
  exists s, mxml_parse draw doc = Ok s
  /\ Forall2 (fun m p => (forall k, ~ In k own_keys ->
                            look (m_sources s) k (ml_attrs m) = last_with k (log_data (pr_items p)))
                         /\ (last_with (py "source") (log_data (pr_items p)) = None ->
                             match pr_source p with
                             | Some (atts, data) => exists a, look (m_sources s) (py "source") (ml_attrs m) = Some a
                                 /\ forall k, ~ In k own_keys -> sget k (a_meta a) = last_with k data
                             | None => look (m_sources s) (py "source") (ml_attrs m) = None
                             end))
             (m_logs s) (processes None its).
Proof.
  intros E. destruct (reads_processes doc its E) as (s & R & F). exists s. split; [exact R|].
  refine (forall2_impl _ _ _ _ (fun m p (H : log_of (m_sources s) m p) => _) F).
  assert (L : forall k, look (m_sources s) k (ml_attrs m) = last_with k (log_list p)) by (intros k; now apply log_look).
  unfold log_list in L.
  split.
  - intros k N. rewrite L, !last_app. destruct (last_with k (log_data _)); [reflexivity|].
    rewrite (own_not k (reference_of _)) by auto using reference_own.
    rewrite (own_not k (description_of _)) by auto using description_own.
    rewrite (own_not k [model_attr _]) by first [exact N|constructor; [right; right; right; now left|constructor]].
    rewrite (own_not k (name_of _)) by auto using name_own.
    apply own_not; [exact N|]. destruct (pr_source p); [constructor; [right; right; right; right; now left|constructor]|constructor].
  - intros Nn. rewrite L, !last_app, Nn.
    assert (X : forall l, Forall (fun a => a_key a <> py "source") l -> last_with (py "source") l = None).
    { intros l G. apply last_none. intros Hi. apply in_map_iff in Hi as (a & Ka & I). rewrite Forall_forall in G. exact (G a I Ka). }
    rewrite (X (reference_of _)) by (unfold reference_of; destruct (sget (py "modelReference") (pr_atts p)) as [[|]|]; first [apply Forall_nil|apply Forall_cons; [intros Z; discriminate Z|apply Forall_nil]]).
    rewrite (X (description_of _)) by (destruct (nonempty_text _); first [apply Forall_nil|apply Forall_cons; [intros Z; discriminate Z|apply Forall_nil]]).
    rewrite (X [model_attr _]) by (first [apply Forall_nil|apply Forall_cons; [intros Z; discriminate Z|apply Forall_nil]]).
    rewrite (X (name_of _)) by (unfold name_of; destruct (blank _); first [apply Forall_nil|apply Forall_cons; [intros Z; discriminate Z|apply Forall_nil]]).
    destruct (pr_source p) as [[atts data]|]; cbn [option_map opt_list fst snd].
    + exists (source_attr atts data). split; [reflexivity|]. intros k N. unfold source_attr. cbn [a_meta].
      rewrite sget_index, last_app, (own_not k (reference_of _) N (reference_own _)). now destruct (last_with k data).
    + reflexivity.
Qed.
End Run.

(** *** Flat entries *)

Lemma items_own {A} (own : pystr -> sdict pystr -> list xnode -> option (list A)) t atts kids :
  grouping t = false -> items own (XElem t atts kids) = own t atts kids.
Proof. intros G. cbn [items]. now rewrite G. Qed.

Definition name_field (e : entry) : list attr :=
  match opt_bind (en_name e) trimmed_text with Some n => [name_attr n] | None => [] end.
Definition type_field (e : entry) : list attr :=
  match opt_bind (en_type e) (type_value (en_unknowntype e)) with Some v => [transition_attr v []] | None => [] end.
Definition time_field (e : entry) : list attr :=
  match opt_bind (en_time e) (fun t => match parse_date_time (strip t) with Ok (Some d) => Some d | _ => None end) with
  | Some d => [timestamp_attr d] | None => [] end.
Definition originator_field (e : entry) : list attr :=
  match en_originator e with
  | Some o => [resource_attr (match trimmed_text o with Some r => r | None => py "UNKNOWN" end) []]
  | None => []
  end.
Definition entry_fields (e : entry) : list attr := name_field e ++ type_field e ++ time_field e ++ originator_field e.

Lemma all_items_app {A} (own : pystr -> sdict pystr -> list xnode -> option (list A)) l m a b :
  all_items own l = Some a -> all_items own m = Some b -> all_items own (l ++ m) = Some (a ++ b).
Proof.
  unfold all_items. revert a. induction l as [|x l IH]; intros a; simpl.
  - intros [= <-] ->. reflexivity.
  - destruct (items own x) as [u|]; [|discriminate]. destruct (map_opt (items own) l) as [v|]; [|discriminate].
    simpl. intros [= <-] H. specialize (IH _ eq_refl H). destruct (map_opt (items own) (l ++ m)); [|discriminate].
    simpl in *. injection IH as ->. now rewrite app_assoc.
Qed.

Lemma entry_items e : time_ok e ->
  all_items field_of (match entry_elem e with XElem _ _ kids => kids | _ => [] end) = Some (entry_fields e).
Proof.
  intros T. unfold entry_elem, entry_fields, field_elem. repeat apply all_items_app.
  - unfold name_field. destruct (en_name e) as [n|]; [|reflexivity]. cbn. rewrite !app_nil_r.
    now destruct (trimmed_text n).
  - unfold type_field. destruct (en_type e) as [n|]; [|reflexivity].
    unfold all_items. cbn [map_opt]. rewrite items_own by reflexivity. unfold field_of. cbn [leaf_text option_map].
    rewrite app_nil_r. change (str_eqb (py "EventType") (py "WorkflowModelElement")) with false.
    change (str_eqb (py "EventType") (py "EventType")) with true. cbv iota. cbn [opt_bind].
    destruct (en_unknowntype e) as [u|]; [change (sget (py "unknowntype") [(py "unknowntype", u)]) with (Some u)
                                         |change (sget (py "unknowntype") []) with (@None pystr)];
      now destruct (type_value _ n).
  - unfold time_field, time_ok in *. destruct (en_time e) as [n|]; [|reflexivity].
    destruct (T n eq_refl) as [d D]. unfold all_items. cbn [map_opt]. rewrite items_own by reflexivity.
    unfold field_of. cbn [leaf_text option_map]. rewrite app_nil_r.
    change (str_eqb (py "Timestamp") (py "WorkflowModelElement")) with false.
    change (str_eqb (py "Timestamp") (py "EventType")) with false.
    change (str_eqb (py "Timestamp") (py "Originator")) with false.
    change (str_eqb (py "Timestamp") (py "Timestamp")) with true. cbv iota. cbn [opt_bind]. rewrite D. now destruct d.
  - unfold originator_field. destruct (en_originator e) as [n|]; [|reflexivity]. cbn. rewrite !app_nil_r. reflexivity.
Qed.

Lemma entry_fields_is e : entry_is (index (entry_fields e)) e.
Proof.
  unfold entry_is, value_is, entry_fields. rewrite !sget_index, !last_app.
  assert (A : last_with (py "concept:name") (originator_field e) = None) by (unfold originator_field; now destruct (en_originator e)).
  assert (B : last_with (py "concept:name") (time_field e) = None) by (unfold time_field; now destruct (opt_bind (en_time e) _)).
  assert (C : last_with (py "concept:name") (type_field e) = None) by (unfold type_field; now destruct (opt_bind (en_type e) _)).
  assert (A1 : last_with (py "lifecycle:transition") (originator_field e) = None) by (unfold originator_field; now destruct (en_originator e)).
  assert (B1 : last_with (py "lifecycle:transition") (time_field e) = None) by (unfold time_field; now destruct (opt_bind (en_time e) _)).
  assert (D1 : last_with (py "lifecycle:transition") (name_field e) = None) by (unfold name_field; now destruct (opt_bind (en_name e) _)).
  assert (B2 : last_with (py "org:resource") (time_field e) = None) by (unfold time_field; now destruct (opt_bind (en_time e) _)).
  assert (C2 : last_with (py "org:resource") (type_field e) = None) by (unfold type_field; now destruct (opt_bind (en_type e) _)).
  assert (D2 : last_with (py "org:resource") (name_field e) = None) by (unfold name_field; now destruct (opt_bind (en_name e) _)).
  assert (A3 : last_with (py "time:timestamp") (originator_field e) = None) by (unfold originator_field; now destruct (en_originator e)).
  assert (C3 : last_with (py "time:timestamp") (type_field e) = None) by (unfold type_field; now destruct (opt_bind (en_type e) _)).
  assert (D3 : last_with (py "time:timestamp") (name_field e) = None) by (unfold name_field; now destruct (opt_bind (en_name e) _)).
  rewrite A, B, C, A1, B1, D1, B2, C2, D2, A3, C3, D3. repeat split.
  - unfold name_field. now destruct (opt_bind (en_name e) _).
  - unfold type_field. now destruct (opt_bind (en_type e) _).
  - unfold originator_field. now destruct (en_originator e).
  - unfold time_field. destruct (en_time e) as [t|]; [|reflexivity]. cbn [opt_bind].
    destruct (parse_date_time (strip t)) as [[d|]|]; reflexivity.
  - intros k N. rewrite sget_index. apply last_none. intros H. apply N. apply in_map_iff in H as (a & <- & I).
    rewrite !in_app_iff in I. unfold name_field, type_field, time_field, originator_field in I.
    destruct I as [I|[I|[I|I]]].
    + destruct (opt_bind (en_name e) _); [|destruct I]. destruct I as [<-|[]]. now left.
    + destruct (opt_bind (en_type e) _); [|destruct I]. destruct I as [<-|[]]. right; now left.
    + destruct (opt_bind (en_time e) _); [|destruct I]. destruct I as [<-|[]]. right; right; right; now left.
    + destruct (en_originator e); [|destruct I]. destruct I as [<-|[]]. right; right; now left.
Qed.

Lemma map_items {A B} (own : pystr -> sdict pystr -> list xnode -> option (list A)) (f : B -> xnode) (g : B -> A) l :
  Forall (fun b => items own (f b) = Some [g b]) l -> all_items own (map f l) = Some (map g l).
Proof.
  unfold all_items. induction 1 as [|b l E F IH]; [reflexivity|]. cbn [map map_opt]. rewrite E.
  destruct (map_opt (items own) (map f l)); [|discriminate]. cbn in *. injection IH as ->. reflexivity.
Qed.

Definition flat_instance (l : list entry) : instance := ([], map (fun e => inr (entry_fields e)) l).
Definition flat_process (l : list (list entry)) : mx_item := DProcess [] (map (fun i => inr (flat_instance i)) l).
Lemma document_items d : Forall (Forall (Forall time_ok)) d ->
  mxml_items (document_elem d) = Some (map flat_process d).
Proof.
  intros F. assert (A : all_items in_document (map process_elem d) = Some (map flat_process d)).
  { apply map_items. revert F. apply Forall_impl. intros p F. unfold process_elem. rewrite items_own by reflexivity.
    unfold in_document. change (str_eqb (py "Process") (py "Process")) with true. cbv iota.
    rewrite (map_items _ instance_elem (fun i => inr (flat_instance i))); [reflexivity|].
    revert F. apply Forall_impl. intros i F. unfold instance_elem. rewrite items_own by reflexivity.
    unfold in_process. change (str_eqb (py "ProcessInstance") (py "ProcessInstance")) with true. cbv iota.
    rewrite (map_items _ entry_elem (fun e => inr (entry_fields e))); [reflexivity|].
    revert F. apply Forall_impl. intros e F. pose proof (entry_items e F) as E. unfold entry_elem in *.
    rewrite items_own by reflexivity.
    unfold in_instance. change (str_eqb (py "AuditTrailEntry") (py "AuditTrailEntry")) with true. cbv iota.
    now rewrite E. }
  unfold mxml_items, document_elem. cbn [items]. change (grouping (py "WorkflowLog")) with true. cbv iota.
  destruct d as [|p d]; [reflexivity|]. exact A.
Qed.

Lemma forall2_map_r {A B C} (P : A -> C -> Prop) (f : B -> C) l m :
  Forall2 P l (map f m) <-> Forall2 (fun a b => P a (f b)) l m.
Proof.
  split.
  - revert l. induction m; intros l H; inversion H; subst; constructor; auto.
  - induction 1; constructor; auto.
Qed.

Lemma flat_filled p :
  filter filled (rights (map (fun i => @inr attr instance (flat_instance i)) p)) = map flat_instance (filter has_items p).
Proof.
  induction p as [|i p IH]; [reflexivity|]. destruct i as [|e i].
  - exact IH.
  - change (filter has_items ((e :: i) :: p)) with ((e :: i) :: filter has_items p). cbn [map]. rewrite <- IH. reflexivity.
Qed.
Lemma flat_instance_entries i : entries (flat_instance i) = map entry_fields i.
Proof. unfold entries. cbn [snd flat_instance]. induction i as [|e i IH]; [reflexivity|]. cbn. f_equal. exact IH. Qed.

Lemma flat_entries draw d : Forall (Forall (Forall time_ok)) d ->
  exists s, mxml_parse draw (document_elem d) = Ok s
  /\ Forall2 (fun m p => Forall2 (fun t i => Forall2 (fun o e => exists ev, o = Some ev /\ entry_is (ev_attrs ev) e) (mt_events t) i)
                                 (ml_traces m) (filter has_items p))
             (m_logs s) d.
Proof.
  intros F. destruct (instances_kept draw _ _ (document_items d F)) as (s & R & G). exists s. split; [exact R|].
  assert (P : processes None (map flat_process d) = map (fun p => mk_proc None [] (map (fun i => inr (flat_instance i)) p)) d).
  { clear. induction d; cbn [map processes flat_process]; congruence. }
  rewrite P in G. apply forall2_map_r in G. revert G. apply forall2_impl. intros m p G. cbn [pr_items] in G.
  rewrite flat_filled in G. apply forall2_map_r in G. revert G. apply forall2_impl. intros t i G.
  rewrite flat_instance_entries, map_map in G. revert G. generalize (mt_events t). clear. induction i as [|e i IH]; intros [|o l] G; try discriminate; constructor.
  - injection G as G _. destruct o as [ev|]; [|discriminate]. exists ev. split; [reflexivity|]. injection G as ->. apply entry_fields_is.
  - injection G as _ G. auto.
Qed.
