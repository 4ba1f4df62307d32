(** Writing a log to MXML and reading it back. *)
From Coq Require Import String NArith ZArith List Bool Arith Lia.
From Verif Require Import Base.PyBase Base.PyDate Base.PyVal Base.Xml Model.Attr Model.DateConv Model.Log
  Model.Token Model.StdExt Model.XmlText Model.MxmlRead Model.MxmlWrite Spec.Xes Spec.Mxml Proofs.BaseFacts Proofs.XesReadFacts
  Proofs.MxmlFacts Proofs.MxmlLogFacts Proofs.MxmlPlaceFacts.
Import ListNotations.

(** ** Line breaks between elements do not matter *)

(** Text only as the single content of an element. *)
Fixpoint tidy (x : xnode) : bool :=
  match x with
  | XText _ => false
  | XElem _ _ [XText _] => true
  | XElem _ _ kids => forallb tidy kids
  end.
Definition spread (d : nat) (kids : list xnode) : list xnode :=
  flat_map (fun k => [newline (S d); pretty (S d) k]) kids ++ [newline d].
Definition pkids (d : nat) (kids : list xnode) : list xnode :=
  match kids with [] | [XText _] => kids | _ => spread d kids end.
Lemma pretty_elem d t a kids : pretty d (XElem t a kids) = XElem t a (pkids d kids).
Proof. destruct kids as [|[t1 a1 k1|s] [|]]; reflexivity. Qed.
Lemma tidy_elem t a kids : tidy (XElem t a kids) = true ->
  kids = [] \/ (exists s, kids = [XText s]) \/ (Forall (fun x => tidy x = true) kids /\ forall d, pkids d kids = spread d kids).
Proof.
  intros H. destruct kids as [|[t1 a1 k1|s] [|y l]]; [now left| | |right; left; now exists s|];
    right; right; (split; [|intros d; reflexivity]); apply Forall_forall; apply forallb_forall.
  - exact H.
  - exact H.
  - exact H.
Qed.

Lemma leaf_spread d kids : Forall (fun x => tidy x = true) kids -> kids <> [] ->
  leaf_text (spread d kids) = None /\ leaf_text kids = None.
Proof.
  intros F N. destruct F as [|x l T F]; [easy|]. destruct x as [t a k|s]; [|discriminate].
  split; [|reflexivity]. unfold spread. cbn [flat_map app newline leaf_text]. rewrite pretty_elem. reflexivity.
Qed.
Lemma leaf_pkids d t a kids : tidy (XElem t a kids) = true -> leaf_text (pkids d kids) = leaf_text kids.
Proof.
  intros H. destruct (tidy_elem _ _ _ H) as [->|[[s ->]|(F & E)]]; try reflexivity.
  destruct kids; [reflexivity|]. rewrite E. destruct (leaf_spread d _ F) as [-> ->]; [discriminate|reflexivity].
Qed.
Lemma blank_newline d : blank (10%N :: repeat 9%N d) = true.
Proof. unfold blank. cbn [forallb]. induction d; [reflexivity|exact IHd]. Qed.

Section Own.
Context {A : Type} (own : pystr -> sdict pystr -> list xnode -> option (list A)).
Hypothesis own_pretty : forall t atts kids d, tidy (XElem t atts kids) = true -> own t atts (pkids d kids) = own t atts kids.

Lemma all_spread kids : forall d, Forall (fun x => forall d, items own (pretty d x) = items own x) kids ->
  all_items own (spread d kids) = all_items own kids.
Proof.
  intros d F. unfold all_items, spread. induction F as [|x l H F IH]; cbn [flat_map app map_opt].
  - cbn [items newline]. rewrite blank_newline. reflexivity.
  - rewrite H. change (items own (newline (S d))) with (if blank (10%N :: repeat 9%N (S d)) then Some (@nil A) else None).
    rewrite blank_newline. destruct (items own x) as [u|]; [|reflexivity].
    destruct (map_opt (items own) (_ ++ _)) as [v|], (map_opt (items own) l) as [w|]; cbn in *; congruence.
Qed.
Lemma items_pretty x : tidy x = true -> forall d, items own (pretty d x) = items own x.
Proof.
  induction x as [t atts kids IH|s] using xnode_ind2; intros T d; [|discriminate].
  rewrite pretty_elem. cbn [items]. destruct (grouping t); [|now apply own_pretty].
  rewrite (leaf_pkids d t atts) by exact T. destruct (leaf_text kids); [reflexivity|].
  destruct (tidy_elem _ _ _ T) as [->|[[s ->]|(F & E)]]; try reflexivity.
  rewrite E. apply (all_spread kids d). clear E T. induction IH; inversion F; subst; constructor; auto.
Qed.
Lemma all_pkids t a kids d : tidy (XElem t a kids) = true -> all_items own (pkids d kids) = all_items own kids.
Proof.
  intros T. destruct (tidy_elem _ _ _ T) as [->|[[s ->]|(F & E)]]; try reflexivity.
  rewrite E. apply all_spread. revert F. apply Forall_impl. intros x H. now apply items_pretty.
Qed.
End Own.

Lemma data_pretty t atts kids d : tidy (XElem t atts kids) = true -> data_of t atts (pkids d kids) = data_of t atts kids.
Proof. intros T. unfold data_of. now rewrite (leaf_pkids d t atts). Qed.
Lemma field_pretty t atts kids d : tidy (XElem t atts kids) = true -> field_of t atts (pkids d kids) = field_of t atts kids.
Proof. intros T. unfold field_of. now rewrite (leaf_pkids d t atts), data_pretty. Qed.
Lemma in_instance_pretty t atts kids d : tidy (XElem t atts kids) = true -> in_instance t atts (pkids d kids) = in_instance t atts kids.
Proof. intros T. unfold in_instance. now rewrite (all_pkids _ field_pretty t atts), data_pretty. Qed.
Lemma in_process_pretty t atts kids d : tidy (XElem t atts kids) = true -> in_process t atts (pkids d kids) = in_process t atts kids.
Proof. intros T. unfold in_process. now rewrite (all_pkids _ in_instance_pretty t atts), data_pretty. Qed.
Lemma in_document_pretty t atts kids d : tidy (XElem t atts kids) = true -> in_document t atts (pkids d kids) = in_document t atts kids.
Proof.
  intros T. unfold in_document. now rewrite (all_pkids _ in_process_pretty t atts), (all_pkids _ data_pretty t atts), data_pretty.
Qed.
Lemma document_pretty x d : tidy x = true -> mxml_items (pretty d x) = mxml_items x.
Proof. intros T. now apply items_pretty; [exact in_document_pretty|]. Qed.

(** ** The tree *)

Lemma et_elem t a text kids x : et_tree (EElem t a text kids) = Ok x ->
  exists a' s ns, map_res et_attribute a = Ok a' /\ et_text text = Ok s /\ map_res et_tree kids = Ok ns /\ x = XElem t a' (s ++ ns).
Proof.
  cbn [et_tree]. set (many := fix many (l : list enode) : res (list xnode) := _).
  assert (M : forall l, many l = map_res et_tree l).
  { induction l as [|y l IH]; [reflexivity|]. cbn [many map_res]. fold many. now rewrite IH. }
  rewrite M. destruct (map_res et_attribute a) as [a'|]; [|discriminate]. destruct (et_text text) as [s|]; [|discriminate].
  cbn [bind]. destruct (map_res et_tree kids) as [ns|]; [|discriminate]. cbn [bind]. intros [= <-]. eauto 8.
Qed.

Section Write.
Context `{FIO : FloatIO}.

Definition ref_list (m : sdict attr) : list attr :=
  match nonempty_text (text_of "semantic:modelReference" m) with Some s => [reference_attr s] | None => [] end.
Definition ref_pairs (m : sdict attr) : sdict pystr :=
  match text_of "semantic:modelReference" m with Some s => [(py "modelReference", s)] | None => [] end.

Lemma reference_pairs m r r' : reference_atts m = Ok r -> map_res et_attribute r = Ok r' -> r' = ref_pairs m.
Proof.
  unfold reference_atts, ref_pairs, text_of. destruct (sget _ m) as [a|]; [|now intros [= <-] [= <-]].
  unfold get_value. destruct (is_collection (a_cls a)); [discriminate|]. cbn. intros [= <-]. cbn.
  destruct (a_val a); try discriminate. now intros [= <-].
Qed.
Lemma map_res_app {A B} (f : A -> res B) l m r : map_res f (l ++ m) = Ok r ->
  exists a b, map_res f l = Ok a /\ map_res f m = Ok b /\ r = a ++ b.
Proof.
  revert r. induction l as [|x l IH]; intros r; cbn.
  - intros H. exists [], r. auto.
  - destruct (f x) as [y|]; [|discriminate]. destruct (map_res f (l ++ m)) as [r'|]; [|discriminate].
    intros [= <-]. destruct (IH r' eq_refl) as (a & b & A1 & B1 & ->). rewrite A1. exists (y :: a), b. auto.
Qed.

(** Elements without meaning and without elements inside. *)
Definition hollow (x : xnode) : Prop :=
  match x with XElem t _ kids => grouping t = true /\ (kids = [] \/ exists s, kids = [XText s]) | XText _ => False end.
Lemma hollow_items {A} (own : pystr -> sdict pystr -> list xnode -> option (list A)) x : hollow x -> items own x = Some [] /\ tidy x = true.
Proof.
  destruct x as [t a kids|]; [|easy]. intros [G [->|[s ->]]]; cbn [items]; rewrite G; split; reflexivity.
Qed.
Lemma text_leaf v s : et_text v = Ok s -> s = [] \/ exists t, s = [XText t].
Proof. unfold et_text. destruct (truthy v); [|intros [= <-]; auto]. destruct v; try discriminate. intros [= <-]. right. eauto. Qed.

Lemma data_hollow m n x : add_data m = Ok n -> et_tree n = Ok x ->
  tidy x = true /\ forall A (own : pystr -> sdict pystr -> list xnode -> option (list A)), items own x = Some [].
Proof.
  unfold add_data. destruct (map_res data_entry (map snd m)) as [ns|] eqn:E; [|discriminate]. cbn. intros [= <-] T.
  apply et_elem in T as (a' & s & ks & A & S & K & ->). injection A as <-. injection S as <-. cbn [app].
  assert (H : Forall hollow ks).
  { revert ns E ks K. induction (map snd m) as [|a l IH]; intros ns E ks K; cbn in E.
    - injection E as <-. cbn in K. injection K as <-. constructor.
    - destruct (data_entry a) as [u|] eqn:D; [|discriminate]. destruct (map_res data_entry l) as [v|]; [|discriminate].
      injection E as <-. cbn [List.concat] in K. apply map_res_app in K as (k1 & k2 & K1 & K2 & ->).
      apply Forall_app. split; [|eauto]. unfold data_entry in D. destruct (str_eqb _ _); [|injection D as <-; injection K1 as <-; constructor].
      destruct (reference_atts _) as [r|]; [|discriminate]. cbn in D. destruct (attr_str a) as [w|]; [|discriminate]. cbn in D.
      destruct (a_meta a); [|discriminate]. injection D as <-. cbn [map_res] in K1. destruct (et_tree _) as [y|] eqn:Y; [|discriminate].
      injection K1 as <-. apply et_elem in Y as (b' & t & us & _ & T & U & ->). injection U as <-. rewrite app_nil_r.
      constructor; [|constructor]. split; [reflexivity|]. now apply text_leaf in T. }
  split.
  - assert (F : forallb tidy ks = true) by (apply forallb_forall; rewrite Forall_forall in H; intros y Y; now apply (hollow_items (fun _ _ _ => @None (list nat))), H).
    destruct ks as [|[t b k|s] [|]]; try exact F; reflexivity.
  - intros A own. cbn [items]. change (grouping (py "Data")) with true. cbv iota. destruct (leaf_text ks); [reflexivity|].
    assert (F : map_opt (items own) ks = Some (map (fun _ => []) ks)).
    { clear K. induction H as [|y l Y F IH]; [reflexivity|]. cbn [map_opt map]. destruct (hollow_items own y Y) as [-> _]. now rewrite IH. }
    rewrite F. cbn. f_equal. clear. induction ks; auto.
Qed.

Lemma sget_cons_other {V} k k2 (v : V) m : str_eqb k2 k = false -> sget k2 ((k, v) :: m) = sget k2 m.
Proof. intros H. unfold sget. cbn. rewrite H. reflexivity. Qed.

Lemma reference_ref m : reference_of (ref_pairs m) = ref_list m.
Proof. unfold reference_of, ref_pairs, ref_list. destruct (text_of _ m) as [[|c s]|]; reflexivity. Qed.
Lemma reference_ref_after m b v : str_eqb (py "modelReference") b = false -> reference_of (ref_pairs m ++ [(b, v)]) = ref_list m.
Proof.
  intros H. unfold reference_of, ref_pairs, ref_list. destruct (text_of _ m) as [[|c s]|]; try reflexivity.
  cbn [app]. rewrite sget_cons_other by exact H. reflexivity.
Qed.
Lemma no_unknowntype m : sget (py "unknowntype") (ref_pairs m) = None.
Proof. unfold ref_pairs. destruct (text_of _ m); reflexivity. Qed.
Lemma no_unknowntype_after m v : sget (py "unknowntype") (ref_pairs m ++ [(py "unknownType", v)]) = None.
Proof. unfold ref_pairs. destruct (text_of _ m); reflexivity. Qed.

Lemma name_text m v s : extract_name m = Ok v -> et_text v = Ok s ->
  (s = [] /\ opt_bind (text_of "concept:name" m) trimmed_text = None)
  \/ (exists n, s = [XText n] /\ text_of "concept:name" m = Some n).
Proof.
  unfold extract_name, text_of, et_text. destruct (sget _ m) as [a|]; [|intros [= <-] [= <-]; auto].
  unfold get_value. destruct (is_collection _); [discriminate|]. intros [= <-].
  destruct (truthy (a_val a)) eqn:T.
  - destruct (a_val a); try discriminate. intros [= <-]. right. eauto.
  - intros [= <-]. left. split; [reflexivity|]. destruct (a_val a) as [|[|]| | | | | |]; try reflexivity. discriminate.
Qed.

Definition name_back (m : sdict attr) : list attr :=
  match opt_bind (text_of "concept:name" m) trimmed_text with Some n => [name_attr n] | None => [] end.
Definition is_field (x : xnode) (l : list attr) : Prop := tidy x = true /\ items field_of x = Some l.

Lemma element_field m r n x : reference_atts m = Ok r -> extract_name m = Ok n ->
  et_tree (EElem (py "WorkflowModelElement") r n []) = Ok x -> is_field x (ref_list m ++ name_back m).
Proof.
  intros R N T. apply et_elem in T as (a' & s & ks & A & S & K & ->). injection K as <-. rewrite app_nil_r.
  rewrite (reference_pairs m r a' R A). clear A. destruct (name_text m n s N S) as [[-> E]|(t & -> & E)].
  - split; [reflexivity|]. rewrite items_own by reflexivity. unfold field_of, name_back. cbn [leaf_text].
    change (str_eqb (py "WorkflowModelElement") (py "WorkflowModelElement")) with true. cbv iota.
    rewrite reference_ref, E. reflexivity.
  - split; [reflexivity|]. rewrite items_own by reflexivity. unfold field_of, name_back. cbn [leaf_text option_map].
    change (str_eqb (py "WorkflowModelElement") (py "WorkflowModelElement")) with true. cbv iota.
    rewrite reference_ref, E, app_nil_r. reflexivity.
Qed.

Lemma known_spec t : existsb (str_eqb t) known_types = true <-> known_transition t.
Proof.
  rewrite existsb_exists. split.
  - intros (y & I & E). apply str_eqb_eq in E. now subst y.
  - intros I. exists t. split; [exact I|apply str_eqb_refl].
Qed.
Lemma known_trimmed t : known_transition t -> trimmed_text t = Some t.
Proof. unfold known_transition. cbn [In]. intros H. repeat (destruct H as [<-|H]; [reflexivity|]). destruct H. Qed.

Definition meta_back (m : sdict attr) : sdict attr :=
  match sget (py "lifecycle:transition") m with Some a => index (ref_list (a_meta a)) | None => [] end.
Lemma type_field_back m n x : write_type m = Ok n -> et_tree n = Ok x ->
  exists t, is_field x [transition_attr t (meta_back m)] /\ transition_back (text_of "lifecycle:transition" m) t.
Proof.
  unfold write_type, text_of, meta_back. destruct (sget _ m) as [a|].
  - destruct (reference_atts (a_meta a)) as [r|] eqn:R; [|discriminate]. cbn [bind].
    unfold get_value. destruct (is_collection _); [discriminate|]. cbn [bind]. destruct (a_val a) as [|v| | | | | |]; try discriminate.
    destruct (existsb _ _) eqn:E; intros [= <-] T; apply et_elem in T as (a' & s & ks & A & S & K & ->); injection K as <-; rewrite app_nil_r.
    + rewrite (reference_pairs _ r a' R A). exists (lower (strip v)).
      apply known_spec in E. pose proof (known_trimmed _ E) as W.
      assert (X : s = [XText (lower (strip v))]).
      { unfold et_text in S. cbn [truthy] in S. destruct (lower (strip v)); [discriminate|]. now injection S. }
      rewrite X. split; [|left; auto]. split; [reflexivity|]. rewrite items_own by reflexivity. unfold field_of.
      cbn [leaf_text option_map]. rewrite app_nil_r.
      change (str_eqb (py "EventType") (py "WorkflowModelElement")) with false.
      change (str_eqb (py "EventType") (py "EventType")) with true. cbv iota.
      rewrite no_unknowntype, reference_ref. cbn [type_value]. now rewrite W.
    + apply map_res_app in A as (b1 & b2 & A1 & A2 & ->). rewrite (reference_pairs _ r b1 R A1).
      cbn in A2. injection A2 as <-. injection S as <-. exists (py "unknown").
      split; [|right; split; [rewrite <- known_spec, E; discriminate|reflexivity]].
      split; [reflexivity|]. rewrite items_own by reflexivity. unfold field_of. cbn [leaf_text option_map].
      change (str_eqb (py "EventType") (py "WorkflowModelElement")) with false.
      change (str_eqb (py "EventType") (py "EventType")) with true. cbv iota.
      rewrite no_unknowntype_after, reference_ref_after by reflexivity. reflexivity.
  - intros [= <-] T. apply et_elem in T as (a' & s & ks & A & S & K & ->). injection K as <-. injection A as <-. injection S as <-.
    exists (py "complete"). split; [split; reflexivity|reflexivity].
Qed.

Lemma originator_hollow m ns xs : write_originator m = Ok ns -> map_res et_tree ns = Ok xs -> Forall hollow xs.
Proof.
  unfold write_originator. destruct (originator_attr m) as [a|]; [|intros [= <-] [= <-]; constructor].
  destruct (reference_atts _) as [r|]; [|discriminate]. cbn [bind]. destruct (get_value a) as [v|]; [|discriminate].
  intros [= <-]. cbn [map_res]. destruct (et_tree _) as [x|] eqn:T; [|discriminate]. intros [= <-].
  apply et_elem in T as (a' & s & ks & A & S & K & ->). injection K as <-. rewrite app_nil_r.
  constructor; [|constructor]. split; [reflexivity|]. now apply text_leaf in S.
Qed.
Lemma timestamp_hollow m ns xs : write_timestamp m = Ok ns -> map_res et_tree ns = Ok xs -> Forall hollow xs.
Proof.
  unfold write_timestamp. destruct (sget _ m) as [a|]; [|intros [= <-] [= <-]; constructor].
  destruct (reference_atts _) as [r|]; [|discriminate]. cbn [bind]. destruct (get_value a) as [v|]; [|discriminate].
  intros [= <-]. cbn [map_res]. destruct (et_tree _) as [x|] eqn:T; [|discriminate]. intros [= <-].
  apply et_elem in T as (a' & s & ks & A & S & K & ->). injection K as <-. rewrite app_nil_r.
  constructor; [|constructor]. split; [reflexivity|]. now apply text_leaf in S.
Qed.
Lemma all_hollow {A} (own : pystr -> sdict pystr -> list xnode -> option (list A)) l : Forall hollow l ->
  all_items own l = Some [] /\ forallb tidy l = true.
Proof.
  unfold all_items. induction 1 as [|x l H F [IH1 IH2]]; [split; reflexivity|].
  destruct (hollow_items own x H) as [E T]. cbn [map_opt forallb]. rewrite E, T.
  destruct (map_opt (items own) l) as [r|]; [|discriminate]. cbn in *. injection IH1 as ->. auto.
Qed.

Definition fields_back (m : sdict attr) (l : list attr) : Prop :=
  exists t, l = ref_list m ++ name_back m ++ [transition_attr t (meta_back m)]
                 /\ transition_back (text_of "lifecycle:transition" m) t.

Lemma event_elem_back e n x : mwrite_event e = Ok n -> et_tree n = Ok x ->
  tidy x = true /\ exists l, items in_instance x = Some [inr l] /\ fields_back (ev_attrs e) l.
Proof.
  unfold mwrite_event. set (m := ev_attrs e).
  destruct (add_data m) as [d|] eqn:D; [|discriminate]. cbn [bind].
  destruct (reference_atts m) as [r|] eqn:R; [|discriminate]. cbn [bind].
  destruct (extract_name m) as [nm|] eqn:N; [|discriminate]. cbn [bind].
  destruct (write_type m) as [ty|] eqn:Ty; [|discriminate]. cbn [bind].
  destruct (write_originator m) as [o|] eqn:O; [|discriminate]. cbn [bind].
  destruct (write_timestamp m) as [w|] eqn:W; [|discriminate]. cbn [bind].
  intros [= <-] T. apply et_elem in T as (a' & s & ks & A & S & K & ->). injection A as <-. injection S as <-. cbn [app].
  cbn [map_res] in K. destruct (et_tree d) as [xd|] eqn:X1; [|discriminate].
  destruct (et_tree (EElem (py "WorkflowModelElement") r nm [])) as [xe|] eqn:X2; [|discriminate].
  destruct (et_tree ty) as [xt|] eqn:X3; [|discriminate].
  destruct (map_res et_tree (o ++ w)) as [xs|] eqn:X4; [|discriminate]. injection K as <-.
  apply map_res_app in X4 as (xo & xw & Ho & Hw & ->).
  apply (originator_hollow m o xo O) in Ho. apply (timestamp_hollow m w xw W) in Hw.
  destruct (data_hollow m d xd D X1) as [T1 I1].
  destruct (element_field m r nm xe R N X2) as [T2 I2].
  destruct (type_field_back m ty xt Ty X3) as (t & [T3 I3] & B).
  assert (H : Forall hollow (xo ++ xw)) by (apply Forall_app; auto).
  destruct (all_hollow field_of _ H) as [I4 T4]. split.
  - cbn [tidy]. destruct xd; [|discriminate]. cbn [forallb]. now rewrite T1, T2, T3, T4.
  - exists (ref_list m ++ name_back m ++ [transition_attr t (meta_back m)]). split; [|exists t; auto].
    rewrite items_own by reflexivity. unfold in_instance.
    change (str_eqb (py "AuditTrailEntry") (py "AuditTrailEntry")) with true. cbv iota.
    unfold all_items in *. cbn [map_opt]. rewrite (I1 _ field_of), I2, I3.
    destruct (map_opt (items field_of) (xo ++ xw)) as [q|]; [|discriminate]. cbn in *. injection I4 as ->.
    now rewrite <- app_assoc.
Qed.

Lemma named m v : extract_name m = Ok v -> forall none w, prefixed none (or_text (py "None") v) = Ok w ->
  v = match text_of "concept:name" m with Some s => PStr s | None => PNone end
  /\ w = PStr (none ++ or_none "None" (text_of "concept:name" m)).
Proof.
  unfold extract_name, text_of. destruct (sget _ m) as [a|].
  - unfold get_value. destruct (is_collection _); [discriminate|]. intros [= <-] none w.
    destruct (a_val a); try discriminate; intros [= <-]; auto.
  - intros [= <-] none w [= <-]. auto.
Qed.

Definition head_atts (id text : pystr) (m : sdict attr) : sdict pystr :=
  [(py "id", id); (py "description", text)] ++ ref_pairs m.
Lemma head_reference id text m : reference_of (head_atts id text m) = ref_list m.
Proof. unfold head_atts. unfold reference_of. cbn [app]. rewrite !sget_cons_other by reflexivity. apply reference_ref. Qed.
Lemma head_back m v none w r a' none2 :
  extract_name m = Ok v -> prefixed none (or_text (py "None") v) = Ok w -> reference_atts m = Ok r ->
  map_res et_attribute ([(py "id", or_text (py none2) v); (py "description", w)] ++ r) = Ok a' ->
  a' = head_atts (or_none none2 (text_of "concept:name" m)) (none ++ or_none "None" (text_of "concept:name" m)) m.
Proof.
  intros N P R A. destruct (named m v N none w P) as [-> ->].
  apply map_res_app in A as (b1 & b2 & A1 & A2 & ->). rewrite (reference_pairs m r b2 R A2).
  cbn [map_res et_attribute snd fst bind] in A1. unfold head_atts. f_equal.
  destruct (text_of "concept:name" m); cbn in A1; now injection A1 as <-.
Qed.

Definition trace_atts (t : trace) : sdict pystr :=
  let n := or_none "None" (text_of "concept:name" (tr_attrs t)) in
  head_atts n (py "instance with id " ++ n) (tr_attrs t).

Lemma events_back es ns xs : map_res mwrite_event es = Ok ns -> map_res et_tree ns = Ok xs ->
  forallb tidy xs = true
  /\ exists ls, all_items in_instance xs = Some (map inr ls) /\ Forall2 (fun e l => fields_back (ev_attrs e) l) es ls.
Proof.
  revert ns xs. induction es as [|e es IH]; intros ns xs; cbn [map_res].
  - intros [= <-] [= <-]. split; [reflexivity|]. exists []. split; [reflexivity|constructor].
  - destruct (mwrite_event e) as [n|] eqn:E; [|discriminate]. destruct (map_res mwrite_event es) as [ns'|]; [|discriminate].
    intros [= <-]. cbn [map_res]. destruct (et_tree n) as [x|] eqn:T; [|discriminate].
    destruct (map_res et_tree ns') as [xs'|] eqn:Ts; [|discriminate]. intros [= <-].
    destruct (event_elem_back e n x E T) as (A & l & B & C).
    destruct (IH ns' xs' eq_refl Ts) as (A' & ls & B' & C'). split; [cbn [forallb]; now rewrite A, A'|].
    exists (l :: ls). split; [|constructor; auto].
    unfold all_items in *. cbn [map_opt]. rewrite B. destruct (map_opt (items in_instance) xs'); [|discriminate].
    cbn in *. injection B' as ->. reflexivity.
Qed.

Lemma trace_elem_back t n x : mwrite_trace t = Ok n -> et_tree n = Ok x ->
  tidy x = true /\ exists ls, items in_process x = Some [inr (trace_atts t, map inr ls)]
                              /\ Forall2 (fun e l => fields_back (ev_attrs e) l) (tr_events t) ls.
Proof.
  unfold mwrite_trace. set (m := tr_attrs t).
  destruct (extract_name m) as [v|] eqn:N; [|discriminate]. cbn [bind].
  destruct (prefixed _ _) as [w|] eqn:P; [|discriminate]. cbn [bind].
  destruct (reference_atts m) as [r|] eqn:R; [|discriminate]. cbn [bind].
  destruct (add_data m) as [d|] eqn:D; [|discriminate]. cbn [bind].
  destruct (map_res mwrite_event (tr_events t)) as [es|] eqn:E; [|discriminate]. cbn [bind].
  intros [= <-] T. apply et_elem in T as (a' & s & ks & A & S & K & ->). injection S as <-. cbn [app].
  rewrite (head_back m v _ w r a' _ N P R A). cbn [map_res] in K.
  destruct (et_tree d) as [xd|] eqn:X1; [|discriminate]. destruct (map_res et_tree es) as [xs|] eqn:X2; [|discriminate].
  injection K as <-. destruct (data_hollow m d xd D X1) as [T1 I1].
  destruct (events_back _ es xs E X2) as (T2 & ls & I2 & F). split.
  - cbn [tidy]. destruct xd; [|discriminate]. cbn [forallb]. now rewrite T1, T2.
  - exists ls. split; [|exact F]. rewrite items_own by reflexivity. unfold in_process.
    change (str_eqb (py "ProcessInstance") (py "ProcessInstance")) with true. cbv iota.
    unfold all_items in *. cbn [map_opt]. rewrite (I1 _ in_instance).
    destruct (map_opt (items in_instance) xs); [|discriminate]. cbn in *. injection I2 as ->. reflexivity.
Qed.

Definition trace_rel (t : trace) (i : instance) : Prop :=
  exists ls, i = (trace_atts t, map inr ls) /\ Forall2 (fun e l => fields_back (ev_attrs e) l) (tr_events t) ls.
Lemma traces_back ts ns xs : map_res mwrite_trace ts = Ok ns -> map_res et_tree ns = Ok xs ->
  forallb tidy xs = true /\ exists is, all_items in_process xs = Some (map inr is) /\ Forall2 trace_rel ts is.
Proof.
  revert ns xs. induction ts as [|e es IH]; intros ns xs; cbn [map_res].
  - intros [= <-] [= <-]. split; [reflexivity|]. exists []. split; [reflexivity|constructor].
  - destruct (mwrite_trace e) as [n|] eqn:E; [|discriminate]. destruct (map_res mwrite_trace es) as [ns'|]; [|discriminate].
    intros [= <-]. cbn [map_res]. destruct (et_tree n) as [x|] eqn:T; [|discriminate].
    destruct (map_res et_tree ns') as [xs'|] eqn:Ts; [|discriminate]. intros [= <-].
    destruct (trace_elem_back e n x E T) as (A & l & B & C).
    destruct (IH ns' xs' eq_refl Ts) as (A' & ls & B' & C'). split; [cbn [forallb]; now rewrite A, A'|].
    exists ((trace_atts e, map inr l) :: ls). split; [|constructor; [exists l; auto|exact C']].
    unfold all_items in *. cbn [map_opt]. rewrite B. destruct (map_opt (items in_process) xs'); [|discriminate].
    cbn in *. injection B' as ->. reflexivity.
Qed.

Definition source_atts : sdict pystr :=
  [(py "program", py "XES MXML serialization"); (py "openxes.version", py "1.0RC7")].
Definition log_atts (l : xlog) : sdict pystr :=
  head_atts (or_none "none" (text_of "concept:name" (lg_attrs l)))
            (py "process with id " ++ or_none "None" (text_of "concept:name" (lg_attrs l))) (lg_attrs l).

Lemma log_elem_back l x : mxml_serialize l = Ok x ->
  tidy x = true /\ exists is, mxml_items x = Some [DSource source_atts []; DProcess (log_atts l) (map inr is)]
                              /\ Forall2 trace_rel (lg_traces l) is.
Proof.
  unfold mxml_serialize, mwrite_log. set (m := lg_attrs l).
  destruct (extract_name m) as [v|] eqn:N; [|discriminate]. cbn [bind].
  destruct (prefixed _ _) as [w|] eqn:P; [|discriminate]. cbn [bind].
  destruct (reference_atts m) as [r|] eqn:R; [|discriminate]. cbn [bind].
  destruct (add_data m) as [d|] eqn:D; [|discriminate]. cbn [bind].
  destruct (map_res mwrite_trace (lg_traces l)) as [ts|] eqn:E; [|discriminate]. cbn [bind].
  intros T. apply et_elem in T as (a' & s & ks & A & S & K & ->). injection A as <-. injection S as <-. cbn [app].
  cbn [map_res] in K. destruct (et_tree (EElem (py "Source") _ _ _)) as [x1|] eqn:X1; [|discriminate].
  destruct (et_tree (EElem (py "Process") _ _ _)) as [x2|] eqn:X2; [|discriminate]. injection K as <-.
  apply et_elem in X1 as (a1 & s1 & k1 & A1 & S1 & K1 & ->). injection A1 as <-. injection S1 as <-. injection K1 as <-.
  apply et_elem in X2 as (a2 & s2 & k2 & A2 & S2 & K2 & ->). injection S2 as <-. cbn [app].
  rewrite (head_back m v _ w r a2 _ N P R A2). cbn [map_res] in K2.
  destruct (et_tree d) as [xd|] eqn:Y1; [|discriminate]. destruct (map_res et_tree ts) as [xs|] eqn:Y2; [|discriminate].
  injection K2 as <-. destruct (data_hollow m d xd D Y1) as [T1 I1].
  destruct (traces_back _ ts xs E Y2) as (T2 & is & I2 & F). split.
  - cbn [tidy forallb]. destruct xd; [|discriminate]. cbn [forallb]. now rewrite T1, T2.
  - exists is. split; [|exact F]. unfold mxml_items. cbn [items]. change (grouping (py "WorkflowLog")) with true. cbv iota.
    cbn [leaf_text]. cbn [map_opt]. rewrite !items_own by reflexivity.
    unfold in_document. change (str_eqb (py "Process") (py "Process")) with true.
    change (str_eqb (py "Source") (py "Process")) with false. change (str_eqb (py "Source") (py "Source")) with true. cbv iota.
    unfold all_items in *. cbn [map_opt option_map]. rewrite (I1 _ in_process).
    destruct (map_opt (items in_process) xs); [|discriminate]. cbn [option_map List.concat app] in *. injection I2 as ->. reflexivity.
Qed.
End Write.

(** ** Reading it back *)

Lemma before_inr (ls : list (list attr)) : before_entry (map inr ls) = [].
Proof. destruct ls; reflexivity. Qed.
Lemma lefts_inr {A B} (ls : list B) : @lefts A B (map inr ls) = [].
Proof. induction ls; auto. Qed.
Lemma rights_inr {A B} (ls : list B) : @rights A B (map inr ls) = ls.
Proof. induction ls; [reflexivity|]. cbn. f_equal. exact IHls. Qed.
Lemma after_inr ls : after_entry (map inr ls) = [].
Proof. destruct ls; [reflexivity|]. apply lefts_inr. Qed.

Section Back.
Context `{FIO : FloatIO}.

Lemma rel_early t i : trace_rel t i -> early i = [] /\ filled i = has_items (tr_events t).
Proof.
  intros (ls & -> & F). unfold early, filled, entries. cbn [snd]. rewrite rights_inr. destruct F; split; reflexivity.
Qed.
Lemma rel_astray ts is : Forall2 trace_rel ts is -> astray (map inr is) = [] /\ log_data (map inr is) = [] /\ flat_map loose (map inr is) = [].
Proof.
  induction 1 as [|t i ts is R F (A & B & C)]; [auto|]. destruct (rel_early t i R) as [E _]. cbn. rewrite E, C, A.
  destruct (filled i); auto.
Qed.
Lemma rel_kept ts is : Forall2 trace_rel ts is ->
  Forall2 trace_rel (filter (fun t => has_items (tr_events t)) ts) (kept (map inr is)).
Proof.
  unfold kept. rewrite rights_inr. induction 1 as [|t i ts is R F IH]; [constructor|]. cbn [filter].
  destruct (rel_early t i R) as [_ ->]. destruct (has_items (tr_events t)); [constructor|]; auto.
Qed.

Lemma fields_event_back e l : fields_back (ev_attrs e) l -> event_back (index l) e.
Proof.
  intros (t & -> & B). set (m := ev_attrs e) in *. set (meta := meta_back m). unfold event_back, value_is. fold m.
  assert (R : forall k, k <> py "semantic:modelReference" -> last_with k (ref_list m) = None).
  { intros k N. apply last_none. unfold ref_list. destruct (nonempty_text _); [|easy]. cbn. intros [E|[]]. now apply N. }
  assert (Nm : forall k, k <> py "concept:name" -> last_with k (name_back m) = None).
  { intros k N. apply last_none. unfold name_back. destruct (opt_bind _ _); [|easy]. cbn. intros [E|[]]. now apply N. }
  assert (T : forall k, k <> py "lifecycle:transition" -> last_with k [transition_attr t meta] = None).
  { intros k N. apply last_none. cbn. intros [E|[]]. now apply N. }
  rewrite !sget_index, !last_app. split; [|split; [|split]].
  - rewrite T, R by discriminate. unfold name_back. now destruct (opt_bind _ _).
  - exists t. split; [reflexivity|exact B].
  - rewrite T, Nm by discriminate. unfold ref_list. now destruct (nonempty_text _).
  - intros k N. rewrite sget_index, !last_app, T, Nm, R; [reflexivity| | |]; intros ->; apply N; cbn; auto.
Qed.

Lemma head_own id text m : blank text = false ->
  own_attrs (head_atts id text m) = name_of id ++ [text_attr (py "description") None text []] ++ ref_list m.
Proof.
  intros B. unfold own_attrs. rewrite head_reference. unfold head_atts. cbn [app].
  change (att "id" ((py "id", id) :: (py "description", text) :: ref_pairs m) (py "None")) with id.
  change (sget (py "description") ((py "id", id) :: (py "description", text) :: ref_pairs m)) with (Some text).
  cbn [nonblank_text]. now rewrite B.
Qed.

Section Names.
Context (id text : pystr) (m : sdict attr).
Let l := name_of id ++ [text_attr (py "description") None text []] ++ ref_list m.
Lemma head_name : option_map a_val (last_with (py "concept:name") l) = option_map PStr (nonblank_text (Some id)).
Proof.
  unfold l. rewrite !last_app. unfold ref_list, name_of. destruct (nonempty_text _); cbn [nonblank_text]; destruct (blank id); reflexivity.
Qed.
Lemma head_description : option_map a_val (last_with (py "description") l) = Some (PStr text).
Proof. unfold l. rewrite !last_app. unfold ref_list. destruct (nonempty_text _); reflexivity. Qed.
Lemma head_ref : option_map a_val (last_with (py "semantic:modelReference") l)
  = option_map PStr (nonempty_text (text_of "semantic:modelReference" m)).
Proof. unfold l. rewrite !last_app. unfold ref_list, name_of. destruct (nonempty_text _), (blank id); reflexivity. Qed.
Lemma head_only k : ~ In k [py "concept:name"; py "description"; py "semantic:modelReference"] -> last_with k l = None.
Proof.
  intros N. apply last_none. intros I. apply N. apply in_map_iff in I as (a & <- & I). unfold l in I.
  rewrite !in_app_iff in I. destruct I as [I|[[<-|[]]|I]]; [|cbn; auto|].
  - unfold name_of in I. destruct (blank id); [easy|]. destruct I as [<-|[]]. cbn; auto.
  - unfold ref_list in I. destruct (nonempty_text _); [|easy]. destruct I as [<-|[]]. cbn; auto.
Qed.
End Names.

Lemma instance_text_nonblank s : blank (py "instance with id " ++ s) = false.
Proof. reflexivity. Qed.

Lemma rel_trace_back t i : trace_rel t i -> trace_back (index (own_attrs (fst i) ++ after_entry (snd i))) t.
Proof.
  intros (ls & -> & _). cbn [fst snd]. rewrite after_inr, app_nil_r. unfold trace_atts. rewrite head_own by apply instance_text_nonblank.
  unfold trace_back, value_is. rewrite !sget_index. split; [apply head_name|]. split; [apply head_description|]. split; [apply head_ref|].
  intros k N. rewrite sget_index. now apply head_only.
Qed.

Lemma source_text : source_attr source_atts [] = mk_attr CLiteral (py "source") None (PStr (py "XES MXML serialization")) [] [].
Proof. reflexivity. Qed.
Lemma process_text s : nonempty_text (Some (py "process with id " ++ s)) = Some (py "process with id " ++ s).
Proof. reflexivity. Qed.

Lemma back_log_list l is : Forall2 trace_rel (lg_traces l) is ->
  log_list (mk_proc (Some (source_atts, [])) (log_atts l) (map inr is))
  = [source_attr source_atts []] ++ name_of (or_none "none" (text_of "concept:name" (lg_attrs l))) ++ [model_attr (py "standard")]
    ++ [text_attr (py "description") None (py "process with id " ++ or_none "None" (text_of "concept:name" (lg_attrs l))) []]
    ++ ref_list (lg_attrs l).
Proof.
  intros F. destruct (rel_astray _ _ F) as (_ & D & _). unfold log_list. cbn [pr_source pr_atts pr_items option_map fst snd opt_list].
  rewrite D, app_nil_r. unfold log_atts at 3. rewrite head_reference. unfold log_atts, head_atts. cbn [app].
  set (n := or_none "none" _). set (t := py "process with id " ++ _).
  change (att "id" ((py "id", n) :: (py "description", t) :: ref_pairs (lg_attrs l)) []) with n.
  change (sget (py "description") ((py "id", n) :: (py "description", t) :: ref_pairs (lg_attrs l))) with (Some t).
  unfold t. rewrite process_text. reflexivity.
Qed.

Lemma mxml_round draw l doc : mxml_serialize l = Ok doc ->
  exists s m, mxml_parse draw (pretty 0 doc) = Ok s /\ m_logs s = [m] /\ log_back (m_sources s) m l
  /\ Forall2 (fun t u => trace_back (mt_attrs t) u
                         /\ Forall2 (fun o e => exists ev, o = Some ev /\ event_back (ev_attrs ev) e) (mt_events t) (tr_events u))
             (ml_traces m) (filter (fun u => has_items (tr_events u)) (lg_traces l)).
Proof.
  intros S. destruct (log_elem_back l doc S) as (T & is & I & F).
  rewrite <- (document_pretty doc 0 T) in I. destruct (reads_processes draw _ _ I) as (s & R & G).
  assert (P : processes None [DSource source_atts []; DProcess (log_atts l) (map inr is)]
              = [mk_proc (Some (source_atts, [])) (log_atts l) (map inr is)]).
  { cbn [processes to_source app]. destruct (rel_astray _ _ F) as (-> & _). reflexivity. }
  rewrite P in G. inversion G as [|m p ms ps L E Em Ep]; subst. inversion E; subst. exists s, m.
  split; [exact R|]. split; [now symmetry|]. split.
  - unfold log_back, log_value_is. rewrite !(log_look draw _ _ _ _ L), (back_log_list l is F).
    set (n := or_none "none" _). set (t := py "process with id " ++ _).
    assert (X : forall k, k <> py "source" -> k <> py "lifecycle:model" ->
      last_with k ([source_attr source_atts []] ++ name_of n ++ [model_attr (py "standard")] ++ [text_attr (py "description") None t []] ++ ref_list (lg_attrs l))
      = last_with k (name_of n ++ [text_attr (py "description") None t []] ++ ref_list (lg_attrs l))).
    { intros k A B. rewrite !last_app.
      rewrite (last_none k [source_attr _ _]) by (cbn; intros [Q|[]]; now apply A).
      rewrite (last_none k [model_attr _]) by (cbn; intros [Q|[]]; now apply B).
      destruct (last_with k (ref_list _)); [reflexivity|]. destruct (last_with k [text_attr _ _ _ _]); [reflexivity|].
      now destruct (last_with k (name_of n)). }
    rewrite (X (py "concept:name")), (X (py "description")), (X (py "semantic:modelReference")) by discriminate. rewrite head_name, head_description, head_ref. repeat split.
    + rewrite !last_app. unfold ref_list. destruct (nonempty_text _); reflexivity.
    + rewrite !last_app. unfold ref_list, name_of. destruct (nonempty_text _), (blank n); reflexivity.
    + intros k N. apply (log_keys draw _ _ _ k L). rewrite (back_log_list l is F). fold n t.
      rewrite X by (intros ->; apply N; cbn; auto 10). apply head_only. intros [Q|[Q|[Q|[]]]]; subst k; apply N; cbn; auto 10.
  - destruct L as [L _]. cbn [pr_items] in L. pose proof (rel_kept _ _ F) as K.
    revert L K. generalize (kept (map inr is)), (ml_traces m), (filter (fun u => has_items (tr_events u)) (lg_traces l)). clear.
    intros is ms ts A. revert ts. induction A as [|t i ms is [H1 H2] A IH]; intros ts B; inversion B as [|u i' us is' C D]; subst; constructor; auto.
    split; [rewrite H2; now apply rel_trace_back|].
    destruct C as (ls & -> & C). unfold entries in H1. cbn [snd] in H1. rewrite rights_inr in H1. clear - H1 C.
    revert H1. generalize (mt_events t). induction C as [|e l es ls H C IH]; intros [|o os] E; try discriminate; constructor.
    + injection E as E _. destruct o as [ev|]; [|discriminate]. injection E as E. exists ev. split; [reflexivity|].
      rewrite E. now apply fields_event_back.
    + injection E as _ E. auto.
Qed.
End Back.
