(** When two logs have the same file. *)
From Coq Require Import String NArith ZArith List Bool Lia.
From Verif Require Import Base.PyBase Base.PyDate Base.PyVal Base.Xml Model.Attr Model.Log Model.Token Model.XmlText Model.XmlChars Model.XesWrite Model.MxmlWrite Model.FileNames Model.Files
  Base.Codec Spec.OnDisk
  Spec.DateText Spec.Registries Spec.Xes Spec.Loose Spec.SameFile Spec.XmlNorm Spec.XmlLines Spec.XesWritten
  Proofs.BaseFacts Proofs.AttrInd Proofs.XidFacts Proofs.DateFacts Proofs.XesRoundFacts Proofs.XesReadFacts Proofs.XmlScanFacts Proofs.XmlTextFacts
  Proofs.MxmlRoundFacts Proofs.XmlFileFacts Proofs.XmlLineFacts Proofs.LooseFacts Proofs.XesWrittenFacts Proofs.DiskFacts.
Import ListNotations.
Local Open Scope N_scope.

(** ** The printed text tells the tree *)
Lemma cut_at (p : N -> bool) a : forall b c d r s, forallb p a = true -> forallb p b = true -> p c = false -> p d = false ->
  a ++ c :: r = b ++ d :: s -> a = b /\ c :: r = d :: s.
Proof.
  induction a as [|x a IH]; intros [|y b] c d r s A B C D E; cbn in *.
  - auto.
  - injection E as <- _. apply andb_true_iff in B as [B _]. congruence.
  - injection E as -> _. apply andb_true_iff in A as [A _]. congruence.
  - injection E as <- E. apply andb_true_iff in A as [_ A]. apply andb_true_iff in B as [_ B].
    destruct (IH _ _ _ _ _ A B C D E) as [-> F]. auto.
Qed.
Lemma esc_cases c : (exists r, esc_dom c = 38 :: r) \/ (esc_dom c = [c] /\ c <> 38 /\ c <> 60 /\ c <> 62 /\ c <> 34).
Proof.
  unfold esc_dom. destruct (N.eqb_spec c 38); [left; eexists; reflexivity|]. destruct (N.eqb_spec c 60); [left; eexists; reflexivity|].
  destruct (N.eqb_spec c 34); [left; eexists; reflexivity|]. destruct (N.eqb_spec c 62); [left; eexists; reflexivity|]. right. auto.
Qed.
Lemma esc_head c d r s : esc_dom c ++ r = esc_dom d ++ s -> c = d /\ r = s.
Proof.
  unfold esc_dom.
  destruct (N.eqb_spec c 38) as [->|C1]; [|destruct (N.eqb_spec c 60) as [->|C2]; [|destruct (N.eqb_spec c 34) as [->|C3]; [|destruct (N.eqb_spec c 62) as [->|C4]]]];
  (destruct (N.eqb_spec d 38) as [->|D1]; [|destruct (N.eqb_spec d 60) as [->|D2]; [|destruct (N.eqb_spec d 34) as [->|D3]; [|destruct (N.eqb_spec d 62) as [->|D4]]]]);
  cbn; intros E; injection E; intros; subst; try contradiction; try discriminate; auto.
Qed.
Lemma esc_some c : esc_dom c <> [].
Proof. destruct (esc_cases c) as [[r ->]|[-> _]]; discriminate. Qed.
Lemma esc_inj s : forall t, flat_map esc_dom s = flat_map esc_dom t -> s = t.
Proof.
  induction s as [|c s IH]; intros [|d t] E; cbn in E; auto.
  - exfalso. destruct (esc_dom d) eqn:D; [now apply (esc_some d)|discriminate].
  - exfalso. destruct (esc_dom c) eqn:D; [now apply (esc_some c)|discriminate].
  - apply esc_head in E as [-> E]. f_equal. auto.
Qed.
Definition plain (q c : N) : bool := negb (c =? q).
Lemma esc_plain q s : q = 34 \/ q = 60 -> forallb (plain q) (flat_map esc_dom s) = true.
Proof.
  intros Q. apply forallb_forall. intros x I. apply in_flat_map in I as (c & _ & I). unfold plain. apply negb_true_iff, N.eqb_neq. intros ->.
  unfold esc_dom in I.
  destruct (N.eqb_spec c 38); [cbn in I; lia|]. destruct (N.eqb_spec c 60); [cbn in I; lia|].
  destruct (N.eqb_spec c 34); [cbn in I; lia|]. destruct (N.eqb_spec c 62); [cbn in I; lia|]. destruct I as [->|[]]. lia.
Qed.
Lemma name_chars t : simple_name t = true -> forallb name_char t = true.
Proof.
  destruct t as [|c r]; [discriminate|]. cbn. intros H. apply andb_true_iff in H as [H ->]. unfold name_char. now rewrite H.
Qed.
Lemma atts_inj a : forall b c d r s, forallb (fun kv => simple_name (fst kv)) a = true -> forallb (fun kv => simple_name (fst kv)) b = true ->
  c <> 32 -> d <> 32 -> flat_map (print_att esc_dom) a ++ c :: r = flat_map (print_att esc_dom) b ++ d :: s -> a = b /\ c :: r = d :: s.
Proof.
  induction a as [|[k v] a IH]; intros [|[k2 v2] b] c d r s A B C D E.
  - auto.
  - cbn in E. injection E as -> _. now contradiction C.
  - cbn in E. injection E as <- _. now contradiction D.
  - cbn [flat_map] in E. unfold print_att at 1 3 in E. cbn [fst snd] in E. repeat rewrite <- app_assoc in E. cbn [app] in E.
    cbn [forallb fst] in A, B. apply andb_true_iff in A as [A1 A]. apply andb_true_iff in B as [B1 B].
    injection E as E. apply (cut_at name_char) in E as [-> E]; auto using name_chars. injection E as E. unfold quote in E.
    apply (cut_at (plain 34)) in E as [E1 E]; auto using esc_plain. apply esc_inj in E1 as ->. injection E as E.
    apply IH in E as [-> E]; auto.
Qed.
(** Elements with text only, or with elements only. *)
Fixpoint tidy (x : xnode) : bool :=
  match x with
  | XText _ => true
  | XElem _ _ [XText _] => true
  | XElem _ _ kids => forallb (fun k => negb (is_text k) && tidy k) kids
  end.
Definition tells (x : xnode) : Prop := forall y d r s, is_text x = false -> is_text y = false ->
  shaped x = true -> shaped y = true -> tidy x = true -> tidy y = true ->
  dom_print d x ++ r = dom_print d y ++ s -> x = y /\ r = s.
Definition ok_kid (k : xnode) : Prop := is_text k = false /\ shaped k = true /\ tidy k = true.
Lemma elem_starts d x : is_text x = false -> shaped x = true -> exists c r, c <> 47 /\ dom_print d x = repeat 9 d ++ 60 :: c :: r.
Proof.
  destruct x as [t a kids|s]; [intros _|discriminate]. cbn [shaped]. intros H. repeat (apply andb_true_iff in H as [H _]).
  destruct t as [|c t]; [discriminate|]. cbn in H. apply andb_true_iff in H as [H _].
  exists c. eexists. split; [|cbn; unfold tabs; reflexivity]. intros ->. discriminate H.
Qed.
Lemma kids_tell d kids : Forall tells kids -> forall kids2 r s, Forall ok_kid kids -> Forall ok_kid kids2 ->
  flat_map (dom_print (S d)) kids ++ tabs d ++ 60 :: 47 :: r = flat_map (dom_print (S d)) kids2 ++ tabs d ++ 60 :: 47 :: s ->
  kids = kids2 /\ r = s.
Proof.
  unfold tabs. induction 1 as [|x l H F IH]; intros [|y m] r s A B E; cbn [flat_map app] in E.
  - apply tabs_first in E as [_ E]. injection E as E. auto.
  - exfalso. inversion B as [|? ? (B1 & B2 & _) _]; subst. destruct (elem_starts (S d) y B1 B2) as (c & q & _ & X).
    rewrite X in E. repeat rewrite <- app_assoc in E. apply tabs_first in E as [E _]. lia.
  - exfalso. inversion A as [|? ? (B1 & B2 & _) _]; subst. destruct (elem_starts (S d) x B1 B2) as (c & q & _ & X).
    rewrite X in E. repeat rewrite <- app_assoc in E. symmetry in E. apply tabs_first in E as [E _]. lia.
  - inversion A as [|? ? (A1 & A2 & A3) A4]; subst. inversion B as [|? ? (B1 & B2 & B3) B4]; subst.
    repeat rewrite <- app_assoc in E. apply H in E as [-> E]; auto. apply IH in E as [-> E]; auto.
Qed.
Definition body (d : nat) (t : pystr) (kids : list xnode) : pystr :=
  match kids with
  | [] => [47; 62]
  | [XText s] => [62] ++ flat_map esc_dom s ++ [60; 47] ++ t ++ [62]
  | _ => [62; 10] ++ flat_map (dom_print (S d)) kids ++ tabs d ++ [60; 47] ++ t ++ [62]
  end.
Inductive kid_kind : list xnode -> Prop :=
| kind_none : kid_kind []
| kind_text s : kid_kind [XText s]
| kind_elems k kids : Forall ok_kid (k :: kids) -> kid_kind (k :: kids).
Lemma kinds t a kids : shaped (XElem t a kids) = true -> tidy (XElem t a kids) = true -> kid_kind kids.
Proof.
  intros S T. cbn [shaped] in S. apply andb_true_iff in S as [_ S].
  destruct kids as [|k kids]; [constructor|].
  assert (H : (exists s, k :: kids = [XText s]) \/ forallb (fun k => negb (is_text k) && tidy k) (k :: kids) = true).
  { destruct k as [t2 a2 k2|s]; [right; exact T|]. destruct kids as [|y kids]; [left; eauto|]. right. exact T. }
  destruct H as [(s & ->)|H]; [constructor|]. constructor. clear T. rewrite forallb_forall in S, H. apply Forall_forall. intros x I.
  specialize (H x I). apply andb_true_iff in H as [H1 H2]. apply negb_true_iff in H1. repeat split; auto.
Qed.
Lemma body_elems d t k kids : Forall ok_kid (k :: kids) ->
  body d t (k :: kids) = [62; 10] ++ flat_map (dom_print (S d)) (k :: kids) ++ tabs d ++ [60; 47] ++ t ++ [62].
Proof. intros F. inversion F as [|? ? (A & _) _]; subst. destruct k; [reflexivity|discriminate]. Qed.
Lemma text_elems d v k r z : ok_kid k -> flat_map esc_dom v ++ 60 :: 47 :: r = 10 :: dom_print (S d) k ++ z -> False.
Proof.
  intros (A1 & A2 & _) E. destruct (elem_starts (S d) k A1 A2) as (c & q & C & X).
  rewrite X in E. repeat rewrite <- app_assoc in E. cbn [app] in E.
  rewrite app_comm_cons in E. apply (cut_at (plain 60)) in E as [_ E]; auto using esc_plain.
  - injection E as E1 _. congruence.
  - change (forallb (plain 60) (10 :: repeat 9 (S d)) = true). cbn. clear. induction d; auto.
Qed.
Lemma body_tells d t kids kids2 r s : Forall tells kids -> kid_kind kids -> kid_kind kids2 ->
  body d t kids ++ 10 :: r = body d t kids2 ++ 10 :: s -> kids = kids2 /\ r = s.
Proof.
  intros F A B E. destruct A as [|v|k kids A], B as [|v2|k2 kids2 B]; try rewrite (body_elems _ _ _ _ A) in E; try rewrite (body_elems _ _ _ _ B) in E; cbn [body] in E;
    repeat rewrite <- app_assoc in E; cbn [app] in E; try discriminate E.
  - injection E as E. auto.
  - injection E as E. apply (cut_at (plain 60)) in E as [E1 E]; auto using esc_plain. apply esc_inj in E1 as ->.
    injection E as E. apply app_inv_head in E. injection E as E. auto.
  - exfalso. injection E as E. repeat rewrite <- app_assoc in E. cbn [app] in E. eapply text_elems; [exact (Forall_inv B)|exact E].
  - exfalso. injection E as E. repeat rewrite <- app_assoc in E. cbn [app] in E. symmetry in E. eapply text_elems; [exact (Forall_inv A)|exact E].
  - injection E as E. apply (kids_tell d (k :: kids) F (k2 :: kids2) _ _ A B) in E as [E1 E]. rewrite E1. apply app_inv_head in E. injection E as E. auto.
Qed.
Lemma print_tells x : tells x.
Proof.
  induction x as [t a kids IH|s] using xnode_ind2; [|discriminate 1].
  intros [t2 a2 kids2|]; [|discriminate 2]. intros d r s _ _ S1 S2 T1 T2 E.
  assert (K1 := kinds _ _ _ S1 T1). assert (K2 := kinds _ _ _ S2 T2).
  change (dom_print d (XElem t a kids)) with (tabs d ++ [60] ++ t ++ flat_map (print_att esc_dom) a ++ body d t kids ++ [10]) in E.
  change (dom_print d (XElem t2 a2 kids2)) with (tabs d ++ [60] ++ t2 ++ flat_map (print_att esc_dom) a2 ++ body d t2 kids2 ++ [10]) in E.
  repeat rewrite <- app_assoc in E. apply app_inv_head in E. cbn [app] in E. injection E as E.
  cbn [shaped] in S1, S2. apply andb_true_iff in S1 as [S1 _]. apply andb_true_iff in S2 as [S2 _].
  apply andb_true_iff in S1 as [S1 _]. apply andb_true_iff in S2 as [S2 _]. apply andb_true_iff in S1 as [S1 _]. apply andb_true_iff in S2 as [S2 _].
  apply andb_true_iff in S1 as [N1 A1]. apply andb_true_iff in S2 as [N2 A2].
  assert (B : forall t kids, kid_kind kids -> exists c q, (c = 47 \/ c = 62) /\ body d t kids = c :: q).
  { intros u l [|v|k l' F]; [| |rewrite (body_elems _ _ _ _ F)]; cbn; do 2 eexists; (split; [|reflexivity]); auto. }
  destruct (B t kids K1) as (c1 & q1 & C1 & B1). destruct (B t2 kids2 K2) as (c2 & q2 & C2 & B2).
  assert (P : forall a c q, (c = 47 \/ c = 62) -> exists e w, name_char e = false /\ flat_map (print_att esc_dom) a ++ c :: q = e :: w).
  { intros [|[k v] l] c q C; cbn; do 2 eexists; (split; [|reflexivity]); [destruct C as [->| ->]|]; reflexivity. }
  rewrite B1, B2 in E. cbn [app] in E.
  assert (X : t = t2 /\ flat_map (print_att esc_dom) a ++ c1 :: q1 ++ 10 :: r = flat_map (print_att esc_dom) a2 ++ c2 :: q2 ++ 10 :: s).
  { destruct (P a c1 (q1 ++ 10 :: r) C1) as (e1 & w1 & G1 & H1). destruct (P a2 c2 (q2 ++ 10 :: s) C2) as (e2 & w2 & G2 & H2).
    rewrite H1, H2 in *. apply (cut_at name_char) in E; auto using name_chars. }
  destruct X as [-> X]. apply atts_inj in X as [-> X]; auto; [|lia|lia].
  rewrite !app_comm_cons, <- B1, <- B2 in X. apply body_tells in X as [-> X]; auto.
Qed.

(** ** Trees and files *)
Lemma no_texts_tidy x : no_texts x = true -> tidy x = true.
Proof.
  induction x as [t a kids IH|s] using xnode_ind2; [|discriminate]. cbn [no_texts]. intros H.
  assert (F : forallb (fun k => negb (is_text k) && tidy k) kids = true).
  { rewrite forallb_forall in *. rewrite Forall_forall in IH. intros k I. rewrite (IH k I (H k I)), andb_true_r.
    specialize (H k I). destruct k; [reflexivity|discriminate]. }
  destruct kids as [|[t2 a2 k2|s] [|y r]]; auto.
Qed.
Lemma lines_tell x y : is_text x = false -> is_text y = false -> shaped x = true -> shaped y = true -> tidy x = true -> tidy y = true ->
  in_lines (xml_lines 0 x) = in_lines (xml_lines 0 y) -> x = y.
Proof.
  intros. rewrite <- !print_lines in *. apply (print_tells x y 0%nat [] []); auto. now rewrite !app_nil_r.
Qed.
Section S.
Context `{FIO : FloatIO}.
Lemma xes_same_tree l m doc doc2 text text2 : xes_serialize l = Ok doc -> xes_serialize m = Ok doc2 ->
  write_xml xes_comments doc = Some text -> write_xml xes_comments doc2 = Some text2 -> (text = text2 <-> doc = doc2).
Proof.
  intros E F W X. split; [|congruence]. rewrite (xes_layout _ _ _ E W), (xes_layout _ _ _ F X), !in_lines_app.
  intros G. apply app_inv_head in G. destruct (xes_neat _ _ E) as [S T]. destruct (xes_neat _ _ F) as [S2 T2].
  apply lines_tell; auto; eauto using no_texts_tidy, xes_no_texts.
Qed.

(** *** MXML *)
Fixpoint etidy (x : enode) : bool :=
  match x with
  | EElem _ _ text kids => match text, kids with PNone, _ => true | _, [] => true | _, _ => false end && forallb etidy kids
  end.
Lemma etidy_tree : forall x n, etidy x = true -> et_tree x = Ok n -> is_text n = false /\ tidy n = true.
Proof.
  fix self 1. intros [t a text kids] n H E. destruct (et_elem _ _ _ _ _ E) as (b & s & ns & _ & HS & HN & ->). clear E.
  cbn [etidy] in H. apply andb_true_iff in H as [H K]. split; [reflexivity|].
  assert (F : forallb (fun k => negb (is_text k) && tidy k) ns = true).
  { clear - self K HN. revert ns HN. induction kids as [|x kids IH]; intros ns HN; cbn in HN; [now injection HN as <-|].
    cbn in K. apply andb_true_iff in K as [K1 K2]. destruct (et_tree x) as [n|] eqn:EX; [|discriminate].
    destruct (map_res et_tree kids) as [ms|]; [|discriminate]. injection HN as <-.
    destruct (self x n K1 EX) as [A B]. cbn [forallb]. rewrite A, B. cbn. now apply IH. }
  assert (G : forall l, forallb (fun k => negb (is_text k) && tidy k) l = true -> tidy (XElem t b l) = true)
    by (intros [|[t2 a2 k2|q] [|y r]] X; auto).
  unfold et_text in HS. destruct (truthy text) eqn:T; [|injection HS as <-; now apply G].
  destruct text; try discriminate. injection HS as <-. destruct kids as [|x kids]; [|discriminate].
  cbn in HN. injection HN as <-. reflexivity.
Qed.
Lemma data_etidy m n : add_data m = Ok n -> etidy n = true.
Proof.
  unfold add_data. destruct (map_res data_entry (map snd m)) as [ns|] eqn:E; cbn [bind]; [|discriminate]. intros Q. injection Q as <-.
  cbn [etidy andb]. revert ns E. induction (map snd m) as [|a l IH]; intros ns E; cbn in E; [injection E as <-; reflexivity|].
  destruct (data_entry a) as [x|] eqn:EX; [|discriminate]. destruct (map_res data_entry l) as [xs|] eqn:EL; [|discriminate]. injection E as <-.
  cbn [List.concat]. rewrite forallb_app, (IH xs eq_refl), andb_true_r. clear -EX. unfold data_entry in EX.
  destruct (str_eqb _ _); [|now injection EX as <-]. destruct (reference_atts (a_meta a)) as [r|] eqn:ER; [|discriminate]. cbn [bind] in EX.
  destruct (attr_str a); [|discriminate]. cbn [bind] in EX. destruct (a_meta a) eqn:EM; [|discriminate]. now injection EX as <-.
Qed.
Lemma etidy_res {A} (f : A -> res enode) l : (forall x y, f x = Ok y -> etidy y = true) -> forall ys, map_res f l = Ok ys -> forallb etidy ys = true.
Proof.
  intros H. induction l as [|x l IH]; intros ys E; cbn in E; [now injection E as <-|].
  destruct (f x) as [y|] eqn:EX; [|discriminate]. destruct (map_res f l) as [zs|] eqn:EL; [|discriminate]. injection E as <-.
  cbn. now rewrite (H x y EX), (IH zs eq_refl).
Qed.
Lemma leaf_etidy t a v : etidy (EElem t a v []) = true. Proof. destruct v; reflexivity. Qed.
Lemma event_etidy e n : mwrite_event e = Ok n -> etidy n = true.
Proof.
  unfold mwrite_event. destruct (add_data (ev_attrs e)) as [d|] eqn:ED; cbn [bind]; [|intros Q; discriminate Q].
  destruct (reference_atts (ev_attrs e)) as [r|] eqn:ER; cbn [bind]; [|intros Q; discriminate Q].
  destruct (extract_name (ev_attrs e)) as [nm|]; cbn [bind]; [|intros Q; discriminate Q].
  destruct (write_type (ev_attrs e)) as [t|] eqn:ET; cbn [bind]; [|intros Q; discriminate Q].
  destruct (write_originator (ev_attrs e)) as [o|] eqn:EO; cbn [bind]; [|intros Q; discriminate Q].
  destruct (write_timestamp (ev_attrs e)) as [w|] eqn:EW; cbn [bind]; [|intros Q; discriminate Q].
  intros Q. injection Q as <-.
  assert (T2 : etidy t = true).
  { clear -ET. unfold write_type in ET. destruct (sget _ _) as [a|]; [|now injection ET as <-].
    destruct (reference_atts (a_meta a)) as [r|] eqn:ER; [|discriminate]. cbn [bind] in ET. destruct (get_value a) as [v|]; [|discriminate]. cbn [bind] in ET.
    destruct v; try discriminate. destruct (existsb _ _); injection ET as <-; reflexivity. }
  assert (T3 : forallb etidy o = true).
  { clear -EO. unfold write_originator in EO. destruct (originator_attr _) as [a|]; [|now injection EO as <-].
    destruct (reference_atts (a_meta a)) as [r|] eqn:ER; [|discriminate]. cbn [bind] in EO. destruct (get_value a) as [v|]; [|discriminate]. injection EO as <-.
    cbn [forallb]. now rewrite leaf_etidy. }
  assert (T4 : forallb etidy w = true).
  { clear -EW. unfold write_timestamp in EW. destruct (sget _ _) as [a|]; [|now injection EW as <-].
    destruct (reference_atts (a_meta a)) as [r|] eqn:ER; [|discriminate]. cbn [bind] in EW. destruct (get_value a) as [v|]; [|discriminate]. injection EW as <-.
    cbn [forallb]. now rewrite leaf_etidy. }
  change (etidy (EElem (py "AuditTrailEntry") [] PNone (d :: EElem (py "WorkflowModelElement") r nm [] :: t :: o ++ w)))
    with (etidy d && (etidy (EElem (py "WorkflowModelElement") r nm []) && (etidy t && forallb etidy (o ++ w)))).
  now rewrite (data_etidy _ _ ED), leaf_etidy, T2, forallb_app, T3, T4.
Qed.
Lemma trace_etidy t n : mwrite_trace t = Ok n -> etidy n = true.
Proof.
  unfold mwrite_trace. destruct (extract_name (tr_attrs t)) as [nm|]; cbn [bind]; [|intros Q; discriminate Q].
  destruct (prefixed _ _) as [tx|]; cbn [bind]; [|intros Q; discriminate Q].
  destruct (reference_atts (tr_attrs t)) as [r|] eqn:ER; cbn [bind]; [|intros Q; discriminate Q].
  destruct (add_data (tr_attrs t)) as [d|] eqn:ED; cbn [bind]; [|intros Q; discriminate Q].
  destruct (map_res mwrite_event (tr_events t)) as [es|] eqn:EE; cbn [bind]; [|intros Q; discriminate Q].
  intros Q. injection Q as <-. cbn [etidy forallb]. now rewrite (data_etidy _ _ ED), (etidy_res _ _ event_etidy _ EE).
Qed.
Lemma mxml_tidy l doc : mxml_serialize l = Ok doc -> tidy doc = true.
Proof.
  unfold mxml_serialize. destruct (mwrite_log l) as [x|] eqn:E; [|discriminate]. cbn [bind]. intros T.
  refine (proj2 (etidy_tree x doc _ T)). revert E. clear T.
  unfold mwrite_log. destruct (extract_name (lg_attrs l)) as [nm|]; cbn [bind]; [|intros Q; discriminate Q].
  destruct (prefixed _ _) as [tx|]; cbn [bind]; [|intros Q; discriminate Q].
  destruct (reference_atts (lg_attrs l)) as [r|] eqn:ER; cbn [bind]; [|intros Q; discriminate Q].
  destruct (add_data (lg_attrs l)) as [d|] eqn:ED; cbn [bind]; [|intros Q; discriminate Q].
  destruct (map_res mwrite_trace (lg_traces l)) as [es|] eqn:EE; cbn [bind]; [|intros Q; discriminate Q].
  intros Q. injection Q as <-. cbn [etidy forallb]. now rewrite (data_etidy _ _ ED), (etidy_res _ _ trace_etidy _ EE).
Qed.
Lemma lf_is_text x : is_text (lf_texts x) = is_text x. Proof. now destruct x. Qed.
Lemma lf_tidy x : tidy x = true -> tidy (lf_texts x) = true.
Proof.
  induction x as [t a kids IH|s] using xnode_ind2; [|reflexivity]. intros H.
  assert (G : forallb (fun k => negb (is_text k) && tidy k) kids = true -> tidy (lf_texts (XElem t a kids)) = true).
  { intros F. cbn [lf_texts]. rewrite Forall_forall in IH. rewrite forallb_forall in F.
    assert (X : forallb (fun k => negb (is_text k) && tidy k) (map lf_texts kids) = true).
    { apply forallb_forall. intros y I. apply in_map_iff in I as (k & <- & I). specialize (F k I). apply andb_true_iff in F as [F1 F2].
      now rewrite lf_is_text, F1, (IH k I F2). }
    destruct (map lf_texts kids) as [|[t2 a2 k2|q] [|y r]]; auto. }
  destruct kids as [|[t2 a2 k2|q] [|y r]]; auto.
Qed.
Lemma lf_apart l : apart (map lf_texts l) = apart l.
Proof. induction l as [|x [|y l] IH]; try reflexivity.
  change (negb (is_text (lf_texts x) && is_text (lf_texts y)) && apart (map lf_texts (y :: l)) = negb (is_text x && is_text y) && apart (y :: l)).
  now rewrite !lf_is_text, IH.
Qed.
Lemma lf_some s : s <> [] -> lf_only s <> [].
Proof.
  induction s as [|c s IH]; [congruence|]. intros _. cbn. destruct (c =? 13); [|discriminate]. destruct (at_lf s) eqn:A; [|discriminate].
  apply IH. destruct s; [discriminate A|discriminate].
Qed.
Lemma lf_shaped x : shaped x = true -> shaped (lf_texts x) = true.
Proof.
  induction x as [t a kids IH|s] using xnode_ind2; cbn [shaped lf_texts].
  - intros H. apply andb_true_iff in H as [H K]. rewrite lf_apart, H. cbn [andb]. rewrite Forall_forall in IH.
    rewrite forallb_forall in *. intros y I. apply in_map_iff in I as (k & <- & I). auto.
  - destruct s as [|c s]; [discriminate|]. intros _. assert (N := lf_some (c :: s) ltac:(discriminate)). now destruct (lf_only (c :: s)).
Qed.
Lemma mxml_same_tree l m doc doc2 text text2 : mxml_serialize l = Ok doc -> mxml_serialize m = Ok doc2 ->
  write_xml mxml_comments doc = Some text -> write_xml mxml_comments doc2 = Some text2 -> (text = text2 <-> lf_texts doc = lf_texts doc2).
Proof.
  intros E F W X. rewrite (mxml_layout _ _ _ E W), (mxml_layout _ _ _ F X). split; [|congruence]. rewrite !in_lines_app.
  intros G. apply app_inv_head in G. destruct (mxml_neat _ _ E) as [S T]. destruct (mxml_neat _ _ F) as [S2 T2].
  apply lines_tell; rewrite ?lf_is_text; auto using lf_shaped; eauto using lf_tidy, mxml_tidy.
Qed.

(** ** Logs *)
Lemma print_Z_inj a b : print_Z a = print_Z b -> a = b.
Proof.
  intros E. destruct (print_Z_text a) as (ds & _ & F & _ & H & T). destruct (print_Z_text b) as (es & _ & F2 & _ & H2 & T2).
  rewrite T, T2 in E.
  assert (D : forall l m, Forall (fun d => 0 <= d <= 9)%Z l -> Forall (fun d => 0 <= d <= 9)%Z m -> map digit l = map digit m -> l = m).
  { clear. induction l as [|x l IH]; intros [|y m] A B E; try discriminate; [reflexivity|]. cbn [map] in E. injection E as E1 E2.
    inversion A; subst. inversion B; subst. f_equal; [|auto]. unfold digit in E1. lia. }
  assert (P : forall l r, Forall (fun d => 0 <= d <= 9)%Z l -> map digit l = py "-" ++ r -> False).
  { clear. intros [|x l] r A E; [discriminate|]. cbn in E. injection E as E _. inversion A; subst. unfold digit in E. lia. }
  destruct (Z.ltb_spec a 0), (Z.ltb_spec b 0); cbn [app] in E.
  - apply app_inv_head in E. apply D in E; auto. subst. lia.
  - exfalso. symmetry in E. eapply P; [exact F2|exact E].
  - exfalso. eapply P; [exact F|exact E].
  - apply D in E; auto. subst. lia.
Qed.
Lemma stamp_same d e : valid_dt d = true -> minute_zone d -> valid_dt e = true -> minute_zone e ->
  (timestamp_str d = timestamp_str e <-> same_date d e).
Proof.
  intros V M V2 M2. split.
  - intros E. assert (P := parse_timestamp_str d V M). assert (Q := parse_timestamp_str e V2 M2). rewrite <- E in Q.
    assert (X : to_millis d = to_millis e) by congruence. clear P Q. unfold to_millis in X.
    injection X as A B C D F G H I. unfold same_date. repeat split; auto; [lia|].
    destruct (tz d) as [z|] eqn:Z1, (tz e) as [w|] eqn:Z2; cbn; [congruence| | |reflexivity]; exfalso.
    + unfold timestamp_str, dt_digits in E. rewrite Z1, Z2, A, B, C, D, F, G in E.
      replace (us d / 1000)%Z with (us e / 1000)%Z in E by lia. apply app_inv_head in E. subst z. cbv in E. discriminate E.
    + unfold timestamp_str, dt_digits in E. rewrite Z1, Z2, A, B, C, D, F, G in E.
      replace (us d / 1000)%Z with (us e / 1000)%Z in E by lia. apply app_inv_head in E. subst w. cbv in E. discriminate E.
  - intros (A & B & C & D & F & G & H & I). unfold timestamp_str, dt_digits. rewrite A, B, C, D, F, G, H. f_equal.
    unfold minute_zone in *. destruct (tz d) as [[o n]|], (tz e) as [[o2 n2]|]; cbn in *; try discriminate; [|reflexivity].
    destruct M as [-> _], M2 as [-> _]. injection I as ->. reflexivity.
Qed.

Lemma map_res_same {A B} (f : A -> res B) (R : A -> A -> Prop) l : forall m,
  (forall a b, In a l -> In b m -> (f a = f b <-> R a b)) -> Forall (fun a => exists y, f a = Ok y) l -> Forall (fun a => exists y, f a = Ok y) m ->
  (map_res f l = map_res f m <-> Forall2 R l m).
Proof.
  induction l as [|a l IH]; intros [|b m] H FL FM; cbn [map_res].
  - split; [constructor|reflexivity].
  - split; [|intros X; inversion X]. inversion FM as [|? ? (y & E) FM']; subst. rewrite E. cbn [bind]. destruct (map_res f m) eqn:G; [discriminate|].
    exfalso. clear - FM' G. revert e G. induction FM' as [|x m (y & E) F IH]; cbn; [discriminate|]. rewrite E. destruct (map_res f m); [discriminate|]. eauto.
  - split; [|intros X; inversion X]. inversion FL as [|? ? (y & E) FM']; subst. rewrite E. cbn [bind]. destruct (map_res f l) eqn:G; [discriminate|].
    exfalso. clear - FM' G. revert e G. induction FM' as [|x m (y & E) F IH]; cbn; [discriminate|]. rewrite E. destruct (map_res f m); [discriminate|]. eauto.
  - inversion FL as [|? ? (y & E) FL']; subst. inversion FM as [|? ? (z & E2) FM']; subst.
    specialize (IH m (fun a b I J => H a b (or_intror I) (or_intror J)) FL' FM').
    specialize (H a b (or_introl eq_refl) (or_introl eq_refl)). rewrite E, E2 in *.
    destruct (map_res_elems f (fun _ _ => True) l) as (ys & Y & _); [eapply Forall_impl; [|exact FL']; cbv beta; intros ? (q & Q); eauto|].
    destruct (map_res_elems f (fun _ _ => True) m) as (zs & Z & _); [eapply Forall_impl; [|exact FM']; cbv beta; intros ? (q & Q); eauto|].
    rewrite Y, Z in *. cbn [bind]. split.
    + intros X. injection X as -> ->. constructor; [now apply H|now apply IH].
    + intros X. inversion X; subst. assert (y = z) by (apply H in H3; congruence). assert (ys = zs) by (apply IH in H5; congruence). congruence.
Qed.
Lemma written_ok a : Forall proper (post_order a) -> exists n, write_attr a = Ok n.
Proof. intros H. destruct (attr_written a H) as (n & E & _). eauto. Qed.
Lemma written_all l : Forall proper (flat_map post_order l) -> Forall (fun a => exists n, write_attr a = Ok n) l.
Proof. rewrite Forall_flat. intros H. eapply Forall_impl; [|exact H]. exact written_ok. Qed.

Lemma value_same c k e e2 v w coll coll2 meta meta2 : is_collection c = false ->
  proper (mk_attr c k e v coll meta) -> proper (mk_attr c k e2 w coll2 meta2) ->
  (attr_str (mk_attr c k e v coll meta) = attr_str (mk_attr c k e2 w coll2 meta2) <-> same_val v w).
Proof.
  unfold proper. cbn [a_cls a_val]. destruct c; try discriminate; intros _; destruct v, w; try contradiction; cbn [attr_str py_str same_val]; intros P Q.
  all: split; intros X.
  all: try (injection X as X).
  all: try (apply print_Z_inj in X; congruence).
  all: try (apply xid_str_inj in X; congruence).
  all: try (apply stamp_same; tauto).
  all: try (f_equal; apply stamp_same; tauto).
  all: try congruence.
  all: try (destruct b, b0; try discriminate X; reflexivity).
Qed.
Lemma attr_same a : forall b, Forall proper (post_order a) -> Forall proper (post_order b) -> (write_attr a = write_attr b <-> same_attr a b).
Proof.
  induction a as [c k e v coll meta IC IM] using attr_ind2. intros [c2 k2 e2 w coll2 meta2].
  rewrite !post_order_kids. unfold kids_of. cbn [a_cls a_coll a_meta]. intros [KA PA] [KB PB].
  rewrite !write_attr_eq. destruct (is_collection c) eqn:C, (is_collection c2) eqn:C2.
  - assert (L := map_res_same write_attr same_attr coll coll2).
    assert (FA : Forall (fun a => exists y, write_attr a = Ok y) coll) by (eapply Forall_impl; [|exact KA]; exact written_ok).
    assert (FB : Forall (fun a => exists y, write_attr a = Ok y) coll2) by (eapply Forall_impl; [|exact KB]; exact written_ok).
    specialize (L ltac:(rewrite Forall_forall in *; auto) FA FB).
    destruct (map_res_elems write_attr (fun _ _ => True) coll) as (ys & Y & _); [eapply Forall_impl; [|exact FA]; cbv beta; intros ? (q & Q); eauto|].
    destruct (map_res_elems write_attr (fun _ _ => True) coll2) as (zs & Z & _); [eapply Forall_impl; [|exact FB]; cbv beta; intros ? (q & Q); eauto|].
    rewrite Y, Z in *. cbn [bind]. split.
    + intros X. injection X as X1 -> ->. assert (c = c2) as <- by (destruct c, c2; try discriminate C; try discriminate C2; try reflexivity; discriminate X1).
      constructor; [exact C|now apply L].
    + intros X. inversion X; subst; [congruence|]. match goal with F : Forall2 same_attr _ _ |- _ => apply L in F; injection F as -> end. reflexivity.
  - split; [|intros X; inversion X; congruence].
    intros X. exfalso. destruct (map_res write_attr coll) eqn:Y; cbn [bind] in X.
    + destruct (attr_str _); [|discriminate X]. cbn [bind] in X. destruct (map_res write_attr (map snd meta2)); cbn [bind] in X; [injection X; discriminate|discriminate X].
    + destruct (map_res_elems write_attr (fun _ _ => True) coll) as (ys & Y' & _); [|congruence].
      eapply Forall_impl; [|exact KA]. cbv beta. intros q H. destruct (written_ok q H); eauto.
  - split; [|intros X; inversion X; congruence].
    intros X. exfalso. symmetry in X. destruct (map_res write_attr coll2) eqn:Y; cbn [bind] in X.
    + destruct (attr_str _); [|discriminate X]. cbn [bind] in X. destruct (map_res write_attr (map snd meta)); cbn [bind] in X; [injection X; discriminate|discriminate X].
    + destruct (map_res_elems write_attr (fun _ _ => True) coll2) as (ys & Y' & _); [|congruence].
      eapply Forall_impl; [|exact KB]. cbv beta. intros q H. destruct (written_ok q H); eauto.
  - assert (L := map_res_same write_attr same_attr (map snd meta) (map snd meta2)).
    assert (FA : Forall (fun a => exists y, write_attr a = Ok y) (map snd meta)) by (eapply Forall_impl; [|exact KA]; exact written_ok).
    assert (FB : Forall (fun a => exists y, write_attr a = Ok y) (map snd meta2)) by (eapply Forall_impl; [|exact KB]; exact written_ok).
    lapply L; [clear L; intros L; specialize (L FA FB)|].
    2: { rewrite Forall_forall in *. intros a b I J. assert (I' := I). apply in_map_iff in I' as ([q y] & <- & I'). apply (IM _ I'); auto. }
    destruct (map_res_elems write_attr (fun _ _ => True) (map snd meta)) as (ys & Y & _); [eapply Forall_impl; [|exact FA]; cbv beta; intros ? (q & Q); eauto|].
    destruct (map_res_elems write_attr (fun _ _ => True) (map snd meta2)) as (zs & Z & _); [eapply Forall_impl; [|exact FB]; cbv beta; intros ? (q & Q); eauto|].
    destruct (proper_text _ _ _ _ _ _ C PA) as (t & T & _). destruct (proper_text _ _ _ _ _ _ C2 PB) as (t2 & T2 & _).
    rewrite Y, Z in *. rewrite T, T2. cbn [bind]. split.
    + intros X. injection X as X1 -> -> ->. assert (c = c2) as <- by (destruct c, c2; try discriminate C; try discriminate C2; try reflexivity; discriminate X1).
      constructor; [exact C| |now apply L]. eapply value_same; [exact C|exact PA|exact PB|congruence].
    + intros X. inversion X; subst; [|congruence]. match goal with F : Forall2 same_attr _ _ |- _ => apply L in F; injection F as -> end.
      match goal with F : same_val _ _ |- _ => eapply value_same in F; [|exact C|exact PA|exact PB]; rewrite T, T2 in F; injection F as -> end. reflexivity.
Qed.
Lemma attrs_same l m : Forall proper (flat_map post_order l) -> Forall proper (flat_map post_order m) ->
  (add_attributes l = add_attributes m <-> Forall2 same_attr l m).
Proof.
  intros A B. apply map_res_same; [|now apply written_all|now apply written_all].
  rewrite Forall_flat in A, B. rewrite Forall_forall in A, B. auto using attr_same.
Qed.

(** *** The parts of a document, by their tags *)
Definition tag_of (x : xnode) : pystr := match x with XElem t _ _ => t | XText _ => [] end.
Definition scope_of (x : xnode) : option pystr := match x with XElem _ a _ => sget (py "scope") a | XText _ => None end.
Definition part (x : xnode) : nat :=
  if str_eqb (tag_of x) (py "extension") then 0
  else if str_eqb (tag_of x) (py "global") then
    match scope_of x with Some s => if str_eqb s (py "trace") then 1 else 2 | None => 2 end
  else if str_eqb (tag_of x) (py "classifier") then 3
  else if str_eqb (tag_of x) (py "trace") then 5
  else if str_eqb (tag_of x) (py "event") then 6 else 4.
Lemma split_part i a : forall b c d, Forall (fun x => part x = i) a -> Forall (fun x => part x = i) c ->
  Forall (fun x => part x <> i) b -> Forall (fun x => part x <> i) d -> a ++ b = c ++ d -> a = c /\ b = d.
Proof.
  induction a as [|x a IH]; intros b [|y c] d A C B D E; cbn in E; auto.
  - exfalso. subst. inversion C; subst. inversion B; subst. congruence.
  - exfalso. subst. inversion A; subst. inversion D; subst. congruence.
  - injection E as -> E. inversion A; subst. inversion C; subst. destruct (IH b c d) as [-> ->]; auto.
Qed.
Lemma attr_part a n : write_attr a = Ok n -> part n = 4%nat.
Proof.
  destruct a as [c k e v coll meta]. rewrite write_attr_eq. destruct (is_collection c).
  - destruct (map_res write_attr coll); [|discriminate]. cbn [bind]. intros E. injection E as <-. now destruct c.
  - destruct (attr_str _); [|discriminate]. cbn [bind]. destruct (map_res write_attr (map snd meta)); [|discriminate]. cbn [bind].
    intros E. injection E as <-. now destruct c.
Qed.
Lemma res_part {A} (f : A -> res xnode) i : (forall a n, f a = Ok n -> part n = i) -> forall l ns, map_res f l = Ok ns -> Forall (fun x => part x = i) ns.
Proof.
  intros H. induction l as [|a l IH]; intros ns E; cbn in E; [injection E as <-; constructor|].
  destruct (f a) as [n|] eqn:F; [|discriminate]. destruct (map_res f l); [|discriminate]. injection E as <-. constructor; eauto.
Qed.
Lemma event_part e n : write_event e = Ok n -> part n = 6%nat.
Proof. unfold write_event. destruct (add_attributes _); [|discriminate]. cbn. intros E. injection E as <-. reflexivity. Qed.
Lemma trace_part t n : write_trace t = Ok n -> part n = 5%nat.
Proof.
  unfold write_trace. destruct (add_attributes _); [|discriminate]. cbn [bind]. destruct (map_res write_event _); [|discriminate].
  cbn. intros E. injection E as <-. reflexivity.
Qed.
Lemma global_part i s l ns : part (XElem (py "global") [(py "scope", s)] []) = i -> add_global_attributes s l = Ok ns -> Forall (fun x => part x = i) ns.
Proof.
  intros <-. unfold add_global_attributes. destruct l as [|a l]; [intros E; injection E as <-; constructor|].
  destruct (add_attributes (a :: l)); [|discriminate]. cbn [bind]. intros E. injection E as <-. repeat constructor.
Qed.
Lemma other_part i j l : i <> j -> Forall (fun x => part x = i) l -> Forall (fun x => part x <> j) l.
Proof. intros D. apply Forall_impl. congruence. Qed.
Lemma attrs_part l ns : add_attributes l = Ok ns -> Forall (fun x => part x = 4%nat) ns. Proof. apply res_part, attr_part. Qed.

Lemma event_same e f : Forall proper (flat_map post_order (map snd (ev_attrs e))) -> Forall proper (flat_map post_order (map snd (ev_attrs f))) ->
  (write_event e = write_event f <-> same_event e f).
Proof.
  intros A B. unfold same_event, same_attrs. rewrite <- attrs_same by assumption. unfold write_event.
  destruct (attrs_written _ A) as (x & X & _). destruct (attrs_written _ B) as (y & Y & _). rewrite X, Y. cbn [bind].
  split; intros E; injection E as ->; reflexivity.
Qed.
Lemma events_ok l : Forall proper (flat_map (fun e => flat_map post_order (map snd (ev_attrs e))) l) ->
  Forall (fun e => exists n, write_event e = Ok n) l.
Proof.
  rewrite Forall_flat. apply Forall_impl. intros e H. destruct (attrs_written _ H) as (x & X & _). unfold write_event. rewrite X. cbn. eauto.
Qed.
Definition trace_proper (t : trace) : Prop :=
  Forall proper (flat_map post_order (map snd (tr_attrs t)) ++ flat_map (fun e => flat_map post_order (map snd (ev_attrs e))) (tr_events t)).
Lemma trace_ok t : trace_proper t -> exists n, write_trace t = Ok n.
Proof.
  unfold trace_proper. rewrite Forall_app. intros [A B]. destruct (attrs_written _ A) as (x & X & _). unfold write_trace. rewrite X. cbn [bind].
  destruct (map_res_elems write_event (fun _ _ => True) (tr_events t)) as (y & Y & _); [|rewrite Y; cbn; eauto].
  eapply Forall_impl; [|exact (events_ok _ B)]. cbv beta. intros e (n & E). eauto.
Qed.
Lemma trace_same t u : trace_proper t -> trace_proper u -> (write_trace t = write_trace u <-> same_case t u).
Proof.
  unfold trace_proper, same_case. rewrite !Forall_app. intros [A B] [C D]. unfold same_attrs. rewrite <- attrs_same by assumption.
  assert (L : map_res write_event (tr_events t) = map_res write_event (tr_events u) <-> Forall2 same_event (tr_events t) (tr_events u)).
  { apply map_res_same; [|now apply events_ok|now apply events_ok]. rewrite Forall_flat in B, D. rewrite Forall_forall in B, D. auto using event_same. }
  rewrite <- L. unfold write_trace.
  destruct (attrs_written _ A) as (x & X & _). destruct (attrs_written _ C) as (y & Y & _). rewrite X, Y. cbn [bind].
  destruct (map_res_elems write_event (fun _ _ => True) (tr_events t)) as (v & V & _); [eapply Forall_impl; [|exact (events_ok _ B)]; cbv beta; intros e (n & E); eauto|].
  destruct (map_res_elems write_event (fun _ _ => True) (tr_events u)) as (w & W & _); [eapply Forall_impl; [|exact (events_ok _ D)]; cbv beta; intros e (n & E); eauto|].
  rewrite V, W. cbn [bind]. split.
  - intros E. injection E as E. apply (split_part 4) in E as [-> ->]; auto.
    + now apply attrs_part in X.
    + now apply attrs_part in Y.
    + apply (other_part 6); [discriminate|]. exact (res_part _ _ event_part _ _ V).
    + apply (other_part 6); [discriminate|]. exact (res_part _ _ event_part _ _ W).
  - intros [E F]. injection E as ->. injection F as ->. reflexivity.
Qed.
Lemma global_same s l m : Forall proper (flat_map post_order l) -> Forall proper (flat_map post_order m) ->
  (add_global_attributes s l = add_global_attributes s m <-> Forall2 same_attr l m).
Proof.
  intros A B. rewrite <- attrs_same by assumption.
  destruct (attrs_written _ A) as (x & X & F). destruct (attrs_written _ B) as (y & Y & G).
  destruct l as [|a l], m as [|b m]; [split; reflexivity| | |]; unfold add_global_attributes.
  - rewrite Y. cbn [bind]. inversion G; subst. split; discriminate.
  - rewrite X. cbn [bind]. inversion F; subst. split; discriminate.
  - rewrite X, Y. cbn [bind]. split; intros E; injection E as ->; reflexivity.
Qed.
Lemma classifier_same c d : write_classifier c = write_classifier d <-> cl_name c = cl_name d /\ same_keys (cl_keys c) (cl_keys d).
Proof.
  rewrite !classifier_written. unfold classifier_elem, same_keys. split.
  - intros E. injection E as E1 E2. auto.
  - cbv zeta. intros [-> ->]. reflexivity.
Qed.
Lemma map_same {A B} (f : A -> B) (R : A -> A -> Prop) : (forall a b, f a = f b <-> R a b) -> forall l m, map f l = map f m <-> Forall2 R l m.
Proof.
  intros H. induction l as [|a l IH]; intros [|b m]; cbn; split; intros E; try discriminate; try constructor; try (inversion E; fail); try reflexivity.
  - injection E as E _. now apply H.
  - injection E as _ E. now apply IH.
  - inversion E; subst. f_equal; [now apply H|now apply IH].
Qed.
Lemma ext_same l m : map write_extension l = map write_extension m <-> l = m.
Proof.
  split; [|congruence]. revert m. induction l as [|[n p u] l IH]; intros [|[n2 p2 u2] m] E; try discriminate; [reflexivity|].
  cbn in E. injection E as -> -> -> E. f_equal. auto.
Qed.
Lemma log_same l m doc doc2 : Forall proper (written_attrs l) -> Forall proper (written_attrs m) ->
  xes_serialize l = Ok doc -> xes_serialize m = Ok doc2 -> (doc = doc2 <-> same_log l m).
Proof.
  unfold written_attrs. rewrite !Forall_app. intros (G1 & E1 & A1 & T1) (G2 & E2 & A2 & T2). unfold same_log, same_attrs.
  rewrite <- ext_same, <- (map_same _ _ classifier_same), <- (global_same (py "trace")), <- (global_same (py "event")), <- attrs_same by assumption.
  rewrite Forall_flat in T1, T2.
  assert (L : map_res write_trace (lg_traces l) = map_res write_trace (lg_traces m) <-> Forall2 same_case (lg_traces l) (lg_traces m)).
  { apply map_res_same.
    - rewrite Forall_forall in T1, T2. intros t u I J. apply trace_same; [now apply T1|now apply T2].
    - eapply Forall_impl; [|exact T1]. exact trace_ok.
    - eapply Forall_impl; [|exact T2]. exact trace_ok. }
  rewrite <- L. clear L. unfold xes_serialize.
  destruct (add_global_attributes (py "trace") (lg_gtrace l)) as [gt|] eqn:P1; [|discriminate]. cbn [bind].
  destruct (add_global_attributes (py "event") (lg_gevent l)) as [ge|] eqn:P2; [|discriminate]. cbn [bind].
  destruct (add_attributes (map snd (lg_attrs l))) as [ns|] eqn:P3; [|discriminate]. cbn [bind].
  destruct (map_res write_trace (lg_traces l)) as [ts|] eqn:P4; [|discriminate]. cbn [bind]. intros X. injection X as <-.
  destruct (add_global_attributes (py "trace") (lg_gtrace m)) as [gt2|] eqn:Q1; [|discriminate]. cbn [bind].
  destruct (add_global_attributes (py "event") (lg_gevent m)) as [ge2|] eqn:Q2; [|discriminate]. cbn [bind].
  destruct (add_attributes (map snd (lg_attrs m))) as [ns2|] eqn:Q3; [|discriminate]. cbn [bind].
  destruct (map_res write_trace (lg_traces m)) as [ts2|] eqn:Q4; [|discriminate]. cbn [bind]. intros X. injection X as <-.
  assert (XP : forall x, Forall (fun x => part x = 0%nat) (map write_extension x)) by (intros x; apply Forall_map; now apply Forall_forall).
  assert (CP : forall x, Forall (fun x => part x = 3%nat) (map write_classifier x)) by (intros x; apply Forall_map; now apply Forall_forall).
  apply (global_part 1 (py "trace")) in P1; [|reflexivity]. apply (global_part 1 (py "trace")) in Q1; [|reflexivity].
  apply (global_part 2 (py "event")) in P2; [|reflexivity]. apply (global_part 2 (py "event")) in Q2; [|reflexivity].
  apply attrs_part in P3. apply attrs_part in Q3. apply (res_part _ _ trace_part) in P4. apply (res_part _ _ trace_part) in Q4.
  split.
  - intros E. injection E as E.
    apply (split_part 0) in E as [-> E]; auto; [|rewrite !Forall_app; repeat split; (eapply other_part; [|first [eassumption|apply CP]]; discriminate)..].
    apply (split_part 1) in E as [-> E]; auto; [|rewrite !Forall_app; repeat split; (eapply other_part; [|first [eassumption|apply CP]]; discriminate)..].
    apply (split_part 2) in E as [-> E]; auto; [|rewrite !Forall_app; repeat split; (eapply other_part; [|first [eassumption|apply CP]]; discriminate)..].
    apply (split_part 3) in E as [-> E]; auto; [|rewrite !Forall_app; repeat split; (eapply other_part; [|first [eassumption|apply CP]]; discriminate)..].
    apply (split_part 4) in E as [-> E]; auto; [|(eapply other_part; [|first [eassumption|apply CP]]; discriminate)..]. subst. repeat split.
  - intros (-> & -> & Z1 & Z2 & Z3 & Z4). injection Z1 as ->. injection Z2 as ->. injection Z3 as ->. injection Z4 as ->. reflexivity.
Qed.
Theorem same_file l m doc doc2 text text2 : Forall proper (written_attrs l) -> Forall proper (written_attrs m) ->
  xes_serialize l = Ok doc -> xes_serialize m = Ok doc2 ->
  write_xml xes_comments doc = Some text -> write_xml xes_comments doc2 = Some text2 -> (text = text2 <-> same_log l m).
Proof. intros A B E F W X. rewrite (xes_same_tree _ _ _ _ _ _ E F W X). now apply log_same. Qed.

(** ** On the disk *)
Lemma same_saved (G1 G2 : Gzip) wr p l m path path2 d d' d1 d2 :
  lawful_gzip G1 -> lawful_gzip G2 -> same_unpacking G1 G2 -> zipped p = true \/ lawful wr -> In p [Xes; XesGzip] ->
  Forall proper (written_attrs l) -> Forall proper (written_attrs m) ->
  save (GZ := G1) wr p l path d = (d1, Ok tt) -> save (GZ := G2) wr p m path2 d' = (d2, Ok tt) ->
  exists b c, sget path d1 = Some b /\ sget path2 d2 = Some c
  /\ (same_log l m <-> unpacked (GZ := G1) p b = unpacked (GZ := G1) p c) /\ (b = c -> same_log l m).
Proof.
  intros LG LG2 SU LC IN A B S T. unfold save in S, T. rewrite !compressed_zipped in S, T.
  destruct (serialize_text p l) as [t|] eqn:E; [|discriminate]. destruct (serialize_text p m) as [u|] eqn:F; [|discriminate].
  destruct (cd_enc _ t) as [b|] eqn:EB; [|discriminate]. destruct (cd_enc _ u) as [c|] eqn:EC; [|discriminate].
  injection S as <-. injection T as <-.
  assert (X : t = u <-> same_log l m).
  { destruct IN as [<-|[<-|[]]]; cbn [serialize_text] in E, F.
    all: destruct (xes_serialize l) as [doc|] eqn:L; [|discriminate]; destruct (xes_serialize m) as [doc2|] eqn:M; [|discriminate]; cbn [bind] in E, F.
    all: destruct (write_xml xes_comments doc) as [x|] eqn:WX; [|discriminate]; destruct (write_xml xes_comments doc2) as [y|] eqn:WY; [|discriminate].
    all: injection E as <-; injection F as <-; exact (same_file _ _ _ _ _ _ A B L M WX WY). }
  do 2 eexists. rewrite !sget_sset_same. split; [reflexivity|]. split; [reflexivity|].
  enough (Y : same_log l m <-> unpacked (GZ := G1) p (if zipped p then @gz G1 b else b) = unpacked (GZ := G1) p (if zipped p then @gz G2 c else c)).
  { split; [exact Y|]. intros Z. apply Y. now rewrite Z. }
  rewrite <- X. unfold unpacked. destruct (zipped p).
  - rewrite LG, SU, LG2. split; [intros <-; congruence|]. intros Z. injection Z as ->.
    assert (H := utf8_lawful _ _ EB). rewrite (utf8_lawful _ _ EC) in H. congruence.
  - destruct LC as [LC|LC]; [discriminate|]. split; [intros <-; congruence|]. intros Z. injection Z as ->.
    assert (H := LC _ _ EB). rewrite (LC _ _ EC) in H. congruence.
Qed.
End S.
