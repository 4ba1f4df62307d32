(** Which documents the XES reader accepts, and what it raises for the others. *)
From Coq Require Import String NArith ZArith List Bool Lia.
From Verif Require Import Base.PyBase Base.PyDate Base.PyVal Base.Xml Model.Attr Model.DateConv Model.Log
  Model.Token Model.Registry Model.XesWrite Model.XesRead Spec.DateText Spec.Registries Spec.Xes Spec.Faults
  Proofs.BaseFacts Proofs.StrFacts Proofs.DateFacts Proofs.XesReadFacts Proofs.XesRoundFacts Proofs.XesStackFacts.
Import ListNotations.

Section S.
Context `{FIO : FloatIO} (mgr : manager xext) (urlparse : pystr -> option pystr) (draw : nat -> N).
Notation run := (xes_run mgr urlparse draw).
Notation step := (xes_step mgr urlparse draw).

Lemma attribute_tag_is t : attribute_tag t = match attr_tag (lower t) with Some _ => true | None => false end.
Proof.
  unfold attribute_tag, is_tag, attr_tag. cbn [existsb].
  repeat match goal with |- context [str_eqb (lower t) ?x] => destruct (str_eqb (lower t) x); [reflexivity|] end. reflexivity.
Qed.
Lemma bound_with_log f s : p_log s <> None -> exists s', with_log f s = Ok s'.
Proof. unfold with_log. destruct (p_log s); [eauto|congruence]. Qed.

(** ** One start tag *)
Lemma start_fault t atts s e : fault mgr urlparse t atts = Some e -> step s (SStart t atts) = Raise e.
Proof.
  unfold fault, is_tag. cbn [xes_step]. unfold start_element.
  destruct (str_eqb_spec (lower t) (py "int")) as [T|T].
  { rewrite T. change (attr_tag (py "int")) with (Some CDiscrete). unfold start_attr. fold (att "value" atts []). cbn [tag_value].
    destruct (py_int 10 (att "value" atts [])); [discriminate|]. now intros [= <-]. }
  destruct (str_eqb_spec (lower t) (py "float")) as [T2|T2].
  { rewrite T2. change (attr_tag (py "float")) with (Some CContinuous). unfold start_attr. fold (att "value" atts []). cbn [tag_value].
    destruct (float_of_str (att "value" atts [])); [discriminate|]. now intros [= <-]. }
  destruct (str_eqb_spec (lower t) (py "id")) as [T3|T3].
  { rewrite T3. change (attr_tag (py "id")) with (Some CID). unfold start_attr. fold (att "value" atts []). cbn [tag_value].
    destruct (uuid_of_str (att "value" atts [])); [discriminate|]. now intros [= <-]. }
  destruct (str_eqb_spec (lower t) (py "date")) as [T4|T4].
  { rewrite T4. change (attr_tag (py "date")) with (Some CTimestamp). unfold start_attr. fold (att "value" atts []). cbn [tag_value].
    destruct (parse_date_time (att "value" atts [])); [discriminate|]. now intros [= <-]. }
  destruct (str_eqb_spec (lower t) (py "global")) as [T5|T5].
  { rewrite T5. change (attr_tag (py "global")) with (@None acls). simpl. unfold start_global.
    destruct (sget (py "scope") atts); [discriminate|]. now intros [= <-]. }
  destruct (str_eqb_spec (lower t) (py "extension")) as [T6|T6]; [|discriminate].
  rewrite T6. change (attr_tag (py "extension")) with (@None acls). simpl. unfold start_extension.
  destruct (sget (py "uri") atts) as [u|], (sget (py "prefix") atts) as [p|]; cbn [bind]; try discriminate.
  - destruct (urlparse u); [discriminate|]. now intros [= <-].
  - destruct (mgr_by_prefix x_prefix mgr p); [discriminate|]. now intros [= <-].
  - now intros [= <-].
Qed.

Lemma start_fine t atts s : fault mgr urlparse t atts = None -> p_log s <> None -> exists s', step s (SStart t atts) = Ok s'.
Proof.
  intros FT L. cbn [xes_step]. unfold start_element, fault, is_tag in *. destruct (attr_tag (lower t)) as [c|] eqn:TG.
  - unfold start_attr. fold (att "value" atts []).
    assert (X : exists v, tag_value c (att "value" atts []) = Ok v).
    { unfold attr_tag in TG.
      destruct (str_eqb_spec (lower t) (py "string")) as [E|]; [injection TG as <-; simpl; eauto|].
      destruct (str_eqb_spec (lower t) (py "date")) as [E|].
      { rewrite E in FT. simpl in FT. injection TG as <-. simpl. destruct (parse_date_time _); [simpl; eauto|discriminate]. }
      destruct (str_eqb (lower t) (py "int")).
      { injection TG as <-. simpl. destruct (py_int _ _); [eauto|discriminate]. }
      destruct (str_eqb (lower t) (py "float")).
      { injection TG as <-. simpl. destruct (float_of_str _); [eauto|discriminate]. }
      destruct (str_eqb (lower t) (py "boolean")); [injection TG as <-; simpl; eauto|].
      destruct (str_eqb (lower t) (py "id")).
      { injection TG as <-. simpl. destruct (uuid_of_str _); [eauto|discriminate]. }
      destruct (str_eqb (lower t) (py "list")); [injection TG as <-; simpl; eauto|].
      destruct (str_eqb (lower t) (py "container")); [injection TG as <-; simpl; eauto|discriminate]. }
    destruct X as [[v|] ->]; simpl; eauto.
  - destruct (str_eqb (lower t) (py "event")); [eauto|]. destruct (str_eqb (lower t) (py "trace")); [eauto|].
    destruct (str_eqb (lower t) (py "log")); [eauto|].
    destruct (str_eqb_spec (lower t) (py "extension")) as [E|].
    { rewrite E in FT. simpl in FT. unfold start_extension.
      destruct (sget (py "uri") atts) as [u|], (sget (py "prefix") atts) as [p|]; cbn [bind]; try discriminate.
      - destruct (mgr_by_prefix x_prefix mgr p); [now apply bound_with_log|eauto].
      - destruct (urlparse u) as [v|]; [|discriminate]. cbn [bind]. destruct (mgr_by_uri mgr v); [now apply bound_with_log|eauto].
      - destruct (mgr_by_prefix x_prefix mgr p); [now apply bound_with_log|discriminate]. }
    destruct (str_eqb_spec (lower t) (py "global")) as [E|].
    { rewrite E in FT. simpl in FT. unfold start_global. destruct (sget (py "scope") atts); [|discriminate].
      destruct (str_eqb _ _); [destruct (p_log s); [eauto|congruence]|].
      destruct (str_eqb _ _); [destruct (p_log s); [eauto|congruence]|eauto]. }
    destruct (str_eqb (lower t) (py "classifier")); [|eauto].
    unfold start_classifier. destruct (sget (py "name") atts), (sget (py "keys") atts); eauto.
    destruct (_ && _); [now apply bound_with_log|eauto].
Qed.

(** What a start tag does to the current log and trace. *)
Lemma start_refs t atts s s' : step s (SStart t atts) = Ok s' ->
  (p_log s <> None -> p_log s' <> None)
  /\ (is_tag t "trace" = true -> p_trace s' <> None)
  /\ (is_tag t "trace" = false -> p_trace s' = p_trace s).
Proof.
  cbn [xes_step]. unfold start_element, is_tag. destruct (attr_tag (lower t)) as [c|] eqn:TG.
  - unfold start_attr. destruct (tag_value _ _) as [[v|]|]; simpl; [| |discriminate]; intros [= <-]; simpl; repeat split; auto.
    all: intros E; apply str_eqb_eq in E; rewrite E in TG; discriminate.
  - destruct (str_eqb_spec (lower t) (py "event")) as [->|]; [intros [= <-]; simpl; repeat split; auto; discriminate|].
    destruct (str_eqb (lower t) (py "trace")); [intros [= <-]; simpl; repeat split; auto; discriminate|].
    destruct (str_eqb (lower t) (py "log")); [intros [= <-]; simpl; repeat split; auto; discriminate|].
    assert (W : forall f, with_log f s = Ok s' -> p_log s' = p_log s /\ p_trace s' = p_trace s).
    { intros f. unfold with_log. destruct (p_log s) eqn:L; [|discriminate]. intros [= <-]. simpl. auto. }
    assert (Z : p_log s' = p_log s /\ p_trace s' = p_trace s ->
                (p_log s <> None -> p_log s' <> None) /\ (false = true -> p_trace s' <> None) /\ (false = false -> p_trace s' = p_trace s)).
    { intros [-> ->]. repeat split; auto; discriminate. }
    destruct (str_eqb (lower t) (py "extension")).
    { unfold start_extension. intros R. apply Z.
      destruct (match sget (py "prefix") atts with Some p => _ | None => _ end) as [[x|]|]; [eapply W; eauto| |discriminate]. cbn [bind] in R.
      destruct (sget (py "uri") atts); [|discriminate]. injection R as <-. auto. }
    destruct (str_eqb (lower t) (py "global")).
    { unfold start_global. intros R. apply Z. destruct (sget (py "scope") atts); [|discriminate].
      destruct (str_eqb _ _); [|destruct (str_eqb _ _)]; try (destruct (p_log s); [|discriminate]); injection R as <-; simpl; auto. }
    destruct (str_eqb (lower t) (py "classifier")).
    { unfold start_classifier. intros R. apply Z.
      destruct (sget (py "name") atts), (sget (py "keys") atts); try (injection R as <-; auto).
      destruct (_ && _); [eapply W; eauto|injection R as <-; auto]. }
    intros [= <-]. apply Z; auto.
Qed.

(** ** One end tag *)
Lemma end_refs t s s' : step s (SEnd t) = Ok s' ->
  p_log s' = p_log s /\ (is_tag t "trace" = false -> p_trace s' = p_trace s).
Proof.
  assert (PA : forall a b, pop_attributable a = Ok b -> p_log b = p_log a /\ p_trace b = p_trace a).
  { intros a b. unfold pop_attributable. destruct (p_attributables a); [discriminate|]. intros [= <-]. auto. }
  cbn [xes_step]. unfold end_element, is_tag. destruct (str_eqb_spec (lower t) (py "global")) as [->|G]; [intros [= <-]; auto|].
  destruct (attr_tag (lower t)) as [c|] eqn:TG.
  - unfold end_attr, pop_attr. destruct (p_attrs s) as [|i q]; [discriminate|]. cbn [bind].
    destruct (pop_attributable _) as [s2|] eqn:P; [|discriminate]. apply PA in P as [P1 P2]. simpl in P1, P2. cbn [bind].
    rewrite <- P1, <- P2. destruct (p_globals s2) as [[l g]|]; [intros [= <-]; auto|].
    destruct (p_attributables s2); [discriminate|]. intros [= <-]. auto.
  - destruct (str_eqb (lower t) (py "event")).
    { unfold end_event. destruct (p_trace s) eqn:T; [|discriminate]. intros X. apply PA in X as [X1 X2]. simpl in *. rewrite X1, X2. auto. }
    destruct (str_eqb (lower t) (py "trace")).
    { unfold end_trace. destruct (p_log s) eqn:T; [|discriminate]. intros X. apply PA in X as [X1 X2]. simpl in *. split; [auto|discriminate]. }
    destruct (str_eqb (lower t) (py "log")).
    { intros X. apply PA in X as [X1 X2]. auto. }
    intros [= <-]. auto.
Qed.

Lemma pop_raises s e : pop_attributable s = Raise e -> e = IndexError.
Proof. unfold pop_attributable. destruct (p_attributables s); [|discriminate]. now intros [= <-]. Qed.

Lemma end_attr_raises s e : end_attr s = Raise e -> e = IndexError.
Proof.
  unfold end_attr, pop_attr. destruct (p_attrs s) as [|i q]; [now intros [= <-]|]. cbn [bind].
  destruct (pop_attributable _) as [s2|] eqn:P; [|intros [= <-]; now apply pop_raises in P]. cbn [bind].
  destruct (p_globals s2) as [[l g]|]; [discriminate|]. destruct (p_attributables s2); [now intros [= <-]|discriminate].
Qed.

Lemma end_raises t s e : step s (SEnd t) = Raise e -> e = IndexError
  \/ e = AttributeError /\ (is_tag t "event" = true /\ p_trace s = None \/ is_tag t "trace" = true /\ p_log s = None).
Proof.
  cbn [xes_step]. unfold end_element, is_tag. destruct (str_eqb_spec (lower t) (py "global")) as [->|G]; [discriminate|].
  destruct (attr_tag (lower t)) as [c|] eqn:TG; [intros X; left; now apply end_attr_raises in X|].
  destruct (str_eqb (lower t) (py "event")).
  { unfold end_event. destruct (p_trace s) eqn:T; [intros X; left; now apply pop_raises in X|intros [= <-]; right; auto]. }
  destruct (str_eqb (lower t) (py "trace")).
  { unfold end_trace. destruct (p_log s) eqn:T; [intros X; left; now apply pop_raises in X|intros [= <-]; right; auto]. }
  destruct (str_eqb (lower t) (py "log")); [intros X; left; now apply pop_raises in X|discriminate].
Qed.

Lemma start_raises t atts s e : p_log s <> None -> step s (SStart t atts) = Raise e -> fault mgr urlparse t atts = Some e.
Proof.
  intros L R. destruct (fault mgr urlparse t atts) as [e'|] eqn:FT.
  - rewrite (start_fault _ _ _ _ FT) in R. congruence.
  - destruct (start_fine t atts s FT L) as [s' X]. congruence.
Qed.

(** ** Tags and places *)
Lemma foreign_event t : is_tag t "event" = true -> foreign t = false.
Proof. unfold is_tag, foreign. intros E. apply str_eqb_eq in E. rewrite E. reflexivity. Qed.
Lemma foreign_trace t : is_tag t "trace" = true -> foreign t = false.
Proof. unfold is_tag, foreign. intros E. apply str_eqb_eq in E. rewrite E. reflexivity. Qed.
Lemma foreign_log t : is_tag t "log" = true -> foreign t = false.
Proof. unfold is_tag, foreign. intros E. apply str_eqb_eq in E. rewrite E. reflexivity. Qed.
Lemma event_no_attribute t : is_tag t "event" = true -> attribute_tag t = false.
Proof. unfold is_tag. intros E. apply str_eqb_eq in E. rewrite attribute_tag_is, E. reflexivity. Qed.
Lemma trace_no_attribute t : is_tag t "trace" = true -> attribute_tag t = false.
Proof. unfold is_tag. intros E. apply str_eqb_eq in E. rewrite attribute_tag_is, E. reflexivity. Qed.
Lemma log_no_attribute t : is_tag t "log" = true -> attribute_tag t = false.
Proof. unfold is_tag. intros E. apply str_eqb_eq in E. rewrite attribute_tag_is, E. reflexivity. Qed.

Definition fits (p : place) (s : pstate) : Prop :=
  p_log s <> None /\ match p with InTrace => p_trace s <> None | _ => True end.
Definition keeps (p : place) (s s' : pstate) : Prop :=
  p_log s' <> None /\ match p with InLog => True | _ => p_trace s' = p_trace s end.
Lemma fits_keeps p s s' : fits p s -> keeps p s s' -> fits p s'.
Proof. intros [F1 F2] [K1 K2]. split; auto. destruct p; auto. now rewrite K2. Qed.
Lemma keeps_trans p s s1 s2 : keeps p s s1 -> keeps p s1 s2 -> keeps p s s2.
Proof. intros [A B] [C D]. split; auto. destruct p; auto; now rewrite D. Qed.

(** The place of what is in an element, and what it takes to end there. *)
Definition inner (p : place) (t : pystr) : place :=
  if foreign t then p else if is_tag t "trace" then InTrace else InElement.
Lemma placed_inner p t atts kids : placed p (XElem t atts kids) = true ->
  forallb (placed (inner p t)) kids = true
  /\ is_tag t "log" = false
  /\ (is_tag t "event" = true -> p = InTrace) /\ (is_tag t "trace" = true -> p = InLog).
Proof.
  unfold inner. cbn [placed]. destruct (foreign t) eqn:FO.
  { intros H. split; auto. repeat split.
    - destruct (is_tag t "log") eqn:E; auto. apply foreign_log in E. congruence.
    - intros E. apply foreign_event in E. congruence.
    - intros E. apply foreign_trace in E. congruence. }
  destruct (attribute_tag t) eqn:AT.
  { intros H. repeat split.
    - destruct (is_tag t "trace") eqn:E; auto. apply trace_no_attribute in E. congruence.
    - destruct (is_tag t "log") eqn:E; auto. apply log_no_attribute in E. congruence.
    - intros E. apply event_no_attribute in E. congruence.
    - intros E. apply trace_no_attribute in E. congruence. }
  destruct (is_tag t "event") eqn:EV.
  { rewrite andb_true_iff. intros [P H]. assert (T : is_tag t "trace" = false /\ is_tag t "log" = false).
    { unfold is_tag in *. apply str_eqb_eq in EV. rewrite EV. split; reflexivity. }
    destruct T as [-> ->]. destruct p; try discriminate. repeat split; auto; discriminate. }
  destruct (is_tag t "log"); [discriminate|]. rewrite andb_true_iff. intros [P H]. destruct p; try discriminate.
  repeat split; auto; discriminate.
Qed.

Lemma fits_inner p t atts s s' : fits p s -> step s (SStart t atts) = Ok s' -> fits (inner p t) s'.
Proof.
  intros [F1 F2] R. apply start_refs in R as (R1 & R2 & R3). split; auto. unfold inner.
  destruct (foreign t) eqn:FO.
  - destruct p; auto. rewrite R3; auto. destruct (is_tag t "trace") eqn:E; auto. apply foreign_trace in E. congruence.
  - destruct (is_tag t "trace"); auto.
Qed.

(** The current log and trace after an element. *)
Lemma keeps_element p t atts s s1 s2 s3 : fits p s ->
  (is_tag t "trace" = true -> p = InLog) ->
  step s (SStart t atts) = Ok s1 -> keeps (inner p t) s1 s2 -> step s2 (SEnd t) = Ok s3 -> keeps p s s3.
Proof.
  intros [F1 F2] PT A [K1 K2] B. apply start_refs in A as (A1 & A2 & A3). apply end_refs in B as (B1 & B2).
  split; [now rewrite B1|]. destruct (is_tag t "trace") eqn:T; [now rewrite PT|]. specialize (A3 eq_refl). specialize (B2 eq_refl).
  unfold inner in K2. rewrite T in K2. destruct (foreign t); destruct p; auto; congruence.
Qed.

Lemma fold_raise {A B} (f : B -> A -> res B) l1 : forall l2 b e, fold_res f l1 b = Raise e -> fold_res f (l1 ++ l2) b = Raise e.
Proof.
  induction l1 as [|a l1 IH]; simpl; intros l2 b e R; [discriminate|].
  destruct (f b a); [auto|congruence].
Qed.
Lemma run_elem t atts kids s : run (sax_of (XElem t atts kids)) s =
  let! s1 := step s (SStart t atts) in let! s2 := run (flat_map sax_of kids) s1 in step s2 (SEnd t).
Proof.
  unfold xes_run. cbn [sax_of fold_res]. destruct (step s (SStart t atts)) as [s1|]; auto. cbn [bind].
  rewrite run_app. destruct (fold_res step (flat_map sax_of kids) s1) as [s2|]; auto. cbn [fold_res bind].
  now destruct (step s2 (SEnd t)).
Qed.

(** ** Documents without unreadable dates *)
Definition outcome (p : place) (fs : list exn) (s : pstate) (r : res pstate) : Prop :=
  match fs with
  | [] => exists s', r = Ok s' /\ keeps p s s'
  | e :: _ => r = Raise e
  end.

Lemma kids_outcome p kids :
  Forall (fun x => forall s, placed p x = true -> bad_dates x = 0 -> fits p s -> p_attributables s <> [] ->
                   outcome p (faults mgr urlparse x) s (run (sax_of x) s)) kids ->
  forall s, forallb (placed p) kids = true -> list_sum (map bad_dates kids) = 0 -> fits p s -> p_attributables s <> [] ->
  outcome p (flat_map (faults mgr urlparse) kids) s (run (flat_map sax_of kids) s).
Proof.
  induction 1 as [|x kids H F IH]; intros s P B FI AB.
  { exists s. split; [reflexivity|]. destruct FI. split; auto. destruct p; auto. }
  cbn [forallb] in P. apply andb_true_iff in P as [P1 P2]. cbn [map list_sum fold_right] in B.
  specialize (H s P1 ltac:(lia) FI AB). cbn [flat_map]. unfold xes_run in *. rewrite run_app.
  destruct (faults mgr urlparse x) as [|e fs].
  - destruct H as (s1 & R & K). rewrite R. cbn [app].
    assert (S1 : p_attributables s1 = p_attributables s).
    { eapply stacks_restored; [|exact R]. lia. }
    specialize (IH s1 P2 ltac:(unfold list_sum; lia) (fits_keeps _ _ _ FI K) ltac:(now rewrite S1)).
    destruct (flat_map (faults mgr urlparse) kids); [|exact IH].
    destruct IH as (s2 & R2 & K2). exists s2. split; [auto|eapply keeps_trans; eauto].
  - cbn [app outcome] in *. now rewrite H.
Qed.

Lemma element_outcome x : forall p s, placed p x = true -> bad_dates x = 0 -> fits p s -> p_attributables s <> [] ->
  outcome p (faults mgr urlparse x) s (run (sax_of x) s).
Proof.
  induction x as [t atts kids IH|tx] using xnode_ind2; intros p s P B FI AB.
  2:{ exists s. split; [reflexivity|]. destruct FI. split; auto. destruct p; auto. }
  assert (PI := placed_inner _ _ _ _ P). destruct PI as (PK & PL & PE & PT).
  cbn [bad_dates] in B. assert (BD : bad_date t atts = false) by (destruct (bad_date t atts); [lia|auto]). rewrite BD in B. simpl in B.
  cbn [faults]. rewrite run_elem. destruct (fault mgr urlparse t atts) as [e|] eqn:FT.
  { cbn [app outcome]. rewrite (start_fault _ _ _ _ FT). reflexivity. }
  destruct (start_fine t atts s FT (proj1 FI)) as [s1 R1]. rewrite R1. cbn [app bind].
  assert (ST := start_stacks _ _ _ _ _ _ _ R1). rewrite BD in ST.
  assert (AB1 : p_attributables s1 <> []).
  { destruct (attr_tag (lower t)).
    - destruct ST as (n & _ & ->). discriminate.
    - destruct (_ || _ || _); [destruct ST as (n & _ & ->); discriminate|]. destruct ST as (_ & ->). exact AB. }
  assert (K := kids_outcome (inner p t) kids).
  assert (K0 : outcome (inner p t) (flat_map (faults mgr urlparse) kids) s1 (run (flat_map sax_of kids) s1)).
  { apply K; auto; [|eapply fits_inner; eauto]. eapply Forall_impl; [|exact IH]. intros y H s0 H1 H2 H3 H4. apply H; auto. }
  clear K. destruct (flat_map (faults mgr urlparse) kids) as [|e fs]; [|cbn [outcome] in *; now rewrite K0].
  destruct K0 as (s2 & R2 & K2). rewrite R2. cbn [bind].
  assert (S2 : p_attrs s2 = p_attrs s1 /\ p_attributables s2 = p_attributables s1).
  { assert (X := run_flat_stacks _ _ _ _ _ _ R2). rewrite B in X. destruct X as (X1 & X2 & _). auto. }
  destruct S2 as [S2 S2'].
  assert (E : exists s3, step s2 (SEnd t) = Ok s3).
  { assert (TR2 : p_log s2 <> None) by apply K2.
    assert (FI1 := fits_inner _ _ _ _ _ FI R1). assert (FI2 := fits_keeps _ _ _ FI1 K2).
    cbn [xes_step]. unfold end_element. destruct (str_eqb (lower t) (py "global")) eqn:G; [eauto|].
    destruct (attr_tag (lower t)) as [c|] eqn:TG.
    - destruct ST as (n & A1 & A2). cbn [app] in A1, A2. rewrite A1 in S2. rewrite A2 in S2'.
      unfold end_attr, pop_attr. rewrite S2. cbn [bind]. unfold pop_attributable. pfields. rewrite S2'. cbn [bind]. pfields.
      destruct (p_globals s2) as [[l g]|]; [eauto|]. destruct (p_attributables s); [congruence|eauto].
    - fold (is_tag t "event") in *. fold (is_tag t "trace") in *. fold (is_tag t "log") in *.
      destruct (is_tag t "event") eqn:EV.
      { destruct ST as (n & A1 & A2). cbn [app] in A1, A2. rewrite A2 in S2'.
        unfold end_event. destruct (p_trace s2) eqn:T.
        - unfold pop_attributable. pfields. rewrite S2'. eauto.
        - exfalso. specialize (PE eq_refl). subst p. destruct FI as [_ FI].
          assert (TF : is_tag t "trace" = false).
          { unfold is_tag in *. apply str_eqb_eq in EV. rewrite EV. reflexivity. }
          assert (A := start_refs _ _ _ _ R1). destruct A as (_ & _ & A). specialize (A TF).
          destruct K2 as [_ K2]. unfold inner in K2. rewrite (foreign_event _ EV), TF in K2. congruence. }
      destruct (is_tag t "trace") eqn:TR.
      { destruct ST as (n & A1 & A2). cbn [app] in A1, A2. rewrite A2 in S2'.
        unfold end_trace. destruct (p_log s2); [|congruence]. unfold pop_attributable. pfields. rewrite S2'. eauto. }
      rewrite PL. eauto. }
  destruct E as [s3 R3]. exists s3. split; auto. eapply keeps_element; eauto.
Qed.

Theorem document_outcome doc : well_placed doc = true -> bad_dates doc = 0 ->
  match faults mgr urlparse doc with
  | [] => exists s l, xes_parse mgr urlparse draw doc = Ok s /\ p_log s = Some l
  | e :: _ => xes_parse mgr urlparse draw doc = Raise e
  end.
Proof.
  destruct doc as [t atts kids|]; [|discriminate]. cbn [well_placed]. rewrite andb_true_iff. intros [T P] B.
  cbn [bad_dates] in B. unfold xes_parse. rewrite run_elem. cbn [faults].
  unfold is_tag in T. apply str_eqb_eq in T.
  assert (FT : fault mgr urlparse t atts = None) by (unfold fault, is_tag; rewrite T; reflexivity). rewrite FT. cbn [app].
  assert (R1 : step ps_init (SStart t atts) = Ok (start_log atts ps_init)).
  { cbn [xes_step]. unfold start_element. rewrite T. reflexivity. }
  rewrite R1. cbn [bind].
  assert (K : outcome InLog (flat_map (faults mgr urlparse) kids) (start_log atts ps_init) (run (flat_map sax_of kids) (start_log atts ps_init))).
  { apply kids_outcome; auto; [|lia|split; [discriminate|exact I]|discriminate].
    apply Forall_forall. intros x _ s0 A1 A2 A3 A4. now apply element_outcome. }
  destruct (flat_map (faults mgr urlparse) kids) as [|e fs]; [|cbn [outcome] in K; now rewrite K].
  destruct K as (s2 & R2 & K1 & K2). rewrite R2. cbn [bind].
  assert (S2 : p_attributables s2 = p_attributables (start_log atts ps_init)).
  { assert (X := run_flat_stacks _ _ _ _ _ _ R2). replace (list_sum (map bad_dates kids)) with 0 in X by lia. apply X. }
  cbn [xes_step]. unfold end_element. rewrite T. simpl. unfold pop_attributable. rewrite S2. cbn.
  destruct (p_log s2) as [l|] eqn:L; [|congruence]. exists (mk_ps (p_heap s2) (Some l) (p_trace s2) (p_event s2) (p_attrs s2) [] (p_globals s2) (p_drawn s2)), l.
  split; auto.
Qed.

(** ** Documents with unreadable dates *)
Lemma kids_raise p kids :
  Forall (fun x => forall s, placed p x = true -> fits p s ->
     match run (sax_of x) s with Ok s' => keeps p s s' | Raise e => e = IndexError \/ In e (faults mgr urlparse x) end) kids ->
  forall s, forallb (placed p) kids = true -> fits p s ->
  match run (flat_map sax_of kids) s with Ok s' => keeps p s s' | Raise e => e = IndexError \/ In e (flat_map (faults mgr urlparse) kids) end.
Proof.
  induction 1 as [|x kids H F IH]; intros s P FI.
  { destruct FI. split; auto. destruct p; auto. }
  cbn [forallb] in P. apply andb_true_iff in P as [P1 P2]. specialize (H s P1 FI). cbn [flat_map]. unfold xes_run in *. rewrite run_app.
  destruct (fold_res step (sax_of x) s) as [s1|e].
  - specialize (IH s1 P2 (fits_keeps _ _ _ FI H)).
    destruct (fold_res step (flat_map sax_of kids) s1); [eapply keeps_trans; eauto|].
    destruct IH; auto. right. apply in_or_app. auto.
  - destruct H; auto. right. apply in_or_app. auto.
Qed.

Lemma element_raise x : forall p s, placed p x = true -> fits p s ->
  match run (sax_of x) s with Ok s' => keeps p s s' | Raise e => e = IndexError \/ In e (faults mgr urlparse x) end.
Proof.
  induction x as [t atts kids IH|tx] using xnode_ind2; intros p s P FI.
  2:{ destruct FI. split; auto. destruct p; auto. }
  assert (PI := placed_inner _ _ _ _ P). destruct PI as (PK & PL & PE & PT).
  cbn [faults]. rewrite run_elem. destruct (step s (SStart t atts)) as [s1|e] eqn:R1; cbn [bind].
  2:{ apply start_raises in R1; [|apply FI]. rewrite R1. right. now left. }
  assert (K : match run (flat_map sax_of kids) s1 with Ok s' => keeps (inner p t) s1 s' | Raise e => e = IndexError \/ In e (flat_map (faults mgr urlparse) kids) end).
  { apply kids_raise; auto; [|eapply fits_inner; eauto]. eapply Forall_impl; [|exact IH]. intros y H s0 H1 H2. apply H; auto. }
  destruct (run (flat_map sax_of kids) s1) as [s2|e]; cbn [bind].
  2:{ destruct K; auto. right. apply in_or_app. auto. }
  destruct (step s2 (SEnd t)) as [s3|e] eqn:R3.
  - eapply keeps_element; eauto.
  - apply end_raises in R3 as [->|[-> [[EV T]|[TR T]]]]; [auto| |].
    + exfalso. specialize (PE EV). subst p. destruct FI as [_ FI].
      assert (TF : is_tag t "trace" = false).
      { unfold is_tag in *. apply str_eqb_eq in EV. rewrite EV. reflexivity. }
      assert (A := start_refs _ _ _ _ R1). destruct A as (_ & _ & A). specialize (A TF).
      destruct K as [_ K2]. unfold inner in K2. rewrite (foreign_event _ EV), TF in K2. congruence.
    + exfalso. now apply (proj1 K).
Qed.

Theorem document_raise doc : well_placed doc = true -> bad_dates doc <> 0 ->
  exists e, xes_parse mgr urlparse draw doc = Raise e /\ (e = IndexError \/ In e (faults mgr urlparse doc)).
Proof.
  intros W B. destruct (xes_parse mgr urlparse draw doc) as [s|e] eqn:R.
  { apply bad_date_fatal in R. congruence. }
  exists e. split; auto. destruct doc as [t atts kids|]; [|discriminate]. cbn [well_placed] in W. rewrite andb_true_iff in W. destruct W as [T P].
  unfold xes_parse in R. rewrite run_elem in R. cbn [faults].
  unfold is_tag in T. apply str_eqb_eq in T.
  assert (FT : fault mgr urlparse t atts = None) by (unfold fault, is_tag; rewrite T; reflexivity). rewrite FT. cbn [app].
  assert (R1 : step ps_init (SStart t atts) = Ok (start_log atts ps_init)).
  { cbn [xes_step]. unfold start_element. rewrite T. reflexivity. }
  rewrite R1 in R. cbn [bind] in R.
  assert (K := kids_raise InLog kids).
  specialize (K (proj2 (Forall_forall _ _) (fun x _ s A1 A2 => element_raise x InLog s A1 A2)) (start_log atts ps_init) P).
  specialize (K ltac:(split; [discriminate|exact I])).
  destruct (run (flat_map sax_of kids) (start_log atts ps_init)) as [s2|e2]; cbn [bind] in R.
  - apply end_raises in R as [->|[-> [[EV X]|[TR X]]]]; auto.
    + unfold is_tag in EV. rewrite T in EV. discriminate.
    + unfold is_tag in TR. rewrite T in TR. discriminate.
  - injection R as <-. exact K.
Qed.

(** ** Any document *)
Lemma accepted_faults x : forall s s', run (sax_of x) s = Ok s' -> faults mgr urlparse x = [].
Proof.
  induction x as [t atts kids IH|tx] using xnode_ind2; intros s s' R; [|reflexivity].
  rewrite run_elem in R. cbn [faults]. destruct (fault mgr urlparse t atts) as [e|] eqn:FT.
  { rewrite (start_fault _ _ _ _ FT) in R. discriminate. }
  destruct (step s (SStart t atts)) as [s1|]; [|discriminate]. cbn [bind app] in *.
  destruct (run (flat_map sax_of kids) s1) as [s2|] eqn:R2; [|discriminate]. clear R. revert s1 R2.
  induction IH as [|y kids H F IH]; intros s1 R2; [reflexivity|].
  cbn [flat_map] in *. apply run_split in R2 as (s3 & R3 & R4). rewrite (H _ _ R3). cbn [app]. eauto.
Qed.

Lemma step_raises s ev e : step s ev = Raise e -> In e [ValueError; OverflowError; IndexError; AttributeError; TypeError].
Proof.
  destruct ev as [t atts|t|]; [|intros R|discriminate].
  - intros R. destruct (fault mgr urlparse t atts) as [e'|] eqn:FT.
    + rewrite (start_fault _ _ _ _ FT) in R. injection R as <-. unfold fault in FT.
      repeat match type of FT with context [if is_tag t ?x then _ else _] => destruct (is_tag t x) end; try discriminate;
        repeat match type of FT with context [match ?x with _ => _ end] => destruct x eqn:? end; try discriminate; injection FT as <-; simpl; auto.
      all: match goal with H : parse_date_time _ = Raise _ |- _ => apply parse_date_time_raise in H as [-> _] | _ => idtac end; simpl; auto 6.
    + destruct (p_log s) as [l|] eqn:L; [destruct (start_fine t atts s FT ltac:(congruence)) as [s' X]; congruence|].
      cut (e = AttributeError); [intros ->; simpl; auto|].
      assert (W : forall f, with_log f s = Raise e -> e = AttributeError) by (intros f; unfold with_log; rewrite L; now intros [= <-]).
      set (s0 := mk_ps (p_heap s) (Some 0) (p_trace s) (p_event s) (p_attrs s) (p_attributables s) (p_globals s) (p_drawn s)).
      destruct (start_fine t atts s0 FT ltac:(discriminate)) as [s' X].
      revert R X. cbn [xes_step]. unfold start_element. destruct (attr_tag (lower t)) as [c|].
      { unfold start_attr. destruct (tag_value _ _) as [[v|]|]; simpl; discriminate. }
      destruct (str_eqb (lower t) (py "event")); [discriminate|]. destruct (str_eqb (lower t) (py "trace")); [discriminate|].
      destruct (str_eqb (lower t) (py "log")); [discriminate|].
      destruct (str_eqb (lower t) (py "extension")).
      { unfold start_extension. destruct (match sget (py "prefix") atts with Some p => _ | None => _ end) as [[x|]|] eqn:X.
        - intros R _. eapply W; eauto.
        - cbn [bind]. destruct (sget (py "uri") atts); discriminate.
        - intros _. cbn [bind]. discriminate. }
      destruct (str_eqb (lower t) (py "global")).
      { unfold start_global. rewrite L. destruct (sget (py "scope") atts); [|discriminate].
        destruct (str_eqb _ _); [now intros [= <-]|]. destruct (str_eqb _ _); [now intros [= <-]|discriminate]. }
      destruct (str_eqb (lower t) (py "classifier")); [|discriminate].
      unfold start_classifier. destruct (sget (py "name") atts), (sget (py "keys") atts); try discriminate.
      destruct (_ && _); [intros R _; eapply W; eauto|discriminate].
  - apply end_raises in R as [->|[-> _]]; simpl; auto.
Qed.

Theorem run_raises es : forall s e, run es s = Raise e -> In e [ValueError; OverflowError; IndexError; AttributeError; TypeError].
Proof.
  unfold xes_run. induction es as [|ev es IH]; intros s e R; [discriminate|]. cbn [fold_res] in R.
  destruct (step s ev) as [s1|] eqn:S1; [eauto|]. injection R as <-. eapply step_raises; eauto.
Qed.

(** Events need a trace and traces a log. *)
Lemma no_trace x : has_tag "trace" x = false -> forall s s', run (sax_of x) s = Ok s' -> p_trace s = None ->
  p_trace s' = None /\ has_tag "event" x = false.
Proof.
  induction x as [t atts kids IH|tx] using xnode_ind2; intros H s s' R T.
  2:{ injection R as <-. auto. }
  cbn [has_tag] in *. apply orb_false_iff in H as [H1 H2]. rewrite run_elem in R.
  destruct (step s (SStart t atts)) as [s1|] eqn:R1; [|discriminate]. cbn [bind] in R.
  destruct (run (flat_map sax_of kids) s1) as [s2|] eqn:R2; [|discriminate]. cbn [bind] in R.
  apply start_refs in R1 as (_ & _ & R1). rewrite T in R1. specialize (R1 H1).
  assert (K : p_trace s2 = None /\ existsb (has_tag "event") kids = false).
  { clear R. revert s1 R1 R2 H2. induction IH as [|y kids P F IH]; intros s1 R1 R2 H2; [injection R2 as <-; auto|].
    cbn [flat_map existsb] in *. apply orb_false_iff in H2 as [H2 H3]. apply run_split in R2 as (s3 & R3 & R4).
    destruct (P H2 _ _ R3 R1) as [Q1 Q2]. rewrite Q2. simpl. eapply IH; eauto. }
  destruct K as [K1 K2]. rewrite K2, orb_false_r.
  destruct (is_tag t "event") eqn:EV.
  - exfalso. revert R. cbn [xes_step]. unfold end_element. assert (E := EV). unfold is_tag in E. apply str_eqb_eq in E. rewrite E.
    simpl. unfold end_event. now rewrite K1.
  - apply end_refs in R as (_ & R). rewrite (R H1). auto.
Qed.

Lemma no_log x : has_tag "log" x = false -> forall s s', run (sax_of x) s = Ok s' -> p_log s = None ->
  p_log s' = None /\ has_tag "trace" x = false.
Proof.
  induction x as [t atts kids IH|tx] using xnode_ind2; intros H s s' R T.
  2:{ injection R as <-. auto. }
  cbn [has_tag] in *. apply orb_false_iff in H as [H1 H2]. rewrite run_elem in R.
  destruct (step s (SStart t atts)) as [s1|] eqn:R1; [|discriminate]. cbn [bind] in R.
  destruct (run (flat_map sax_of kids) s1) as [s2|] eqn:R2; [|discriminate]. cbn [bind] in R.
  assert (R1' : p_log s1 = None).
  { revert R1. cbn [xes_step]. unfold start_element.
    assert (W : forall f, with_log f s = Ok s1 -> p_log s1 = None) by (intros f; unfold with_log; now rewrite T).
    destruct (attr_tag (lower t)) as [c|].
    { unfold start_attr. destruct (tag_value _ _) as [[v|]|]; simpl; [| |discriminate]; intros [= <-]; auto. }
    destruct (str_eqb (lower t) (py "event")); [intros [= <-]; auto|]. destruct (str_eqb (lower t) (py "trace")); [intros [= <-]; auto|].
    unfold is_tag in H1. rewrite H1.
    destruct (str_eqb (lower t) (py "extension")).
    { unfold start_extension. destruct (match sget (py "prefix") atts with Some p => _ | None => _ end) as [[x|]|]; [apply W| |discriminate]. cbn [bind].
      destruct (sget (py "uri") atts); [|discriminate]. intros [= <-]. auto. }
    destruct (str_eqb (lower t) (py "global")).
    { unfold start_global. rewrite T. destruct (sget (py "scope") atts) as [p|]; [|discriminate].
      cbv zeta. destruct (str_eqb (lower p) (py "trace")); [discriminate|]. destruct (str_eqb (lower p) (py "event")); [discriminate|]. intros E. injection E as <-. auto. }
    destruct (str_eqb (lower t) (py "classifier")); [|intros [= <-]; auto].
    unfold start_classifier. destruct (sget (py "name") atts), (sget (py "keys") atts); try (intros [= <-]; auto; fail).
    destruct (_ && _); [apply W|intros [= <-]; auto]. }
  assert (K : p_log s2 = None /\ existsb (has_tag "trace") kids = false).
  { clear R R1. revert s1 R1' R2 H2. induction IH as [|y kids P F IH]; intros s1 R1 R2 H2; [injection R2 as <-; auto|].
    cbn [flat_map existsb] in *. apply orb_false_iff in H2 as [H2 H3]. apply run_split in R2 as (s3 & R3 & R4).
    destruct (P H2 _ _ R3 R1) as [Q1 Q2]. rewrite Q2. simpl. eapply IH; eauto. }
  destruct K as [K1 K2]. rewrite K2, orb_false_r.
  destruct (is_tag t "trace") eqn:TR.
  - exfalso. revert R. cbn [xes_step]. unfold end_element. assert (E := TR). unfold is_tag in E. apply str_eqb_eq in E. rewrite E.
    simpl. unfold end_trace. now rewrite K1.
  - apply end_refs in R as (R & _). rewrite R. auto.
Qed.

Theorem stray_event doc : has_tag "event" doc = true -> has_tag "trace" doc = false -> exists e, xes_parse mgr urlparse draw doc = Raise e.
Proof.
  intros E T. destruct (xes_parse mgr urlparse draw doc) as [s|e] eqn:R; [|eauto].
  destruct (no_trace doc T _ _ R eq_refl). congruence.
Qed.
Theorem stray_trace doc : has_tag "trace" doc = true -> has_tag "log" doc = false -> exists e, xes_parse mgr urlparse draw doc = Raise e.
Proof.
  intros E T. destruct (xes_parse mgr urlparse draw doc) as [s|e] eqn:R; [|eauto].
  destruct (no_log doc T _ _ R eq_refl). congruence.
Qed.
End S.
