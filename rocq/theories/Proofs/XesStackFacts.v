From Coq Require Import String NArith ZArith List Bool Lia.
From Verif Require Import Base.PyBase Base.PyDate Base.PyVal Base.Xml Model.Attr Model.DateConv Model.Log
  Model.Token Model.Registry Model.XesWrite Model.XesRead Spec.DateText Spec.Registries Spec.Xes
  Proofs.BaseFacts Proofs.StrFacts Proofs.XesReadFacts Proofs.XesRoundFacts.
Import ListNotations.

Section S.
Context `{FIO : FloatIO} (mgr : manager xext) (urlparse : pystr -> option pystr) (draw : nat -> N).
Notation run := (xes_run mgr urlparse draw).
Notation step := (xes_step mgr urlparse draw).

(** ** Stacks *)

Definition popped (b : nat) (s s' : pstate) : Prop :=
  p_attrs s' = skipn b (p_attrs s) /\ p_attributables s' = skipn b (p_attributables s)
  /\ b <= List.length (p_attrs s) /\ b <= List.length (p_attributables s).

Lemma popped_0 s s' : p_attrs s' = p_attrs s -> p_attributables s' = p_attributables s -> popped 0 s s'.
Proof. intros A B. unfold popped. rewrite A, B. simpl. repeat split; auto; lia. Qed.

Lemma skipn_skipn_ {A} a b (l : list A) : skipn a (skipn b l) = skipn (b + a) l.
Proof. revert l; induction b as [|b IH]; intros l; simpl; auto. destruct l; simpl; [now rewrite skipn_nil|auto]. Qed.

Lemma popped_trans a b s s1 s2 : popped a s s1 -> popped b s1 s2 -> popped (a + b) s s2.
Proof.
  intros (A & B & C & D) (A' & B' & C' & D'). unfold popped. rewrite A', B', A, B, !skipn_skipn_.
  rewrite A, skipn_length in C'. rewrite B, skipn_length in D'. repeat split; auto; lia.
Qed.

Lemma with_log_stacks f s s' : with_log f s = Ok s' -> p_attrs s' = p_attrs s /\ p_attributables s' = p_attributables s.
Proof. unfold with_log. destruct (p_log s); [|discriminate]. now intros [= <-]. Qed.

Lemma pop_attributable_ok s s' : pop_attributable s = Ok s' ->
  p_attrs s' = p_attrs s /\ exists x, p_attributables s = x :: p_attributables s'.
Proof. unfold pop_attributable. destruct (p_attributables s); [discriminate|]. intros [= <-]. eauto. Qed.

Lemma end_attr_ok s s' : end_attr s = Ok s' -> popped 1 s s'.
Proof.
  unfold end_attr. unfold pop_attr. destruct (p_attrs s) as [|i q] eqn:A; [discriminate|]. cbn [bind].
  unfold pop_attributable. pfields. destruct (p_attributables s) as [|j r] eqn:B; [discriminate|]. cbn [bind]. pfields.
  unfold popped. rewrite A, B. simpl.
  destruct (p_globals s) as [[l g]|].
  - intros [= <-]. simpl. repeat split; auto; lia.
  - destruct r; [discriminate|]. intros [= <-]. destruct q; simpl; repeat split; auto; lia.
Qed.

(** An element: what the start tag pushes, the end tag pops. *)
Definition pushed (a b : list nat) (s s' : pstate) : Prop :=
  p_attrs s' = a ++ p_attrs s /\ p_attributables s' = b ++ p_attributables s.

Lemma start_stacks t atts s s' : step s (SStart t atts) = Ok s' ->
  match attr_tag (lower t) with
  | Some _ => if bad_date t atts then s' = s else exists n, pushed [n] [n] s s'
  | None => if str_eqb (lower t) (py "event") || str_eqb (lower t) (py "trace") || str_eqb (lower t) (py "log")
            then exists n, pushed [] [n] s s' else pushed [] [] s s'
  end.
Proof.
  simpl. unfold start_element, bad_date. destruct (attr_tag (lower t)) as [c|] eqn:TG.
  - unfold start_attr. fold (att "value" atts []). fold (att "key" atts (py "UNKNOWN")).
    destruct (str_eqb_spec (lower t) (py "date")) as [D|D].
    + rewrite D in TG. injection TG as <-. cbn [tag_value bind andb].
      destruct (parse_date_time (att "value" atts [])) as [[d|]|]; cbn [bind option_map]; try discriminate.
      * intros [= <-]. eexists. split; reflexivity.
      * now intros [= <-].
    + assert (CT : c <> CTimestamp).
      { intros ->. apply D. revert TG. unfold attr_tag.
        repeat (match goal with |- context [str_eqb ?a ?b] => destruct (str_eqb_spec a b) end; try discriminate; auto). }
      cbn [andb].
      assert (V : forall v, tag_value c (att "value" atts []) = Ok v -> v <> None).
      { intros v. destruct c; simpl; try congruence.
        - destruct (py_int _ _); congruence.
        - destruct (float_of_str _); congruence.
        - destruct (uuid_of_str _); congruence. }
      destruct (tag_value c (att "value" atts [])) as [[v|]|] eqn:TV; cbn [bind]; try discriminate.
      * intros [= <-]. eexists. split; reflexivity.
      * now destruct (V None).
  - destruct (str_eqb (lower t) (py "event")) eqn:E1; [intros [= <-]; eexists; split; reflexivity|].
    destruct (str_eqb (lower t) (py "trace")) eqn:E2; [intros [= <-]; eexists; split; reflexivity|].
    destruct (str_eqb (lower t) (py "log")) eqn:E3; [intros [= <-]; eexists; split; reflexivity|]. cbn [orb].
    destruct (str_eqb (lower t) (py "extension")).
    { unfold start_extension. destruct (match sget (py "prefix") atts with Some _ => _ | None => _ end) as [[x|]|]; [| |discriminate]; cbn [bind].
      - apply with_log_stacks.
      - destruct (sget (py "uri") atts); [|discriminate]. intros [= <-]. split; reflexivity. }
    destruct (str_eqb (lower t) (py "global")).
    { unfold start_global. destruct (sget (py "scope") atts); [|discriminate].
      destruct (if str_eqb (lower p) (py "trace") then _ else _); [|intros [= <-]; split; reflexivity].
      destruct (p_log s); [|discriminate]. intros [= <-]. split; reflexivity. }
    destruct (str_eqb (lower t) (py "classifier")).
    { unfold start_classifier. destruct (sget (py "name") atts); [|intros [= <-]; split; reflexivity].
      destruct (sget (py "keys") atts); [|intros [= <-]; split; reflexivity].
      destruct (nonempty p && nonempty p0); [apply with_log_stacks|intros [= <-]; split; reflexivity]. }
    intros [= <-]; split; reflexivity.
Qed.

Lemma end_stacks t s s' : step s (SEnd t) = Ok s' ->
  match attr_tag (lower t) with
  | Some _ => popped 1 s s'
  | None => p_attrs s' = p_attrs s /\
            if str_eqb (lower t) (py "event") || str_eqb (lower t) (py "trace") || str_eqb (lower t) (py "log")
            then exists n, p_attributables s = n :: p_attributables s' else p_attributables s' = p_attributables s
  end.
Proof.
  simpl. unfold end_element. destruct (attr_tag (lower t)) as [c|] eqn:TG.
  - rewrite (tag_not_global _ _ TG). apply end_attr_ok.
  - destruct (str_eqb_spec (lower t) (py "global")) as [G|G]; [rewrite G; intros [= <-]; split; reflexivity|].
    destruct (str_eqb (lower t) (py "event")) eqn:E1.
    { unfold end_event. destruct (p_trace s); [|discriminate]. intros X. now apply pop_attributable_ok in X. }
    destruct (str_eqb (lower t) (py "trace")) eqn:E2.
    { unfold end_trace. destruct (p_log s); [|discriminate]. intros X. now apply pop_attributable_ok in X. }
    destruct (str_eqb (lower t) (py "log")) eqn:E3.
    { apply pop_attributable_ok. }
    intros [= <-]. split; reflexivity.
Qed.

Lemma run_split a b s s' : run (a ++ b) s = Ok s' -> exists s1, run a s = Ok s1 /\ run b s1 = Ok s'.
Proof. unfold run. rewrite run_app. destruct (fold_res step a s) as [s1|]; [eauto|discriminate]. Qed.

Theorem stacks_popped x : forall s s', run (sax_of x) s = Ok s' -> popped (bad_dates x) s s'.
Proof.
  induction x as [t atts kids IH|tx] using xnode_ind2; intros s s' R.
  2:{ injection R as <-. now apply popped_0. }
  cbn [sax_of] in R. change (SStart t atts :: flat_map sax_of kids ++ [SEnd t]) with ([SStart t atts] ++ flat_map sax_of kids ++ [SEnd t]) in R.
  apply run_split in R as (s1 & R1 & R). apply run_split in R as (s2 & R2 & R3).
  assert (K : popped (list_sum (map bad_dates kids)) s1 s2).
  { clear R1 R3. revert s1 R2. induction IH as [|y kids H F IH]; intros s1 R2.
    - injection R2 as <-. now apply popped_0.
    - cbn [flat_map] in R2. apply run_split in R2 as (s3 & R3 & R4). cbn [map list_sum fold_right].
      eapply popped_trans; [apply H; exact R3|apply IH; exact R4]. }
  unfold run in R1, R3. cbn [fold_res] in R1, R3.
  destruct (step s (SStart t atts)) as [s1'|] eqn:R1'; [|discriminate]. injection R1 as ->.
  destruct (step s2 (SEnd t)) as [s3|] eqn:R3'; [|discriminate]. injection R3 as ->.
  apply start_stacks in R1'. apply end_stacks in R3'. cbn [bad_dates].
  assert (BD : attr_tag (lower t) = None -> bad_date t atts = false).
  { unfold bad_date. destruct (str_eqb_spec (lower t) (py "date")) as [->|]; [discriminate|auto]. }
  set (b := list_sum (map bad_dates kids)) in *. clearbody b. destruct K as (K1 & K2 & K3 & K4).
  destruct (attr_tag (lower t)) as [c|].
  - destruct (bad_date t atts).
    + subst s1. rewrite (Nat.add_comm 1). eapply popped_trans; [|exact R3']. repeat split; auto.
    + destruct R1' as (n & P1 & P2). simpl in P1, P2.
      assert (P : popped (b + 1) s1 s') by (eapply popped_trans; [|exact R3']; repeat split; auto).
      destruct P as (Q1 & Q2 & Q3 & Q4). rewrite P1 in Q1, Q3. rewrite P2 in Q2, Q4. rewrite (Nat.add_comm b 1) in *. simpl in *.
      repeat split; auto; lia.
  - rewrite BD by auto. simpl. destruct R3' as (E1 & E2). unfold popped. rewrite E1, K1.
    destruct (str_eqb (lower t) (py "event") || str_eqb (lower t) (py "trace") || str_eqb (lower t) (py "log")).
    + destruct R1' as (n & P1 & P2). simpl in P1, P2. destruct E2 as (m & E2). rewrite K2, P2 in E2.
      rewrite P1 in *. rewrite P2 in K4. simpl in K4.
      split; auto.
      assert (E3 : skipn (b + 1) (n :: p_attributables s) = p_attributables s') by (rewrite <- skipn_skipn_, E2; reflexivity).
      rewrite Nat.add_comm in E3. simpl in E3. rewrite E3. split; auto. split; auto.
      destruct (Nat.le_gt_cases b (List.length (p_attributables s))); auto.
      rewrite skipn_all2 in E2 by (simpl; lia). discriminate.
    + destruct R1' as (P1 & P2). simpl in P1, P2. rewrite P1, P2 in *. now rewrite E2, K2.
Qed.

Theorem stacks_restored x s s' : bad_dates x = 0 -> run (sax_of x) s = Ok s' ->
  p_attrs s' = p_attrs s /\ p_attributables s' = p_attributables s.
Proof. intros B R. apply stacks_popped in R. rewrite B in R. destruct R as (A & C & _). auto. Qed.

Theorem bad_date_fatal doc s : xes_parse mgr urlparse draw doc = Ok s -> bad_dates doc = 0.
Proof. intros R. apply stacks_popped in R. destruct R as (_ & _ & H & _). simpl in H. lia. Qed.

Lemma bad_date_step t atts s : bad_date t atts = true -> step s (SStart t atts) = Ok s.
Proof.
  unfold bad_date. rewrite andb_true_iff. intros [D B]. apply str_eqb_eq in D. simpl. unfold start_element. rewrite D.
  change (attr_tag (py "date")) with (Some CTimestamp). unfold start_attr. fold (att "value" atts []). cbn [tag_value].
  destruct (parse_date_time (att "value" atts [])) as [[d|]|]; try discriminate. reflexivity.
Qed.

Lemma attr_end_tag t s : attr_tag (lower t) <> None -> step s (SEnd t) = end_attr s.
Proof.
  intros H. simpl. unfold end_element. destruct (attr_tag (lower t)) as [c|] eqn:TG; [|congruence].
  now rewrite (tag_not_global _ _ TG).
Qed.

Theorem bad_date_closes t atts kids t' s : bad_date t atts = true -> attr_tag (lower t') <> None ->
  run (sax_of (XElem t atts kids)) s = run (flat_map sax_of kids ++ [SEnd t']) s.
Proof.
  intros B T. unfold run. cbn [sax_of fold_res]. rewrite bad_date_step by auto. rewrite !run_app.
  destruct (fold_res step (flat_map sax_of kids) s) as [s1|]; auto. cbn [fold_res].
  rewrite (attr_end_tag t'), (attr_end_tag t); auto.
  unfold bad_date in B. apply andb_true_iff in B as [D _]. apply str_eqb_eq in D. rewrite D. discriminate.
Qed.

Lemma run_flat_stacks kids : forall s s', run (flat_map sax_of kids) s = Ok s' -> popped (list_sum (map bad_dates kids)) s s'.
Proof.
  induction kids as [|y kids IH]; intros s s' R; [injection R as <-; now apply popped_0|].
  cbn [flat_map] in R. apply run_split in R as (s3 & R3 & R4). cbn [map list_sum fold_right].
  eapply popped_trans; [eapply stacks_popped; exact R3|apply IH; exact R4].
Qed.

Theorem bad_date_raises t atts kids s s' : bad_date t atts = true -> p_attrs s = [] ->
  run (flat_map sax_of kids) s = Ok s' -> run (sax_of (XElem t atts kids)) s = Raise IndexError.
Proof.
  intros B A R. rewrite (bad_date_closes _ _ _ (py "date")); [|auto|discriminate].
  assert (P := run_flat_stacks _ _ _ R). unfold run in *. rewrite run_app, R. cbn [fold_res].
  rewrite attr_end_tag by discriminate. destruct P as (P & _). rewrite A, skipn_nil in P.
  unfold end_attr, pop_attr. rewrite P. reflexivity.
Qed.

(** ** Foreign elements *)

Lemma foreign_spec t : foreign t = true -> forall s atts, step s (SStart t atts) = Ok s /\ step s (SEnd t) = Ok s.
Proof.
  unfold foreign. rewrite negb_true_iff. intros F s atts. simpl in F.
  repeat (apply orb_false_elim in F as [? F]). simpl. unfold start_element, end_element, attr_tag.
  repeat match goal with H : str_eqb _ _ = false |- _ => rewrite H; clear H end. auto.
Qed.

Lemma run_cons e es s : run (e :: es) s = match step s e with Ok s' => run es s' | Raise x => Raise x end.
Proof. reflexivity. Qed.
Lemma run_app_ a b s : run (a ++ b) s = match run a s with Ok s' => run b s' | Raise x => Raise x end.
Proof. apply run_app. Qed.

Theorem splice_run x : forall s, run (sax_of x) s = run (flat_map sax_of (splice x)) s.
Proof.
  induction x as [t atts kids IH|tx] using xnode_ind2; intros s; [|reflexivity].
  assert (K : forall s, run (flat_map sax_of kids) s = run (flat_map sax_of (flat_map splice kids)) s).
  { clear s. induction IH as [|y kids H F IH]; intros s; [reflexivity|]. cbn [flat_map].
    rewrite flat_map_app, !run_app_, H. destruct (run (flat_map sax_of (splice y)) s); auto. }
  cbn [sax_of splice]. rewrite run_cons. destruct (foreign t) eqn:F.
  - destruct (foreign_spec t F s atts) as [-> _]. rewrite run_app_, K.
    destruct (run (flat_map sax_of (flat_map splice kids)) s) as [s1|]; auto. rewrite run_cons.
    now destruct (foreign_spec t F s1 atts) as [_ ->].
  - cbn [flat_map sax_of]. rewrite app_nil_r, run_cons. destruct (step s (SStart t atts)) as [s1|]; auto.
    rewrite !run_app_, K. reflexivity.
Qed.

Theorem splice_parse x y : splice x = splice y -> xes_parse mgr urlparse draw x = xes_parse mgr urlparse draw y.
Proof. intros E. unfold xes_parse. now rewrite splice_run, E, <- splice_run. Qed.

Lemma same_case_ind2 (P : xnode -> xnode -> Prop) :
  (forall s, P (XText s) (XText s)) ->
  (forall t t' atts kids kids', lower t = lower t' -> Forall2 P kids kids' -> P (XElem t atts kids) (XElem t' atts kids')) ->
  forall x y, same_case x y -> P x y.
Proof.
  intros HT HE. fix go 3. intros x y [s|t t' atts kids kids' L F]; [apply HT|apply HE; auto].
  induction F; constructor; auto.
Qed.

Theorem same_case_run x y : same_case x y -> forall s, run (sax_of x) s = run (sax_of y) s.
Proof.
  intros C. induction C as [tx|t t' atts kids kids' L F] using same_case_ind2; intros s; [reflexivity|].
  assert (K : forall s, run (flat_map sax_of kids) s = run (flat_map sax_of kids') s).
  { clear s. induction F as [|a b kids kids' H F IH]; intros s; [reflexivity|]. cbn [flat_map].
    rewrite !run_app_, H. destruct (run (sax_of b) s); auto. }
  cbn [sax_of]. rewrite !run_cons.
  assert (S1 : forall s, step s (SStart t atts) = step s (SStart t' atts)) by (intros; simpl; unfold start_element; now rewrite L).
  assert (S2 : forall s, step s (SEnd t) = step s (SEnd t')) by (intros; simpl; unfold end_element; now rewrite L).
  rewrite S1. destruct (step s (SStart t' atts)) as [s1|]; auto. rewrite !run_app_, K.
  destruct (run (flat_map sax_of kids') s1) as [s2|]; auto. rewrite !run_cons, S2. reflexivity.
Qed.
End S.

Lemma splice_vocabulary x : forall t atts kids, In (XElem t atts kids) (splice x) -> foreign t = false.
Proof.
  induction x as [t0 a0 kids0 IH|tx] using xnode_ind2; intros t atts kids I; [|destruct I].
  cbn [splice] in I. destruct (foreign t0) eqn:F.
  - apply in_flat_map in I as (y & Y & I). rewrite Forall_forall in IH. eapply IH; eauto.
  - destruct I as [E|[]]. now injection E as <- _ _.
Qed.

Theorem splice_kept t atts kids : foreign t = false <-> exists kids', splice (XElem t atts kids) = [XElem t atts kids'].
Proof.
  split.
  - intros F. cbn [splice]. rewrite F. eauto.
  - intros (kids' & E). apply (splice_vocabulary (XElem t atts kids) t atts kids'). rewrite E. now left.
Qed.
