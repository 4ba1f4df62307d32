(** Reading XES: extensions by prefix; globals. *)
From Coq Require Import String NArith ZArith List Bool.
From Verif Require Import Base.PyBase Base.PyVal Base.Xml Model.Attr Model.Registry Model.XesRead
  Model.Token Spec.Xes Spec.XesParts Proofs.BaseFacts Proofs.StrFacts Proofs.AttrInd Proofs.XesReadFacts.
Import ListNotations.

Lemma split_colon k : split (py ":") k = if mem_char 58 k then before_char 58 k :: match split (py ":") k with _ :: r => r | [] => [] end
                                         else [k].
Proof.
  change (py ":") with [58%N]. induction k as [| c k IH]; [reflexivity |]. unfold mem_char in *. cbn [existsb before_char].
  destruct (N.eqb_spec 58 c) as [<- | NE].
  - rewrite split1_here. reflexivity.
  - assert (N.eqb c 58 = false) as -> by (apply N.eqb_neq; congruence). rewrite split1_other by congruence.
    cbn [orb]. destruct (existsb (N.eqb 58) k); rewrite IH; reflexivity.
Qed.

Lemma split_colon_more k p r : mem_char 58 k = true -> split (py ":") k = p :: r -> r <> [].
Proof.
  change (py ":") with [58%N]. revert p r. induction k as [| c k IH]; intros p r M E; [discriminate |].
  unfold mem_char in *. cbn [existsb] in M. destruct (N.eqb_spec 58 c) as [<- | NE].
  - rewrite split1_here in E. injection E as _ <-. apply split_nonnil.
  - rewrite split1_other in E by congruence. cbn [orb] in M. destruct (split [58%N] k) as [| q s] eqn:S; [now apply split_nonnil in S |].
    injection E as _ <-. exact (IH q s M eq_refl).
Qed.

Lemma key_extension_named mgr k : key_extension mgr k = named_extension mgr k.
Proof.
  unfold key_extension, named_extension. destruct (split (py ":") k) as [| p r] eqn:S; [now apply split_nonnil in S |].
  pose proof (split_colon k) as C. rewrite S in C. destruct (mem_char 58 k) eqn:M.
  - injection C as ->. destruct r as [| q r]; [now apply (split_colon_more k _ _ M) in S |]. reflexivity.
  - now injection C as -> ->.
Qed.

Lemma same_attr_extension mgr a b : same_attr mgr a b -> a_ext b = named_extension mgr (a_key a).
Proof. intros []; apply key_extension_named. Qed.

Section Globals.
Context `{FIO : FloatIO} (mgr : manager xext) (urlparse : pystr -> option pystr) (draw : nat -> N).
Notation step := (xes_step mgr urlparse draw).
Notation run := (xes_run mgr urlparse draw).
Definition not_global (e : sax) : bool :=
  match e with SStart t _ | SEnd t => negb (str_eqb (lower t) (py "global")) | SChars _ => true end.

Lemma with_log_globals f s s' : with_log f s = Ok s' -> p_globals s' = p_globals s.
Proof. unfold with_log. destruct (p_log s); [intros [= <-]; reflexivity | discriminate]. Qed.

Lemma pop_globals s s' : pop_attributable s = Ok s' -> p_globals s' = p_globals s.
Proof. unfold pop_attributable. destruct (p_attributables s); [discriminate | intros [= <-]; reflexivity]. Qed.

Lemma end_attr_globals s s' : end_attr s = Ok s' -> p_globals s' = p_globals s.
Proof.
  unfold end_attr, pop_attr. destruct (p_attrs s) as [| i t]; [discriminate |]. cbn [bind].
  match goal with |- context [pop_attributable ?x] => destruct (pop_attributable x) as [s2 |] eqn:P end; [| discriminate].
  apply pop_globals in P. cbn [bind p_globals] in *. rewrite <- P.
  destruct (p_globals s2) as [[l g] |] eqn:G; [intros [= <-]; cbn [with_heap p_globals]; exact G |].
  destruct (p_attributables s2); [discriminate | intros [= <-]; cbn [with_heap p_globals]; exact G].
Qed.

Lemma step_globals e s s' : not_global e = true -> step s e = Ok s' -> p_globals s' = p_globals s.
Proof.
  destruct e as [t a | t | c]; cbn [not_global xes_step]; [| | intros _ [= <-]; reflexivity];
    rewrite negb_true_iff; intros NG.
  - unfold start_element. destruct (attr_tag (lower t)) as [c |].
    { unfold start_attr. destruct (tag_value c _) as [[v |] |]; [| | discriminate]; cbn [bind]; intros [= <-]; reflexivity. }
    destruct (str_eqb (lower t) (py "event")); [intros [= <-]; reflexivity |].
    destruct (str_eqb (lower t) (py "trace")); [intros [= <-]; reflexivity |].
    destruct (str_eqb (lower t) (py "log")); [intros [= <-]; reflexivity |].
    destruct (str_eqb (lower t) (py "extension")).
    { unfold start_extension. cbv zeta. destruct (match sget (py "prefix") a with Some _ => _ | None => _ end) as [[x |] |]; [| | discriminate]; cbn [bind].
      - apply with_log_globals.
      - destruct (sget (py "uri") a); [intros [= <-]; reflexivity | discriminate]. }
    rewrite NG. destruct (str_eqb (lower t) (py "classifier")); [| intros [= <-]; reflexivity].
    unfold start_classifier. destruct (sget (py "name") a) as [n |], (sget (py "keys") a) as [k |]; try (intros [= <-]; reflexivity).
    destruct (nonempty n && nonempty k); [apply with_log_globals | intros [= <-]; reflexivity].
  - unfold end_element. rewrite NG. destruct (attr_tag (lower t)); [apply end_attr_globals |].
    destruct (str_eqb (lower t) (py "event")).
    { unfold end_event. destruct (p_trace s); [intros P; apply pop_globals in P; exact P | discriminate]. }
    destruct (str_eqb (lower t) (py "trace")).
    { unfold end_trace. destruct (p_log s); [intros P; apply pop_globals in P; exact P | discriminate]. }
    destruct (str_eqb (lower t) (py "log")); [apply pop_globals | intros [= <-]; reflexivity].
Qed.

Lemma run_globals es : forall s s', forallb not_global es = true -> run es s = Ok s' -> p_globals s' = p_globals s.
Proof.
  induction es as [| e es IH]; intros s s' F R; unfold xes_run in R; cbn [fold_res] in R; [now injection R as <- |].
  cbn [forallb] in F. apply andb_prop in F. destruct F as [F1 F2].
  destruct (step s e) as [s1 |] eqn:E; [| discriminate]. rewrite (IH _ _ F2 R). exact (step_globals e s s1 F1 E).
Qed.

Lemma no_global_sax x : no_global x = true -> forallb not_global (sax_of x) = true.
Proof.
  induction x as [t a kids IH | c] using xnode_ind2; [| reflexivity]. cbn [no_global sax_of]. intros H.
  apply andb_prop in H. destruct H as [H1 H2]. cbn [forallb not_global app]. rewrite H1. cbn [andb].
  rewrite forallb_app. cbn [forallb not_global]. rewrite H1, andb_true_r.
  clear - IH H2. induction IH as [| x l HX _ IHl]; [reflexivity |]. cbn [forallb flat_map] in *.
  apply andb_prop in H2. destruct H2 as [H2 H3]. rewrite forallb_app, (HX H2). now apply IHl.
Qed.

(** Reading an element keeps the list of globals; a global element ends with none. *)
Lemma element_globals x s s' : no_global x = true -> run (sax_of x) s = Ok s' -> p_globals s' = p_globals s.
Proof. intros H. apply run_globals. now apply no_global_sax. Qed.

Lemma global_ends t a kids s s' : lower t = py "global" -> run (sax_of (XElem t a kids)) s = Ok s' -> p_globals s' = None.
Proof.
  intros T R. unfold xes_run in R. cbn [sax_of app] in R. change (SStart t a :: flat_map sax_of kids ++ [SEnd t]) with ((SStart t a :: flat_map sax_of kids) ++ [SEnd t]) in R.
  rewrite fold_res_app in R. destruct (fold_res step (SStart t a :: flat_map sax_of kids) s) as [s1 |]; [| discriminate].
  cbn [fold_res xes_step] in R. unfold end_element in R. rewrite T in R. cbn in R. now injection R as <-.
Qed.
End Globals.
