(** Saving a log that was loaded changes nothing any more. *)
From Coq Require Import String NArith ZArith List Bool Lia.
From Verif Require Import Base.PyBase Base.PyDate Base.PyVal Base.Xml Model.Attr Model.DateConv Model.Log Model.Token
  Model.Registry Model.XesWrite Model.XesRead Model.XmlText Model.XmlChars Spec.DateText Spec.Registries Spec.Xes Spec.XmlNorm
  Spec.Survive Spec.FileTexts Spec.Settled
  Proofs.AttrInd Proofs.BaseFacts Proofs.TokenFacts Proofs.XmlTextFacts Proofs.XmlFileFacts Proofs.XesReadFacts Proofs.XesRoundFacts
  Proofs.XesLogFacts Proofs.StatFacts Proofs.FileTextFacts.
Import ListNotations.

Section WithFloatIO.
Context `{FIO : FloatIO} (mgr : manager xext) (urlparse : pystr -> option pystr).

(** ** Storing is reading back *)

Lemma stored_is draw l l' : readable_log l -> calm_log l -> stored mgr urlparse draw l l' -> l' = log_back mgr draw l.
Proof.
  intros R C (doc & text & es & s & r & S & W & RD & X & P & L).
  assert (LT : legal_tree doc = true).
  { destruct (legal_tree doc) eqn:E; [reflexivity |]. rewrite (write_none _ _ E) in W. discriminate. }
  destruct (xes_file l doc S LT) as (text' & es' & W' & RD' & Q).
  rewrite W in W'. injection W' as <-. rewrite RD in RD'. injection RD' as <-.
  rewrite (Q mgr urlparse draw), (proj2 (normal_same doc) (C doc S)) in X.
  destruct (log_roundtrip mgr urlparse draw l R) as (doc' & s' & r' & S' & X' & P' & L').
  rewrite S in S'. injection S' as <-. rewrite X in X'. injection X' as <-. rewrite P in P'. injection P' as <-.
  exact (log_in_fun _ _ _ _ L L').
Qed.

Lemma stored_back draw l : readable_log l -> legal_log l -> smooth_log l -> stored mgr urlparse draw l (log_back mgr draw l).
Proof.
  intros R LG S. destruct (log_roundtrip mgr urlparse draw l R) as (doc & s & r & W & X & P & L).
  assert (LT : legal_tree doc = true) by now apply (log_legal l doc R W).
  destruct (xes_file l doc W LT) as (text & es & W' & RD & Q).
  exists doc, text, es, s, r. rewrite Q, (proj2 (normal_same doc)) by now apply (log_calm l doc R W). auto 10.
Qed.

(** ** The log read back can be written *)

Lemma index_in l : Forall (fun a => In a l) (map snd (index l)).
Proof. apply index_snd; [|constructor]. apply Forall_forall. auto. Qed.

Lemma readable_index l : Forall readable l -> Forall readable (map snd (index l)).
Proof. intros H. apply index_snd; [exact H|constructor]. Qed.

Lemma readable_value_back c v : readable_value c v -> readable_value c (value_back v).
Proof.
  destruct c, v; auto. cbn. intros [V M]. split.
  - unfold valid_dt, to_millis in *. cbn [yr mo dy hh mi ss us tz].
    apply andb_true_iff in V as [V Z]. apply andb_true_iff. split.
    + unfold valid_fields in *. rewrite !andb_true_iff in *. repeat match goal with H : _ /\ _ |- _ => destruct H end.
      repeat split; auto; rewrite ?Z.leb_le, ?Z.ltb_lt in *; pose proof (Z.div_mod (us d) 1000); pose proof (Z.mod_pos_bound (us d) 1000); lia.
    + destruct (tz d); [exact Z|reflexivity].
  - unfold minute_zone, to_millis in *. cbn [tz]. destruct (tz d); [exact M|]. split; [reflexivity|]. exists 0%Z. reflexivity.
Qed.

Lemma readable_back a : readable a -> readable (read_back mgr a).
Proof.
  induction a as [c k e v coll meta IC IM] using attr_ind2. intros R. inversion R as [? RV RK]; subst.
  unfold kids_of in RK. cbn [a_cls a_val a_coll a_meta] in *. cbn [read_back].
  destruct (is_collection c) eqn:C; constructor; unfold kids_of; cbn [a_cls a_val a_coll a_meta]; rewrite ?C.
  - destruct c; try discriminate C; exact I.
  - apply Forall_forall. intros b I. apply in_map_iff in I as (a & <- & I). rewrite Forall_forall in IC, RK. auto.
  - now apply readable_value_back.
  - apply readable_index. apply Forall_forall. intros b I. apply in_map_iff in I as (kv & <- & I).
    rewrite Forall_forall in IM, RK. apply IM; auto. apply RK. now apply in_map.
Qed.
Lemma readable_back_map m : readable_map m -> readable_map (read_back_map mgr m).
Proof.
  intros R. apply readable_index. apply Forall_forall. intros b I. apply in_map_iff in I as (a & <- & I).
  apply readable_back. unfold readable_map in R. rewrite Forall_forall in R. auto.
Qed.
Lemma readable_globals a : readable a -> Forall readable (globals_back mgr a).
Proof.
  induction a as [c k e v coll meta IC IM] using attr_ind2. intros R. inversion R as [? RV RK]; subst.
  unfold kids_of in RK. cbn [a_cls a_val a_coll a_meta] in *. cbn [globals_back]. apply Forall_app. split.
  - destruct (is_collection c).
    + apply Forall_forall. intros b I. apply in_flat_map in I as (a & I & B). rewrite Forall_forall in IC, RK.
      specialize (IC a I (RK a I)). rewrite Forall_forall in IC. auto.
    + apply Forall_forall. intros b I. apply in_flat_map in I as (a & I & B). rewrite Forall_forall in IM, RK.
      specialize (IM a I (RK _ (in_map snd _ _ I))). rewrite Forall_forall in IM. auto.
  - constructor; [|constructor]. constructor; unfold kids_of; cbn [a_cls a_val a_coll a_meta].
    + destruct (is_collection c) eqn:C; [destruct c; try discriminate C; exact I|]. now apply readable_value_back.
    + destruct (is_collection c); constructor.
Qed.
Lemma globals_all (P Q : attr -> Prop) (f : attr -> list attr) l :
  (forall a, P a -> Forall Q (f a)) -> Forall P l -> Forall Q (flat_map f l).
Proof. intros H. induction 1; cbn; [constructor|]. apply Forall_app; auto. Qed.

Lemma number_all (P : sdict attr -> Prop) draw es : forall n, Forall P es -> Forall (fun e => P (ev_attrs e)) (number_events draw n es).
Proof. induction es; intros n H; cbn; constructor; inversion H; auto. Qed.

Lemma readable_log_back draw l : readable_log l -> readable_log (log_back mgr draw l).
Proof.
  intros (RA & RT & RE & RS). unfold log_back. split; [now apply readable_back_map|]. cbn [lg_gtrace lg_gevent lg_traces].
  split; [eapply globals_all; [exact readable_globals|assumption]|].
  split; [eapply globals_all; [exact readable_globals|assumption]|].
  generalize 0. induction RS as [|t ts [T E] F IH]; intros n; cbn; constructor; auto.
  split; [now apply readable_back_map|]. cbn [tr_events]. apply (number_all readable_map).
  apply Forall_forall. intros m I. apply in_map_iff in I as (e & <- & I). apply readable_back_map. rewrite Forall_forall in E. auto.
Qed.

(** ** Its texts are those of the log *)

Section Texts.
Variable q : N -> bool.
Let P (s : pystr) : Prop := forallb q s = true.
Let fine (l : list pystr) : Prop := Forall P l.

Lemma texts_flat {A} (f : A -> list pystr) l : Forall (fun a => fine (f a)) l -> fine (flat_map f l).
Proof. unfold fine. induction 1; cbn; [constructor|]. apply Forall_app; auto. Qed.
Lemma texts_flat_inv {A} (f : A -> list pystr) l : fine (flat_map f l) -> Forall (fun a => fine (f a)) l.
Proof. unfold fine. induction l; cbn; intros H; constructor; apply Forall_app in H as [? ?]; auto. Qed.
Lemma map_texts_all m : map_texts m = flat_map attr_texts (map snd m).
Proof. unfold map_texts. induction m; cbn; congruence. Qed.
Lemma texts_value v : fine (value_texts v) -> fine (value_texts (value_back v)).
Proof. destruct v; auto. Qed.

Lemma texts_back a : fine (attr_texts a) -> fine (attr_texts (read_back mgr a)).
Proof.
  induction a as [c k e v coll meta IC IM] using attr_ind2. cbn [attr_texts read_back]. intros H.
  inversion H as [|? ? K T]; subst. destruct (is_collection c) eqn:C; cbn [attr_texts]; rewrite C; constructor; auto.
  - apply texts_flat_inv in T. apply texts_flat. apply Forall_forall. intros b I. apply in_map_iff in I as (a & <- & I).
    rewrite Forall_forall in IC, T. auto.
  - apply Forall_app in T as [V T]. apply Forall_app. split; [now apply texts_value|]. apply texts_flat_inv in T.
    match goal with |- Forall P ?x => change x with (map_texts (index (map (fun kv => read_back mgr (snd kv)) meta))) end.
    rewrite map_texts_all. apply texts_flat. apply index_snd; [|constructor].
    apply Forall_forall. intros b I. apply in_map_iff in I as (kv & <- & I). rewrite Forall_forall in IM, T. auto.
Qed.
Lemma texts_back_map m : fine (map_texts m) -> fine (map_texts (read_back_map mgr m)).
Proof.
  rewrite !map_texts_all. intros H. apply texts_flat_inv in H. apply texts_flat. apply index_snd; [|constructor].
  apply Forall_forall. intros b I. apply in_map_iff in I as (a & <- & I). apply texts_back. rewrite Forall_forall in H. auto.
Qed.
Lemma texts_globals a : fine (attr_texts a) -> Forall (fun b => fine (attr_texts b)) (globals_back mgr a).
Proof.
  induction a as [c k e v coll meta IC IM] using attr_ind2. cbn [attr_texts globals_back]. intros H.
  inversion H as [|? ? K T]; subst. apply Forall_app. split.
  - destruct (is_collection c).
    + apply texts_flat_inv in T. rewrite Forall_forall in *. intros b I. apply in_flat_map in I as (a & I & B).
      specialize (IC a I (T a I)). rewrite Forall_forall in IC. auto.
    + apply Forall_app in T as [V T]. apply texts_flat_inv in T. rewrite Forall_forall in *. intros b I. apply in_flat_map in I as (a & I & B).
      specialize (IM a I (T a I)). rewrite Forall_forall in IM. auto.
  - constructor; [|constructor]. cbn [attr_texts]. destruct (is_collection c) eqn:C; constructor; auto; [constructor|].
    apply Forall_app in T as [V T]. cbn [flat_map]. rewrite app_nil_r. now apply texts_value.
Qed.

Lemma split_incl c s : forall acc t x, In t (split_aux [c] 0 acc s) -> In x t -> In x acc \/ In x s.
Proof.
  induction s as [|y s IH]; intros acc t x I X; cbn [split_aux] in I.
  - destruct I as [<-|[]]. apply in_rev in X. auto.
  - cbn [starts_with] in I. destruct (N.eqb c y); cbn [andb] in I.
    + cbn [List.length Nat.sub] in I. destruct I as [<-|I].
      * apply in_rev in X. auto.
      * destruct (IH [] t x I X) as [[]|]. right. now right.
    + destruct (IH (y :: acc) t x I X) as [[<-|]|]; cbn; auto.
Qed.
Lemma extract_incl s t x : In t (extract_tokens s) -> In x t -> In x s.
Proof.
  unfold extract_tokens. intros I X. apply filter_In in I as [I _]. apply in_map_iff in I as (u & <- & I).
  apply strip_incl in X. destruct (split_incl 39 s [] u x I X) as [[]|]; auto.
Qed.
Hypothesis Q : forall c, (32 <= c)%N -> (c <= 126)%N -> q c = true.
Lemma texts_classifier c : fine (cl_name c :: cl_keys c) ->
  Forall (fun c' => fine (cl_name c' :: cl_keys c')) (classifier_back c).
Proof.
  intros H. inversion H as [|? ? HN HK]; subst. unfold classifier_back. destruct (_ && _); [|constructor]. constructor; [|constructor]. cbn.
  constructor; auto. apply Forall_forall. intros t I. unfold P. rewrite forallb_forall. intros x X.
  assert (F : forallb q (format_token (cl_keys c)) = true).
  { pose proof (format_chars q Q (cl_keys c)) as E. cbn beta in E. rewrite E. rewrite forallb_forall. unfold fine, P in HK. rewrite Forall_forall in HK. exact HK. }
  rewrite forallb_forall in F. apply F. exact (extract_incl _ t x I X).
Qed.

Hypothesis M : forall p x, mgr_by_prefix x_prefix mgr p = Some x -> fine [x_name x; x_prefix x; x_uri x].
Lemma texts_log_back draw l : fine (log_texts l) -> fine (log_texts (log_back mgr draw l)).
Proof.
  unfold log_texts. unfold fine at 1. rewrite !Forall_app. intros (X & GT & GE & C & A & T).
  unfold fine at 1. rewrite !Forall_app. cbn [log_back lg_exts lg_gtrace lg_gevent lg_classifiers lg_attrs lg_traces]. repeat split.
  - apply texts_flat. apply Forall_forall. intros y I. apply first_uris_in in I as [I _]. apply in_flat_map in I as (x & _ & I).
    unfold extension_back in I. destruct (mgr_by_prefix _ _ _) eqn:E; [|destruct I]. destruct I as [<-|[]]. exact (M _ _ E).
  - apply texts_flat. eapply globals_all; [exact texts_globals|]. now apply texts_flat_inv.
  - apply texts_flat. eapply globals_all; [exact texts_globals|]. now apply texts_flat_inv.
  - apply texts_flat. apply texts_flat_inv in C. clear - C Q. induction C; cbn; [constructor|]. apply Forall_app. split; auto. now apply texts_classifier.
  - now apply texts_back_map.
  - apply texts_flat. apply texts_flat_inv in T. generalize 0. induction T as [|t ts T F IH]; intros n; cbn; constructor; auto.
    unfold trace_texts in *. apply Forall_app in T as [TA TE]. apply Forall_app. split; [now apply texts_back_map|]. cbn [tr_events].
    apply texts_flat. unfold event_texts. apply (number_all (fun m => fine (map_texts m))). apply texts_flat_inv in TE.
    apply Forall_forall. intros m I. apply in_map_iff in I as (e & <- & I). apply texts_back_map. rewrite Forall_forall in TE. now apply TE.
Qed.
End Texts.

(** ** Reading back twice *)

Lemma read_back_map_again m : read_back_map mgr (read_back_map mgr m) = read_back_map mgr m.
Proof.
  unfold read_back_map. set (l := map (read_back mgr) (map snd m)).
  assert (F : Forall (fun a => read_back mgr a = a) (map snd (index l))).
  { apply index_snd; [|constructor]. apply Forall_forall. intros a I. apply in_map_iff in I as (b & <- & _). apply read_back_again. }
  rewrite <- (index_again (index l)) at 2 by apply index_keyed. f_equal.
  rewrite <- (map_id (map snd (index l))) at 2. apply map_ext_in. intros a I. rewrite Forall_forall in F. auto.
Qed.

Lemma but_ids_number draw ts : forall n, map but_ids (number_traces draw n ts) = ts.
Proof.
  induction ts as [|[m es] ts IH]; intros n; cbn; [reflexivity|]. rewrite IH. f_equal. unfold but_ids. cbn [tr_attrs tr_events].
  f_equal. generalize n. clear. induction es as [|e es IH]; intros n; cbn; [reflexivity|]. now rewrite IH.
Qed.

Definition back_of (t : sdict attr * list (sdict attr)) : sdict attr * list (sdict attr) :=
  (read_back_map mgr (fst t), map (read_back_map mgr) (snd t)).
Lemma traces_back (ts : list trace) :
  map (fun t => (read_back_map mgr (tr_attrs t), map (fun e => read_back_map mgr (ev_attrs e)) (tr_events t))) ts
  = map back_of (map but_ids ts).
Proof. rewrite map_map. apply map_ext. intros t. unfold back_of, but_ids. cbn. f_equal. symmetry. apply map_map. Qed.
Lemma back_of_again t : back_of (back_of t) = back_of t.
Proof.
  destruct t as [m es]. unfold back_of. cbn [fst snd]. rewrite read_back_map_again, map_map. f_equal. apply map_ext. apply read_back_map_again.
Qed.

Lemma globals_once a : Forall (fun b => globals_back mgr b = [b]) (globals_back mgr a).
Proof.
  induction a as [c k e v coll meta IC IM] using attr_ind2. cbn [globals_back]. apply Forall_app. split.
  - destruct (is_collection c); apply Forall_forall; intros b I; apply in_flat_map in I as (a & I & B).
    + rewrite Forall_forall in IC. specialize (IC a I). rewrite Forall_forall in IC. auto.
    + rewrite Forall_forall in IM. specialize (IM a I). rewrite Forall_forall in IM. auto.
  - constructor; [|constructor]. cbn [globals_back flat_map]. destruct (is_collection c); cbn [app]; [reflexivity|].
    now rewrite value_back_again.
Qed.
Lemma globals_again l : flat_map (globals_back mgr) (flat_map (globals_back mgr) l) = flat_map (globals_back mgr) l.
Proof.
  induction l as [|a l IH]; [reflexivity|]. cbn [flat_map]. rewrite flat_map_app, IH. f_equal.
  generalize (globals_once a). induction 1 as [|b bs E F IHF]; [reflexivity|]. cbn [flat_map]. now rewrite E, IHF.
Qed.

Lemma extension_registered x : Forall (registered mgr) (extension_back mgr x).
Proof.
  unfold extension_back. destruct (mgr_by_prefix x_prefix mgr (x_prefix x)) eqn:E; constructor; [|constructor].
  unfold registered. replace (x_prefix x0) with (x_prefix x); [exact E|].
  unfold mgr_by_prefix in E. apply find_some in E as [_ E]. now apply str_eqb_eq in E.
Qed.
Lemma extensions_again l :
  let e := first_uris [] (flat_map (extension_back mgr) l) in first_uris [] (flat_map (extension_back mgr) e) = e.
Proof.
  intros e. apply extensions_kept.
  - apply Forall_forall. intros y I. apply first_uris_in in I as [I _]. apply in_flat_map in I as (x & _ & I).
    pose proof (extension_registered x) as H. rewrite Forall_forall in H. auto.
  - apply first_uris_distinct.
Qed.

Lemma merged_apart keys : forall run, no_adjacent_plain (merged run keys).
Proof.
  assert (S : forall k l, spaced k = true -> no_adjacent_plain l -> no_adjacent_plain (k :: l)).
  { intros k [|j l] H N; cbn; auto. }
  induction keys as [|k keys IH]; intros run; cbn [merged].
  - destruct run; cbn; exact I.
  - destruct (spaced k) eqn:E; [|apply IH]. destruct run as [|r run]; cbn [app]; [now apply S|].
    split; [now right|]. now apply S.
Qed.
Lemma merged_some keys : forall run, run <> [] \/ keys <> [] -> merged run keys <> [].
Proof.
  induction keys as [|k keys IH]; intros run H; cbn [merged].
  - destruct run; [destruct H; congruence|discriminate].
  - destruct (spaced k); [destruct run; discriminate|]. apply IH. left. destruct run; discriminate.
Qed.
Lemma classifiers_again l : Forall usable l ->
  flat_map classifier_back (flat_map classifier_back l) = flat_map classifier_back l.
Proof.
  intros U. rewrite (classifiers_back l U). rewrite classifiers_back.
  - rewrite map_map. apply map_ext_in. intros c I. cbn [cl_name cl_keys]. f_equal.
    rewrite Forall_forall in U. destruct (U c I) as (_ & _ & G).
    assert (GM : Forall good_key (merged [] (cl_keys c))) by (rewrite <- extract_format by exact G; apply extract_tokens_good).
    rewrite <- (extract_format _ GM). apply (extract_format_same _ GM). apply merged_apart.
  - rewrite Forall_forall in *. intros c' I. apply in_map_iff in I as (c & <- & I). destruct (U c I) as (HN & K & G).
    split; [exact HN|]. cbn [cl_keys]. split; [apply merged_some; auto|].
    rewrite <- extract_format by exact G. apply extract_tokens_good.
Qed.

Lemma back_again draw draw' l : Forall usable (lg_classifiers l) ->
  same_but_ids (log_back mgr draw l) (log_back mgr draw' (log_back mgr draw l)).
Proof.
  intros U. unfold same_but_ids, log_back.
  cbn [lg_attrs lg_traces lg_exts lg_classifiers lg_gtrace lg_gevent lg_features].
  rewrite !traces_back, !but_ids_number, !globals_again, read_back_map_again.
  repeat split.
  - rewrite map_map. apply map_ext. apply back_of_again.
  - apply extensions_again.
  - now apply classifiers_again.
Qed.

Lemma back_same draw l l' : same_but_ids l l' -> log_back mgr draw l' = log_back mgr draw l.
Proof.
  intros (A & T & X & C & G & H & F). unfold log_back. rewrite !traces_back, A, T, X, C, G, H. reflexivity.
Qed.

Lemma trace_text t t' : but_ids t' = but_ids t -> write_trace t' = write_trace t.
Proof.
  unfold but_ids, write_trace. intros [= -> E]. destruct (add_attributes (map snd (tr_attrs t))); [|reflexivity]. cbn [bind].
  replace (map_res write_event (tr_events t')) with (map_res write_event (tr_events t)); [reflexivity|].
  revert E. generalize (tr_events t'), (tr_events t). clear. intros es' es. revert es'.
  induction es as [|e es IH]; intros [|e' es'] E; try discriminate E; [reflexivity|]. cbn [map_res] in *. injection E as E1 E2.
  rewrite (IH _ E2). unfold write_event. now rewrite E1.
Qed.
Lemma same_document l l' : same_but_ids l l' -> xes_serialize l' = xes_serialize l.
Proof.
  intros (A & T & X & C & G & H & F). unfold xes_serialize. rewrite A, X, C, G, H.
  replace (map_res write_trace (lg_traces l')) with (map_res write_trace (lg_traces l)); [reflexivity|].
  revert T. generalize (lg_traces l'), (lg_traces l). clear. intros ts' ts. revert ts'.
  induction ts as [|t ts IH]; intros [|t' ts'] E; try discriminate E; [reflexivity|]. cbn [map_res map] in *. injection E as E1 E2 E3.
  rewrite (IH _ E3), (trace_text t t'); [reflexivity|]. unfold but_ids. congruence.
Qed.

Lemma same_but_ids_refl l : same_but_ids l l.
Proof. repeat split. Qed.
Lemma same_but_ids_trans a b c : same_but_ids a b -> same_but_ids b c -> same_but_ids a c.
Proof. unfold same_but_ids. intuition congruence. Qed.

Lemma plain_legal c : (32 <= c)%N -> (c <= 126)%N -> legal c = true.
Proof.
  intros A B. unfold legal. apply N.leb_le in A as A'. rewrite A'. replace (c <=? 55295)%N with true by (symmetry; apply N.leb_le; lia).
  now rewrite !orb_true_r.
Qed.
Lemma legal_log_back draw l : tidy_manager mgr -> legal_log l -> legal_log (log_back mgr draw l).
Proof.
  intros M. apply (texts_log_back legal plain_legal). intros p x E. eapply Forall_impl; [|exact (M p x E)]. cbn. intros s [H _]. exact H.
Qed.
Lemma smooth_log_back draw l : tidy_manager mgr -> smooth_log l -> smooth_log (log_back mgr draw l).
Proof.
  intros M. apply (texts_log_back (fun c => negb ((c =? 9) || (c =? 10) || (c =? 13))%N)).
  - intros c A B. destruct (N.eqb_spec c 9), (N.eqb_spec c 10), (N.eqb_spec c 13); solve [lia | reflexivity].
  - intros p x E. eapply Forall_impl; [|exact (M p x E)]. cbn. intros s [_ H]. exact H.
Qed.

Lemma file_same l l' text : same_but_ids l l' -> file_of l text -> file_of l' text.
Proof. intros S (doc & W & T). exists doc. now rewrite (same_document l l' S). Qed.

Theorem settles draw l l1 : tidy_manager mgr -> readable_log l -> legal_log l -> smooth_log l ->
  Forall usable (lg_classifiers l) -> stored mgr urlparse draw l l1 ->
  (forall l2, stored_often mgr urlparse l1 l2 ->
     same_but_ids l1 l2 /\ (forall text, file_of l2 text <-> file_of l1 text)
     /\ forall draw', exists l3, stored mgr urlparse draw' l2 l3).
Proof.
  intros M R L S U ST l2 O.
  assert (E1 : l1 = log_back mgr draw l) by (apply stored_is; auto; now apply smooth_calm). subst l1. clear ST.
  set (l1 := log_back mgr draw l) in *.
  assert (R1 : readable_log l1) by now apply readable_log_back.
  assert (L1 : legal_log l1) by now apply legal_log_back.
  assert (S1 : smooth_log l1) by now apply smooth_log_back.
  assert (K : same_but_ids l1 l2 /\ readable_log l2 /\ legal_log l2 /\ smooth_log l2).
  { remember l1 as l0 eqn:E0. induction O as [l0|l0 la lb draw' O IH ST].
    - split; [apply same_but_ids_refl|]. auto.
    - destruct (IH E0 R1 L1 S1) as (SB & Ra & La & Sa).
      assert (EB : lb = log_back mgr draw' la) by (apply stored_is; auto; now apply smooth_calm). subst lb.
      rewrite (back_same draw' l0 la SB). subst l0. split; [now apply back_again|].
      split; [now apply readable_log_back|]. split; [now apply legal_log_back|now apply smooth_log_back]. }
  destruct K as (SB & R2 & L2 & S2). split; [exact SB|]. split.
  - intros text. split; intros (doc & W & T); exists doc; now rewrite ?(same_document l1 l2 SB), <- ?(same_document l1 l2 SB) in *.
  - intros draw'. exists (log_back mgr draw' l2). now apply stored_back.
Qed.

(** ** The first time *)

Lemma value_text c k e v coll meta e' coll' meta' : is_collection c = false -> readable_value c v ->
  (forall d, v = PDate d -> tz d <> None) ->
  attr_str (mk_attr c k e' (value_back v) coll' meta') = attr_str (mk_attr c k e v coll meta).
Proof.
  intros C R Z. destruct c; try discriminate C; cbn [attr_str]; destruct v; try contradiction R; try reflexivity.
  cbn [value_back]. rewrite timestamp_str_millis; [reflexivity|]. now apply Z.
Qed.

Lemma write_same a : readable a -> well_keyed a -> all_zoned a -> write_attr (read_back mgr a) = write_attr a.
Proof.
  induction a as [c k e v coll meta IC IM] using attr_ind2. intros R W Z.
  inversion R as [? RV RK]; subst. inversion Z as [? ZV ZK]; subst. unfold kids_of in *. cbn [a_cls a_val a_coll a_meta] in *.
  cbn [read_back]. inversion W as [? ? ? ? ? ? C WK|? ? ? ? ? ? C K WK]; subst; rewrite C in *; cbn [write_attr]; rewrite C.
  - set (many := fix many (l : list attr) : res (list xnode) := _).
    replace (many (map (read_back mgr) coll)) with (many coll); [reflexivity|].
    clear - IC RK ZK WK. induction coll as [|x l IH]; [reflexivity|]. inversion_clear IC. inversion_clear RK. inversion_clear ZK. inversion_clear WK.
    cbn [map many]. rewrite H by assumption. rewrite <- IH by assumption. reflexivity.
  - rewrite (value_text c k e v coll meta) by assumption.
    set (many := fix many (m : list (pystr * attr)) : res (list xnode) := _).
    match goal with |- context [many (index ?x)] => replace (many (index x)) with (many meta); [reflexivity|];
      replace (index x) with (read_back_map mgr meta) by (unfold read_back_map; now rewrite map_map) end.
    rewrite (read_back_keyed mgr meta K).
    clear - IM RK ZK WK. induction meta as [|[j x] l IH]; [reflexivity|]. cbn [map snd] in *.
    inversion_clear IM. inversion_clear RK. inversion_clear ZK. inversion_clear WK.
    cbn [map many fst snd] in *. rewrite H by assumption. rewrite <- IH by assumption. reflexivity.
Qed.

Lemma write_map_same m : readable_map m -> keyed_deep m -> Forall all_zoned (map snd m) ->
  add_attributes (map snd (read_back_map mgr m)) = add_attributes (map snd m).
Proof.
  intros R [K W] Z. rewrite (read_back_keyed mgr m K). unfold readable_map in R. clear K.
  induction m as [|[j x] m IH]; [reflexivity|]. cbn [map snd fst] in *. inversion_clear R. inversion_clear W. inversion_clear Z.
  unfold add_attributes in *. cbn [map_res]. now rewrite write_same, IH by assumption.
Qed.

Lemma globals_same scope l : Forall readable l -> Forall flat l -> Forall all_zoned l ->
  add_global_attributes scope (flat_map (globals_back mgr) l) = add_global_attributes scope l.
Proof.
  intros R F Z.
  assert (E : add_attributes (flat_map (globals_back mgr) l) = add_attributes l
              /\ (flat_map (globals_back mgr) l = [] <-> l = [])).
  { induction F as [|a l FA F IH]; [split; [reflexivity|tauto]|]. inversion_clear R. inversion_clear Z. destruct (IH H0 H2) as [IH1 _].
    destruct a as [c k e v coll meta]. unfold flat, kids_of in FA. cbn [a_cls a_coll a_meta] in FA.
    inversion_clear H as [? RV _]. inversion_clear H1 as [? ZV _]. cbn [a_cls a_val] in *.
    assert (G : globals_back mgr (mk_attr c k e v coll meta)
                = [mk_attr c k (key_extension mgr k) (if is_collection c then PNone else value_back v) [] []]).
    { cbn [globals_back]. destruct (is_collection c); [now subst coll|]. destruct meta; [reflexivity|discriminate FA]. }
    cbn [flat_map]. rewrite G. cbn [app]. split; [|split; discriminate].
    unfold add_attributes in *. cbn [map_res]. rewrite IH1.
    replace (write_attr (mk_attr c k (key_extension mgr k) (if is_collection c then PNone else value_back v) [] []))
      with (write_attr (mk_attr c k e v coll meta)); [reflexivity|].
    cbn [write_attr]. destruct (is_collection c) eqn:C; [now subst coll|]. destruct meta; [|discriminate FA].
    now rewrite (value_text c k e v coll []) by assumption. }
  destruct E as [E1 E2]. unfold add_global_attributes. rewrite E1.
  destruct (flat_map (globals_back mgr) l) eqn:D, l; try reflexivity.
  - exfalso. assert (X : a :: l = []) by now apply E2. discriminate.
  - exfalso. assert (X : a :: l0 = []) by now apply E2. discriminate.
Qed.

Theorem first_file draw l l1 : readable_log l -> keyed_log l -> smooth_log l -> all_zoned_log l ->
  Forall flat (lg_gtrace l) -> Forall flat (lg_gevent l) ->
  Forall (registered mgr) (lg_exts l) -> distinct_exts (lg_exts l) ->
  Forall usable (lg_classifiers l) -> Forall (fun c => no_adjacent_plain (cl_keys c)) (lg_classifiers l) ->
  stored mgr urlparse draw l l1 -> forall text, file_of l1 text <-> file_of l text.
Proof.
  intros R K S Z FT FE X D U N ST.
  assert (E1 : l1 = log_back mgr draw l) by (apply stored_is; auto; now apply smooth_calm). subst l1. clear ST.
  assert (E : xes_serialize (log_back mgr draw l) = xes_serialize l).
  { destruct R as (RA & RT & RE & RL), K as [KA KL], Z as (ZA & ZT & ZE & ZL).
    unfold xes_serialize, log_back. cbn [lg_attrs lg_traces lg_exts lg_classifiers lg_gtrace lg_gevent lg_features].
    rewrite !globals_same, write_map_same, (extensions_kept mgr _ X D) by assumption.
    replace (flat_map classifier_back (lg_classifiers l)) with (lg_classifiers l).
    2: { rewrite classifiers_back by exact U. rewrite <- (map_id (lg_classifiers l)) at 1. apply map_ext_in. intros c I.
         rewrite Forall_forall in U, N. destruct (U c I) as (_ & _ & G). rewrite <- extract_format by exact G.
         rewrite (proj2 (extract_format_same _ G)) by now apply N. now destruct c. }
    match goal with |- context [map_res write_trace (number_traces draw 0 ?x)] =>
      replace (map_res write_trace (number_traces draw 0 x)) with (map_res write_trace (lg_traces l)); [reflexivity|] end.
    clear - RL KL ZL. generalize 0. induction (lg_traces l) as [|t ts IH]; intros n; [reflexivity|].
    inversion_clear RL. inversion_clear KL. inversion_clear ZL. cbn [map number_traces map_res].
    rewrite <- IH by assumption. clear IH H0 H2 H4. destruct H as [R1 R2], H1 as [K1 K2], H3 as [Z1 Z2].
    unfold write_trace. cbn [tr_attrs tr_events]. rewrite write_map_same by assumption.
    match goal with |- context [map_res write_event (number_events draw n ?x)] =>
      replace (map_res write_event (number_events draw n x)) with (map_res write_event (tr_events t)); [reflexivity|] end.
    clear - R2 K2 Z2. revert n. induction (tr_events t) as [|e es IH]; intros n; [reflexivity|].
    inversion_clear R2. inversion_clear K2. inversion_clear Z2. cbn [map number_events map_res].
    rewrite <- IH by assumption. unfold write_event. cbn [ev_attrs]. now rewrite write_map_same by assumption. }
  intros text. split; intros (doc & W & T); exists doc; now rewrite ?E, <- ?E in *.
Qed.
End WithFloatIO.
