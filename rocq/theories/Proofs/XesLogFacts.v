From Coq Require Import String NArith ZArith List Bool Lia.
From Verif Require Import Base.PyBase Base.PyDate Base.PyVal Base.Xml Model.Attr Model.DateConv Model.Log
  Model.Token Model.Registry Model.XesWrite Model.XesRead Spec.DateText Spec.Registries Spec.Xes
  Proofs.BaseFacts Proofs.StrFacts Proofs.AttrInd Proofs.TokenFacts Proofs.XesReadFacts Proofs.XesRoundFacts Proofs.XesStackFacts.
Import ListNotations.

Section L.
Context `{FIO : FloatIO} (mgr : manager xext) (urlparse : pystr -> option pystr) (draw : nat -> N).

Lemma parse_any doc l : doc_log mgr urlparse draw doc = Some l -> forall doc', splice doc' = splice doc ->
  exists s r, xes_parse mgr urlparse draw doc' = Ok s /\ p_log s = Some r /\ log_in (p_heap s) r l.
Proof.
  intros D doc' E. rewrite (splice_parse mgr urlparse draw _ _ E).
  destruct (parse_doc mgr urlparse draw doc l D) as (s & r & P & L & I & _). eauto.
Qed.

(** ** Globals *)

Lemma globals_alone a : Forall2 (alone mgr) (post_order a) (globals_back mgr a).
Proof.
  induction a as [c k e v coll meta IC IM] using attr_ind2. cbn [post_order globals_back].
  apply Forall2_app.
  - destruct (is_collection c).
    + induction IC; simpl; [constructor|]. now apply Forall2_app.
    + induction IM; simpl; [constructor|]. now apply Forall2_app.
  - repeat constructor. simpl. intros ->. reflexivity.
Qed.

Lemma globals_alone_all l : Forall2 (alone mgr) (flat_map post_order l) (flat_map (globals_back mgr) l).
Proof. induction l; simpl; [constructor|]. apply Forall2_app; [apply globals_alone|auto]. Qed.

Lemma globals_flat l : Forall flat l -> Forall2 (same_attr mgr) l (flat_map (globals_back mgr) l).
Proof.
  induction 1 as [|a l F H IH]; simpl; [constructor|]. destruct a as [c k e v coll meta]. unfold flat, kids_of in F. simpl in F |- *.
  destruct (is_collection c) eqn:C.
  - subst coll. simpl. constructor; auto. apply (same_coll mgr c k e v meta PNone [] []); auto.
  - destruct meta; [|discriminate]. simpl. constructor; auto. apply same_plain; auto.
Qed.

(** ** Extensions *)

Lemma extensions_kept l : Forall (registered mgr) l -> distinct_exts l ->
  first_uris [] (flat_map (extension_back mgr) l) = l.
Proof.
  intros R D. assert (E : flat_map (extension_back mgr) l = l).
  { clear D. induction R as [|x l H F IH]; simpl; auto. unfold extension_back at 1. rewrite H. simpl. now rewrite IH. }
  rewrite E. apply first_uris_all; auto.
Qed.

(** ** The log *)

Theorem log_roundtrip_same l : readable_log l -> keyed_log l -> exists doc, xes_serialize l = Ok doc /\
  forall doc', splice doc' = splice doc -> exists s r l',
  xes_parse mgr urlparse draw doc' = Ok s /\ p_log s = Some r /\ log_in (p_heap s) r l'
  /\ same_map mgr (lg_attrs l) (lg_attrs l') /\ Forall2 (same_trace mgr) (lg_traces l) (lg_traces l')
  /\ (Forall flat (lg_gtrace l) -> Forall2 (same_attr mgr) (lg_gtrace l) (lg_gtrace l'))
  /\ (Forall flat (lg_gevent l) -> Forall2 (same_attr mgr) (lg_gevent l) (lg_gevent l'))
  /\ (Forall (registered mgr) (lg_exts l) -> distinct_exts (lg_exts l) -> lg_exts l' = lg_exts l).
Proof.
  intros R K. destruct (serialize_back mgr urlparse draw l R) as (doc & W & D). exists doc. split; auto.
  intros doc' E. destruct (parse_any doc _ D doc' E) as (s & r & P & L & I). exists s, r, (log_back mgr draw l).
  destruct (log_back_same mgr draw l K) as [S1 S2]. repeat (split; auto); simpl.
  - apply globals_flat.
  - apply globals_flat.
  - apply extensions_kept.
Qed.

Theorem globals_roundtrip l : readable_log l -> exists doc s r l', xes_serialize l = Ok doc
  /\ xes_parse mgr urlparse draw doc = Ok s /\ p_log s = Some r /\ log_in (p_heap s) r l'
  /\ Forall2 (alone mgr) (flat_map post_order (lg_gtrace l)) (lg_gtrace l')
  /\ Forall2 (alone mgr) (flat_map post_order (lg_gevent l)) (lg_gevent l').
Proof.
  intros R. destruct (log_roundtrip mgr urlparse draw l R) as (doc & s & r & W & P & L & I).
  exists doc, s, r, (log_back mgr draw l). repeat (split; auto); apply globals_alone_all.
Qed.

(** ** Classifiers *)

Lemma join_nonempty sep (x : pystr) l : x <> [] -> join sep (x :: l) <> [].
Proof. intros H. destruct l; simpl; [auto|]. destruct x; [congruence|discriminate]. Qed.

Lemma format_nonempty keys : keys <> [] -> Forall good_key keys -> nonempty (format_token keys) = true.
Proof.
  intros N G. rewrite format_spec. apply nonempty_true. destruct keys as [|k keys]; [congruence|].
  inversion G as [|? ? GK ?]; subst. assert (K : k <> []) by (destruct GK; auto).
  cbn [filter]. assert (NK : nonempty k = true) by now apply nonempty_true. rewrite NK. cbn [map].
  apply join_nonempty. unfold quoted. destruct (spaced k); [discriminate|auto].
Qed.

Lemma classifiers_back l : Forall usable l ->
  flat_map classifier_back l = map (fun c => mk_cl (cl_name c) (merged [] (cl_keys c))) l.
Proof.
  induction 1 as [|c l (N & K & G) F IH]; simpl; auto. unfold classifier_back at 1.
  apply nonempty_true in N. rewrite N, format_nonempty by auto. simpl. now rewrite IH, extract_format.
Qed.

Theorem classifiers_roundtrip l : readable_log l -> Forall usable (lg_classifiers l) -> exists doc s r l', xes_serialize l = Ok doc
  /\ xes_parse mgr urlparse draw doc = Ok s /\ p_log s = Some r /\ log_in (p_heap s) r l'
  /\ lg_classifiers l' = map (fun c => mk_cl (cl_name c) (merged [] (cl_keys c))) (lg_classifiers l)
  /\ (lg_classifiers l' = lg_classifiers l <-> Forall (fun c => no_adjacent_plain (cl_keys c)) (lg_classifiers l)).
Proof.
  intros R U. destruct (log_roundtrip mgr urlparse draw l R) as (doc & s & r & W & P & L & I).
  exists doc, s, r, (log_back mgr draw l). simpl. rewrite classifiers_back by auto. repeat (split; auto).
  - intros E. induction U as [|c t (N & K & G) F IH]; constructor.
    + injection E as E _. apply (extract_format_same _ G). rewrite extract_format by auto. destruct c; simpl in *. congruence.
    + apply IH. now injection E.
  - intros H. induction U as [|c t (N & K & G) F IH]; simpl; auto. inversion H; subst.
    f_equal; auto. rewrite <- extract_format by auto. rewrite (proj2 (extract_format_same _ G)) by auto. now destruct c.
Qed.

(** ** Idempotence *)

Lemma index_keys l : forall m0, Forall (fun kv => fst kv = a_key (snd kv)) m0 -> dict_wf m0 ->
  keyed (fold_left (fun m a => sset (a_key a) a m) l m0).
Proof.
  induction l as [|a l IH]; intros m0 K W; simpl; [split; auto|]. apply IH; [|now apply sset_wf].
  clear IH W. induction K as [|[k x] m0 E K IH]; simpl; [repeat constructor|].
  unfold sset in *. simpl. destruct (str_eqb_spec (a_key a) k) as [<-|]; constructor; auto.
Qed.

Lemma index_keyed l : keyed (index l).
Proof. apply index_keys; constructor. Qed.

Lemma index_again m : keyed m -> index (map snd m) = m.
Proof.
  intros [K N]. assert (E : map a_key (map snd m) = map fst m).
  { rewrite map_map. apply map_ext_in. intros kv I. rewrite Forall_forall in K. now rewrite K. }
  rewrite index_nodup by now rewrite E. rewrite map_map. rewrite <- (map_id m) at 2. apply map_ext_in.
  intros [k a] I. rewrite Forall_forall in K. specialize (K _ I). simpl in *. now subst k.
Qed.

Lemma index_snd l : forall m0 (P : attr -> Prop), Forall P l -> Forall P (map snd m0) ->
  Forall P (map snd (fold_left (fun m a => sset (a_key a) a m) l m0)).
Proof.
  induction l as [|a l IH]; intros m0 P F H; simpl; auto. inversion F; subst. apply IH; auto.
  clear IH F H3. unfold sset. induction m0 as [|[k x] m0 IH]; simpl; [repeat constructor; auto|].
  inversion H; subst. destruct (str_eqb (a_key a) k); simpl; constructor; auto.
Qed.

Lemma value_back_again v : value_back (value_back v) = value_back v.
Proof.
  destruct v; auto. simpl. f_equal. destruct d. unfold to_millis. simpl. f_equal.
  rewrite Z.div_mul by discriminate. reflexivity.
Qed.

Theorem read_back_again a : read_back mgr (read_back mgr a) = read_back mgr a.
Proof.
  induction a as [c k e v coll meta IC IM] using attr_ind2. cbn [read_back].
  destruct (is_collection c) eqn:C; cbn [read_back]; rewrite C.
  - assert (E : map (read_back mgr) (map (read_back mgr) coll) = map (read_back mgr) coll).
    { rewrite map_map. apply map_ext_in. intros a I. rewrite Forall_forall in IC. now apply IC. }
    now rewrite E.
  - rewrite value_back_again. f_equal.
    set (l := map (fun kv => read_back mgr (snd kv)) meta).
    assert (F : Forall (fun a => read_back mgr a = a) l).
    { apply Forall_forall. intros a I. apply in_map_iff in I as (kv & <- & I). rewrite Forall_forall in IM. now apply IM. }
    assert (G : Forall (fun a => read_back mgr a = a) (map snd (index l))) by (apply index_snd; auto; constructor).
    rewrite <- (index_again (index l)) at 2 by apply index_keyed. f_equal.
    rewrite <- map_map. rewrite <- (map_id (map snd (index l))) at 2. apply map_ext_in. intros a I. rewrite Forall_forall in G. now apply G.
Qed.

(** ** Events and traces *)

Theorem event_element x m : elem_event mgr x = Some m -> forall s t rest,
  p_trace s = Some t -> p_event s = None -> p_attrs s = [] -> p_globals s = None -> p_attributables s = t :: rest ->
  t < List.length (p_heap s) -> exists s' r,
  xes_run mgr urlparse draw (sax_of x) s = Ok s'
  /\ p_log s' = p_log s /\ p_trace s' = p_trace s /\ p_event s' = None /\ p_attrs s' = [] /\ p_globals s' = None
  /\ p_attributables s' = p_attributables s /\ p_drawn s' = S (p_drawn s)
  /\ event_in (p_heap s') r (mk_event (draw (p_drawn s)) m)
  /\ forall i, i < List.length (p_heap s) ->
      nth_error (p_heap s') i
      = if Nat.eqb i t then option_map (trace_append (Some r)) (nth_error (p_heap s) i) else nth_error (p_heap s) i.
Proof.
  intros E [h lg tr ev at_ ab gl d] t rest HT HE HA HG HB HL. cbn [p_heap p_log p_trace p_event p_attrs p_attributables p_globals p_drawn] in *. subst.
  destruct (run_event mgr urlparse draw x m E h lg t d rest HL) as (new & R & H).
  eexists. exists (List.length h). split; [exact R|]. repeat (split; [reflexivity|]). split.
  - cbn [p_heap]. assert (X := H (update t (trace_append (Some (List.length h))) h) [] ltac:(apply update_length)).
    now rewrite app_nil_r in X.
  - intros i I. cbn [p_heap]. rewrite nth_error_app1 by now rewrite update_length. now rewrite update_nth, Nat.eqb_sym.
Qed.

Theorem trace_element x m es : elem_trace mgr x = Some (m, es) -> forall s g rest,
  p_log s = Some g -> p_trace s = None -> p_event s = None -> p_attrs s = [] -> p_globals s = None -> p_attributables s = g :: rest ->
  g < List.length (p_heap s) -> exists s' r,
  xes_run mgr urlparse draw (sax_of x) s = Ok s'
  /\ p_log s' = p_log s /\ p_trace s' = None /\ p_event s' = None /\ p_attrs s' = [] /\ p_globals s' = None
  /\ p_attributables s' = p_attributables s /\ p_drawn s' = p_drawn s + List.length es
  /\ trace_in (p_heap s') r (mk_trace m (number_events draw (p_drawn s) es))
  /\ forall i, i < List.length (p_heap s) ->
      nth_error (p_heap s') i
      = if Nat.eqb i g then option_map (log_append (Some r)) (nth_error (p_heap s) i) else nth_error (p_heap s) i.
Proof.
  intros E [h lg tr ev at_ ab gl d] g rest HG HT HE HA HGL HB HL. cbn [p_heap p_log p_trace p_event p_attrs p_attributables p_globals p_drawn] in *. subst.
  destruct (run_trace mgr urlparse draw x m es E h g d rest HL) as (new & R & H).
  eexists. exists (List.length h). split; [exact R|]. repeat (split; [reflexivity|]). split.
  - cbn [p_heap]. assert (X := H (update g (log_append (Some (List.length h))) h) [] ltac:(apply update_length)).
    now rewrite app_nil_r in X.
  - intros i I. cbn [p_heap]. rewrite nth_error_app1 by now rewrite update_length. now rewrite update_nth, Nat.eqb_sym.
Qed.
End L.
