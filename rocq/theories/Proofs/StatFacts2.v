(** Summaries of stored logs exist if and only if they did before. *)
From Coq Require Import String NArith ZArith List Bool Lia.
From Verif Require Import Base.PyBase Base.PyDate Base.PyVal Base.Xml Model.Attr Model.Log Model.Classify
  Model.TimeBounds Model.LogInfo Model.Registry Model.XesWrite Model.XesRead
  Spec.Typing Spec.DateText Spec.Time Spec.Info Spec.Transform Spec.Xes Spec.Survive
  Proofs.BaseFacts Proofs.AttrInd Proofs.TraceFacts Proofs.InfoFacts Proofs.StatFacts.
Import ListNotations.

Definition shape (a : attr) : pystr * acls := (a_key a, a_cls a).

Section Stored.
Context {FIO : FloatIO} (mgr : manager xext).

Lemma nested_eq c k e v coll meta : nested (mk_attr c k e v coll meta) = flat_map (fun kv => snd kv :: nested (snd kv)) meta.
Proof. cbn [nested]. induction meta as [| [x a] m IH]; [reflexivity |]. cbn [flat_map snd]. now rewrite <- IH. Qed.

Lemma nested_shape : forall a b, no_lists a -> same_attr mgr a b -> map shape (nested b) = map shape (nested a).
Proof.
  induction a as [c k e v coll meta IC IM] using attr_ind2. intros b L S.
  inversion L as [? ? ? ? ? C F]; subst. inversion S as [? ? ? ? ? ? ? ? C' | ? ? ? ? ? ? meta' _ G]; subst; [congruence |].
  rewrite !nested_eq. clear S L. revert meta' G. induction meta as [| [x a] m IH]; intros m' G; inversion G as [| ? [y b] ? ? [E S] G']; subst;
    [reflexivity |]. cbn [map snd] in *. inversion F; subst. inversion IM; subst. cbn [flat_map snd map] in *.
  rewrite !map_app, IH by assumption. f_equal. cbn [map]. rewrite (H3 b) by assumption. f_equal. inversion S; reflexivity.
Qed.

Lemma map_shape m m' : same_map mgr m m' -> map shape (map snd m') = map shape (map snd m).
Proof.
  induction 1 as [| x y m m' [E S] F IH]; [reflexivity |]. cbn [map]. rewrite IH. f_equal. inversion S; reflexivity.
Qed.
Lemma map_nested_shape m m' : no_lists_map m -> same_map mgr m m' -> map shape (nested_in m') = map shape (nested_in m).
Proof.
  intros L. induction 1 as [| x y m m' [E S] F IH]; [reflexivity |]. inversion L; subst. unfold nested_in in *. cbn [flat_map].
  rewrite !map_app, IH by assumption. now rewrite (nested_shape _ _ H1 S).
Qed.

Lemma levels_shape l l' : no_lists_log l -> same_map mgr (lg_attrs l) (lg_attrs l') ->
  Forall2 (same_trace mgr) (lg_traces l) (lg_traces l') ->
  forall lv, map shape (at_level lv l') = map shape (at_level lv l).
Proof.
  intros [LA LT] A S lv. destruct lv; cbn [at_level].
  - now apply map_shape.
  - clear LT. induction S as [| t t' ts ts' S F IH]; [reflexivity |]. cbn [flat_map]. rewrite !map_app, IH.
    f_equal. apply map_shape. apply S.
  - unfold log_events. clear LT. induction S as [| t t' ts ts' [_ S] F IH]; [reflexivity |]. cbn [flat_map].
    rewrite !flat_map_app, !map_app, IH. f_equal. clear - S.
    induction S as [| e e' es es' S F IH]; [reflexivity |]. cbn [flat_map]. rewrite !map_app, IH.
    f_equal. now apply map_shape.
  - rewrite !map_app. f_equal; [now apply map_nested_shape |].
    induction S as [| t t' ts ts' [SA SE] F IH]; [reflexivity |]. inversion LT as [| ? ? [L1 L2] L3]; subst. cbn [flat_map].
    rewrite !map_app, IH by assumption. f_equal. f_equal; [now apply map_nested_shape |]. clear - SE L2.
    induction SE as [| e e' es es' S F IH]; [reflexivity |]. inversion L2; subst. cbn [flat_map]. rewrite !map_app, IH by assumption.
    f_equal. now apply map_nested_shape.
Qed.

Lemma first_shape l l' : map shape l' = map shape l -> first_of_key_unsupported l -> first_of_key_unsupported l'.
Proof.
  intros E (pre & a & post & -> & N & C). rewrite map_app in E. apply map_eq_app in E. destruct E as (p & q & -> & E1 & E2).
  cbn [map] in E2. apply map_eq_cons in E2. destruct E2 as (b & q' & -> & E2 & E3).
  assert (K : map a_key p = map a_key pre).
  { apply (f_equal (map fst)) in E1. rewrite !map_map in E1. exact E1. }
  injection E2 as E4 E5. exists p, b, q'. split; [reflexivity |]. rewrite K, E4, E5. auto.
Qed.

Lemma typed_of : forall a, readable a -> no_lists a -> typed_tree a.
Proof.
  induction a as [c k e v coll meta IC IM] using attr_ind2. intros R L.
  inversion L as [? ? ? ? ? C F]; subst. inversion R as [? RV RK]; subst. cbn [a_cls a_val] in RV.
  unfold kids_of in RK. cbn [a_cls a_coll a_meta] in RK. rewrite C in RK.
  constructor; [destruct c, v; try contradiction; exact I | constructor |].
  clear - IM F RK. induction meta as [| [x a] m IH]; [constructor |]. cbn [map snd] in *. inversion IM; subst. inversion F; subst. inversion RK; subst.
  constructor; [now apply H1 | now apply IH].
Qed.
Lemma typed_back : forall a b, readable a -> no_lists a -> same_attr mgr a b -> typed_tree b.
Proof.
  induction a as [c k e v coll meta IC IM] using attr_ind2. intros b R L S.
  inversion L as [? ? ? ? ? C F]; subst. inversion R as [? RV RK]; subst. cbn [a_cls a_val] in RV.
  unfold kids_of in RK. cbn [a_cls a_coll a_meta] in RK. rewrite C in RK.
  inversion S as [? ? ? ? ? ? ? ? C' | ? ? ? ? ? ? meta' _ G]; subst; [congruence |].
  constructor; [destruct c, v; try contradiction; exact I | constructor |].
  clear - IM F RK G. revert meta' G. induction meta as [| [x a] m IH]; intros m' G; inversion G as [| ? [y b] ? ? [E S] G']; subst; [constructor |].
  cbn [map snd] in *. inversion IM; subst. inversion F; subst. inversion RK; subst.
  constructor; [cbn; eapply H1; eauto | now apply IH].
Qed.

Lemma typed_map_of m : readable_map m -> no_lists_map m -> typed_map m.
Proof.
  induction m as [| [x a] m IH]; intros R L; [constructor |]. inversion R; subst. inversion L; subst. constructor; [now apply typed_of | now apply IH].
Qed.
Lemma typed_map_back m m' : readable_map m -> no_lists_map m -> same_map mgr m m' -> typed_map m'.
Proof.
  intros R L S. revert R L. induction S as [| x y m m' [E S] F IH]; intros R L; [constructor |]. inversion R; subst. inversion L; subst.
  constructor; [eapply typed_back; eauto | now apply IH].
Qed.
Lemma typed_log_of l : readable_log l -> no_lists_log l -> typed_log l.
Proof.
  intros (RA & _ & _ & RT) [LA LT]. split; [now apply typed_map_of |]. clear RA LA.
  induction (lg_traces l) as [| t ts IH]; [constructor |]. inversion RT as [| ? ? [R1 R2] R3]; subst. inversion LT as [| ? ? [L1 L2] L3]; subst.
  constructor; [| now apply IH]. split; [now apply typed_map_of |]. clear - R2 L2.
  induction (tr_events t) as [| e es IH]; [constructor |]. inversion R2; subst. inversion L2; subst. constructor; [now apply typed_map_of | now apply IH].
Qed.
Lemma typed_log_back l l' : readable_log l -> no_lists_log l -> same_map mgr (lg_attrs l) (lg_attrs l') ->
  Forall2 (same_trace mgr) (lg_traces l) (lg_traces l') -> typed_log l'.
Proof.
  intros (RA & _ & _ & RT) [LA LT] A T. split; [eapply typed_map_back; eauto |]. clear RA LA A.
  revert RT LT. induction T as [| t t' ts ts' [SA SE] F IH]; intros RT LT; [constructor |].
  inversion RT as [| ? ? [R1 R2] R3]; subst. inversion LT as [| ? ? [L1 L2] L3]; subst.
  constructor; [| now apply IH]. split; [eapply typed_map_back; eauto |]. clear - R2 L2 SE.
  revert R2 L2. induction SE as [| e e' es es' S F IH]; intros R2 L2; [constructor |]. inversion R2; subst. inversion L2; subst.
  constructor; [eapply typed_map_back; eauto | now apply IH].
Qed.

Lemma no_lists_stamp l e : no_lists_log l -> In e (log_events l) -> plain_stamp (REvent e).
Proof.
  intros [_ LT] IE a G. unfold log_events in IE. apply in_flat_map in IE. destruct IE as (t & IT & IE).
  rewrite Forall_forall in LT. destruct (LT t IT) as [_ L]. rewrite Forall_forall in L. specialize (L e IE).
  apply sget_In' in G. unfold no_lists_map in L. rewrite Forall_forall in L. specialize (L a G). now inversion L.
Qed.

Lemma unsupported_back l l' : no_lists_log l -> readable_log l -> same_map mgr (lg_attrs l) (lg_attrs l') ->
  Forall2 (same_trace mgr) (lg_traces l) (lg_traces l') -> unsupported l' <-> unsupported l.
Proof.
  intros L R A T. assert (P : Forall (fun e => plain_stamp (REvent e)) (log_events l)).
  { apply Forall_forall. intros e. now apply no_lists_stamp. }
  destruct (stamps_same mgr l l' R P T) as [P' _]. pose proof (levels_shape l l' L A T) as SH.
  split; intros [[lv U] | (e & a & IE & G & C)].
  - left. exists lv. eapply first_shape; [| exact U]. now rewrite SH.
  - exfalso. rewrite Forall_forall in P'. specialize (P' e IE a G). congruence.
  - left. exists lv. eapply first_shape; [| exact U]. apply SH.
  - exfalso. rewrite Forall_forall in P. specialize (P e IE a G). congruence.
Qed.

Lemma summary_survives urlparse draw l l' : readable_log l -> keyed_log l -> calm_log l ->
  stored mgr urlparse draw l l' -> no_lists_log l -> same_awareness l -> forall draw1 draw2 default extra,
  match create_info draw1 l default extra, create_info draw2 l' default extra with
  | Ok s, Ok s' => forall lv k, ai_frequency (li_info lv s') k = ai_frequency (li_info lv s) k
  | Raise x, Raise x' => x' = x
  | _, _ => False
  end.
Proof.
  intros R K C S L AW d1 d2 default extra.
  destruct (stored_content mgr urlparse draw l l' R K C S) as [A T].
  assert (P : Forall (fun e => plain_stamp (REvent e)) (log_events l)).
  { apply Forall_forall. intros e. now apply no_lists_stamp. }
  destruct (stamps_same mgr l l' R P T) as [P' E].
  assert (AW' : same_awareness l').
  { exists true. rewrite E. apply Forall_map, Forall_forall. intros d _. reflexivity. }
  rewrite !create_is_make.
  destruct (summary_exact d1 l (asked default) extra (typed_log_of l R L) AW) as [[E1 U] | [[s E1] U]];
  destruct (summary_exact d2 l' (asked default) extra (typed_log_back l l' R L A T) AW') as [[E2 U'] | [[s' E2] U']]; rewrite E1, E2.
  - reflexivity.
  - apply U'. now apply (unsupported_back l l' L R A T).
  - apply U. now apply (unsupported_back l l' L R A T).
  - intros lv k. rewrite (summary_frequencies _ _ _ _ _ lv k E1), (summary_frequencies _ _ _ _ _ lv k E2).
    rewrite (key_count_keys k (at_level lv l) (at_level lv l')); [reflexivity |].
    pose proof (levels_shape l l' L A T lv) as H. apply (f_equal (map fst)) in H. rewrite !map_map in H. exact H.
Qed.
End Stored.
