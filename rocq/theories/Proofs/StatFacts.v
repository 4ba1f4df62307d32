(** What can be computed from a log is the same after writing and reading it. *)
From Coq Require Import String NArith ZArith List Bool Lia.
From Verif Require Import Base.PyBase Base.PyDate Base.PyVal Base.Xml Model.Attr Model.DateConv
  Model.Log Model.Classify Model.TimeBounds Model.LogInfo Model.Registry Model.XesWrite Model.XesRead
  Spec.DateText Spec.Time Spec.Info Spec.Transform Spec.Survive Spec.Xes Proofs.BaseFacts Proofs.AttrInd
  Proofs.DateFacts Model.XmlText Model.XmlChars Spec.XmlNorm Proofs.XesLogFacts Proofs.XmlTextFacts
  Proofs.XmlFileFacts.
Import ListNotations.

Lemma timestamp_str_millis d : tz d <> None -> timestamp_str (to_millis d) = timestamp_str d.
Proof.
  intros N. unfold timestamp_str, to_millis. cbn [tz]. f_equal.
  - unfold dt_digits. cbn [yr mo dy hh mi ss us].
    rewrite Z.div_mul by discriminate. reflexivity.
  - destruct (tz d) as [z |]; [reflexivity | contradiction].
Qed.

(** Times in milliseconds. *)
Local Open Scope Z_scope.
Lemma millis_floor d : minute_zone d -> instant (to_millis d) = instant d / 1000 * 1000.
Proof.
  intros M. unfold instant, to_millis, wall_us. cbn [yr mo dy hh mi ss us tz].
  set (w := (((ordinal (yr d) (mo d) (dy d) * 24 + hh d) * 60 + mi d) * 60 + ss d)).
  unfold minute_zone in M. destruct (tz d) as [z |].
  - destruct M as [_ [k ->]].
    replace (w * 1000000 + us d - k * 60000000) with (us d + (w * 1000 - k * 60000) * 1000) by ring.
    rewrite Z.div_add by discriminate. ring.
  - cbn [tz_off].
    replace (w * 1000000 + us d) with (us d + (w * 1000) * 1000) by ring.
    rewrite Z.div_add by discriminate. ring.
Qed.

Lemma millis_le a b : minute_zone a -> minute_zone b -> instant a <= instant b ->
  instant (to_millis a) <= instant (to_millis b).
Proof.
  intros Ma Mb H. rewrite !millis_floor by assumption.
  apply Z.mul_le_mono_nonneg_r; [discriminate |]. apply Z.div_le_mono; [reflexivity | exact H].
Qed.
Local Close Scope Z_scope.

(** ** The heap determines the log *)

Lemma Forall2_fun {A B} (P : A -> B -> Prop) l m : Forall2 P l m ->
  (forall a b, In b m -> P a b -> forall c, P a c -> b = c) ->
  forall n, Forall2 P l n -> m = n.
Proof.
  induction 1 as [| a b l m H F IH]; intros D n H2; inversion H2; subst; [reflexivity |].
  f_equal; [apply (D a); auto; now left |]. apply IH; [| assumption].
  intros u w Iu. apply D. now right.
Qed.

Lemma attr_in_fun h : forall a r, attr_in h r a -> forall b, attr_in h r b -> a = b.
Proof.
  induction a as [c k e v coll meta IC IM] using attr_ind2. intros r H b H2.
  inversion H as [? ? ? ? ? cl1 mt1 ? ? N1 C1 M1]; subst.
  inversion H2 as [? ? ? ? ? cl2 mt2 ? ? N2 C2 M2]; subst.
  rewrite N1 in N2. injection N2 as -> -> -> -> -> ->. f_equal.
  - rewrite Forall_forall in IC. eapply Forall2_fun; [exact C1 | | exact C2]. intros u w Iw X z. now apply (IC w Iw).
  - rewrite Forall_forall in IM. eapply Forall2_fun; [exact M1 | | exact M2].
    intros u [ky w] Iw [X1 X2] [kz z] [Z1 Z2]. cbn in *. f_equal; [congruence |].
    exact (IM (ky, w) Iw (snd u) X2 z Z2).
Qed.

Lemma map_in_fun h m a b : map_in h m a -> map_in h m b -> a = b.
Proof.
  intros H H2. eapply Forall2_fun; [exact H | | exact H2].
  intros x [ky y] I [X1 X2] [kz z] [Z1 Z2]. cbn in *. f_equal; [congruence |].
  exact (attr_in_fun h y (snd x) X2 z Z2).
Qed.

Lemma event_in_fun h r a b : event_in h r a -> event_in h r b -> a = b.
Proof.
  intros (m & N & M) (m' & N' & M'). rewrite N in N'. injection N' as E ->.
  destruct a, b. cbn in *. subst. f_equal. now apply (map_in_fun h m').
Qed.

Lemma trace_in_fun h r a b : trace_in h r a -> trace_in h r b -> a = b.
Proof.
  intros (m & es & N & M & E) (m' & es' & N' & M' & E'). rewrite N in N'. injection N' as -> ->.
  destruct a, b. cbn in *. f_equal; [now apply (map_in_fun h m') |].
  eapply Forall2_fun; [exact E | | exact E']. intros x y _ (i & -> & X) z (j & [= <-] & Z).
  now apply (event_in_fun h i).
Qed.

Lemma log_in_fun h r a b : log_in h r a -> log_in h r b -> a = b.
Proof.
  intros (m & ts & gt & ge & N & M & T & Gt & Ge) (m' & ts' & gt' & ge' & N' & M' & T' & Gt' & Ge').
  rewrite N in N'. injection N' as -> -> X C -> -> F. destruct a, b. cbn in *. subst. f_equal.
  - now apply (map_in_fun h m').
  - eapply Forall2_fun; [exact T | | exact T']. intros x y _ (i & -> & X) z (j & [= <-] & Z).
    now apply (trace_in_fun h i).
  - eapply Forall2_fun; [exact Gt | | exact Gt']. intros x y _ X z. now apply attr_in_fun.
  - eapply Forall2_fun; [exact Ge | | exact Ge']. intros x y _ X z. now apply attr_in_fun.
Qed.

Section WithFloatIO.
Context `{FIO : FloatIO} (mgr : manager xext).

Lemma stored_exists urlparse draw l : readable_log l -> keyed_log l -> calm_log l ->
  (forall doc, xes_serialize l = Ok doc -> legal_tree doc = true) ->
  exists l', stored mgr urlparse draw l l'.
Proof.
  intros R K C LT. destruct (log_roundtrip_same mgr urlparse draw l R K) as (doc & S & B).
  destruct (xes_file l doc S (LT doc S)) as (text & es & W & RD & Q).
  destruct (B doc eq_refl) as (s & r & m & X & P & L & _).
  exists m, doc, text, es, s, r. rewrite Q, (proj2 (normal_same doc) (C doc S)). auto 10.
Qed.

Lemma stored_content urlparse draw l l' : readable_log l -> keyed_log l -> calm_log l ->
  stored mgr urlparse draw l l' ->
  same_map mgr (lg_attrs l) (lg_attrs l') /\ Forall2 (same_trace mgr) (lg_traces l) (lg_traces l').
Proof.
  intros R K C (doc & text & es & s & r & S & W & RD & X & P & L).
  assert (LT : legal_tree doc = true).
  { destruct (legal_tree doc) eqn:E; [reflexivity |]. rewrite (write_none _ _ E) in W. discriminate. }
  destruct (xes_file l doc S LT) as (text' & es' & W' & RD' & Q).
  rewrite W in W'. injection W' as <-. rewrite RD in RD'. injection RD' as <-.
  rewrite (Q mgr urlparse draw), (proj2 (normal_same doc) (C doc S)) in X.
  destruct (log_roundtrip_same mgr urlparse draw l R K) as (doc' & S' & B).
  rewrite S in S'. injection S' as <-. destruct (B doc eq_refl) as (s' & r' & m & X' & P' & L' & A & T & _).
  rewrite X in X'. injection X' as <-. rewrite P in P'. injection P' as <-.
  rewrite (log_in_fun _ _ _ _ L L'). auto.
Qed.

(** ** Texts *)

Lemma same_attr_str : forall a b, readable a -> zoned a -> same_attr mgr a b -> attr_str b = attr_str a.
Proof.
  induction a as [c k e v coll meta IC IM] using attr_ind2. intros b R Z H.
  inversion R as [? RV RK]; subst. inversion Z as [? ZV ZC]; subst. cbn [a_val a_coll a_cls] in *.
  inversion H as [c' k' e' v' meta' v2 coll' coll2 C F | c' k' e' v' coll' meta' meta2 C F]; subst.
  - unfold kids_of in RK. cbn [a_cls a_coll] in RK. rewrite C in RK.
    assert (L : forall (l l' : list attr),
      Forall (fun a => forall b, readable a -> zoned a -> same_attr mgr a b -> attr_str b = attr_str a) l ->
      Forall readable l -> Forall zoned l ->
      Forall2 (same_attr mgr) l l' ->
      (fix items (l : list attr) : res (list pystr) :=
            match l with
            | [] => Ok []
            | x :: t => match attr_str x with
                        | Ok s => match items t with
                                  | Ok r => Ok ((a_key x ++ py ":" ++ s) :: r)
                                  | Raise e => Raise e
                                  end
                        | Raise e => Raise e
                        end
            end) l'
      = (fix items (l : list attr) : res (list pystr) :=
            match l with
            | [] => Ok []
            | x :: t => match attr_str x with
                        | Ok s => match items t with
                                  | Ok r => Ok ((a_key x ++ py ":" ++ s) :: r)
                                  | Raise e => Raise e
                                  end
                        | Raise e => Raise e
                        end
            end) l).
    { intros l l' A R' Z' B. revert A R' Z'. induction B as [| x y l l' S B IH]; intros A R' Z'; [reflexivity |].
      inversion_clear A. inversion_clear R'. inversion_clear Z'.
      rewrite (H0 y) by assumption. rewrite IH by assumption.
      replace (a_key y) with (a_key x); [reflexivity |]. now inversion S. }
    destruct c; try discriminate C; cbn [attr_str]; now rewrite (L coll coll2 IC RK ZC F).
  - destruct c; try discriminate C; cbn [attr_str]; destruct v; try contradiction; try reflexivity.
    cbn [value_back]. rewrite timestamp_str_millis; [reflexivity |]. now apply ZV.
Qed.

(** ** Events *)

Lemma same_map_get m m' : same_map mgr m m' -> forall k,
  match sget k m, sget k m' with
  | Some a, Some b => same_attr mgr a b
  | None, None => True
  | _, _ => False
  end.
Proof.
  induction 1 as [| [k a] [k' b] m m' [E S] F IH]; intros q; cbn in *; [exact I |].
  subst k'. unfold sget, dict_get in *. cbn in *. destruct (str_eqb q k); [exact S | apply IH].
Qed.

Lemma sget_In' {V} k (v : V) m : sget k m = Some v -> In v (map snd m).
Proof.
  unfold sget. induction m as [| [q w] m IH]; cbn; [discriminate |].
  destruct (str_eqb k q); [intros [= ->]; now left | intros H; right; now apply IH].
Qed.

Lemma identity_same c e e' : readable_map (ev_attrs e) ->
  (forall k a, In k (cl_keys c) -> sget k (ev_attrs e) = Some a -> zoned a) ->
  same_event mgr e e' -> class_identity c e' = class_identity c e.
Proof.
  intros R Z S. unfold same_event in S. pose proof (same_map_get _ _ S) as G.
  assert (A : forall k, In k (cl_keys c) ->
    match sget k (ev_attrs e), sget k (ev_attrs e') with
    | Some a, Some b => attr_str b = attr_str a
    | None, None => True
    | _, _ => False
    end).
  { intros k K. specialize (G k). specialize (Z k).
    destruct (sget k (ev_attrs e)) as [a |] eqn:E; destruct (sget k (ev_attrs e')) as [b |]; try easy.
    apply same_attr_str; [| now apply Z | exact G].
    unfold readable_map in R. rewrite Forall_forall in R. apply R. now apply (sget_In' k). }
  assert (P : forall ks, incl ks (cl_keys c) -> present_texts ks (ev_attrs e') = present_texts ks (ev_attrs e)).
  { induction ks as [| k ks IH]; intros I; [reflexivity |]. cbn [present_texts].
    specialize (A k (I k (or_introl eq_refl))). rewrite IH by (intros x Hx; apply I; now right).
    destruct (sget k (ev_attrs e)), (sget k (ev_attrs e')); try easy. now rewrite A. }
  unfold class_identity. destruct (cl_keys c) as [| k [| k2 [| k3 ks]]] eqn:E.
  - reflexivity.
  - specialize (A k (or_introl eq_refl)). destruct (sget k (ev_attrs e)), (sget k (ev_attrs e')); easy.
  - pose proof (A k (or_introl eq_refl)) as A1. pose proof (A k2 (or_intror (or_introl eq_refl))) as A2.
    destruct (sget k (ev_attrs e)), (sget k (ev_attrs e')); try easy;
    destruct (sget k2 (ev_attrs e)), (sget k2 (ev_attrs e')); try easy;
    rewrite ?A1, ?A2; reflexivity.
  - rewrite P by apply incl_refl. reflexivity.
Qed.

Lemma variant_same c t t' :
  Forall (fun e => readable_map (ev_attrs e)) (tr_events t) ->
  (forall e k a, In e (tr_events t) -> In k (cl_keys c) -> sget k (ev_attrs e) = Some a -> zoned a) ->
  same_trace mgr t t' ->
  map_res (class_identity c) (tr_events t') = map_res (class_identity c) (tr_events t)
  /\ forall m, register_trace c m t' = register_trace c m t.
Proof.
  intros R Z [_ S]. unfold register_trace.
  induction S as [| e e' es es' S F IH]; [split; reflexivity |].
  inversion_clear R.
  assert (E : class_identity c e' = class_identity c e).
  { apply identity_same; auto. intros k a. apply Z. now left. }
  destruct IH as [I1 I2]; [assumption | intros; eapply Z; eauto; now right |].
  cbn [map_res fold_res]. rewrite E, I1. split; [reflexivity |]. intros m.
  unfold register_event at 1 3. rewrite E. destruct (class_identity c e); [| reflexivity]. cbn [bind]. apply I2.
Qed.

Lemma classes_same c l l' : readable_log l -> zoned_for c l ->
  Forall2 (same_trace mgr) (lg_traces l) (lg_traces l') ->
  map_res (variant c) (lg_traces l') = map_res (variant c) (lg_traces l)
  /\ derive_event_classes c l' = derive_event_classes c l.
Proof.
  intros (_ & _ & _ & R) Z S.
  assert (G : map_res (variant c) (lg_traces l') = map_res (variant c) (lg_traces l)
              /\ forall m, register_log c m l' = register_log c m l).
  { unfold register_log. unfold zoned_for in Z. revert R Z. induction S as [| t t' ts ts' S F IH]; intros R Z.
    - split; reflexivity.
    - inversion_clear R. destruct H as [_ H].
      destruct (variant_same c t t') as [V1 V2]; [exact H | intros; eapply Z; eauto; now left | exact S |].
      destruct IH as [I1 I2]; [assumption | intros; eapply Z; eauto; now right |].
      cbn [map_res fold_res]. unfold variant at 1 3. rewrite V1, I1. split; [reflexivity |].
      intros m. rewrite V2. destruct (register_trace c m t); [apply I2 | reflexivity]. }
  destruct G as [G1 G2]. split; [exact G1 |]. unfold derive_event_classes. now rewrite G2.
Qed.

(** ** Keys and times *)

Lemma same_map_keys m m' : same_map mgr m m' -> map a_key (map snd m') = map a_key (map snd m).
Proof.
  induction 1 as [| x y m m' [E S] F IH]; [reflexivity |]. cbn [map]. f_equal; [| exact IH].
  inversion S; reflexivity.
Qed.

Lemma key_count_keys k l l' : map a_key l' = map a_key l -> key_count k l' = key_count k l.
Proof.
  unfold key_count. revert l'. induction l as [| a l IH]; intros [| b l'] H; try discriminate; [reflexivity |].
  cbn in *. injection H as -> H. destruct (str_eqb k (a_key a)); cbn; now rewrite (IH l' H).
Qed.

Lemma levels_same l l' : same_map mgr (lg_attrs l) (lg_attrs l') ->
  Forall2 (same_trace mgr) (lg_traces l) (lg_traces l') ->
  forall lv k, lv <> LvMeta -> key_count k (at_level lv l') = key_count k (at_level lv l).
Proof.
  intros A S lv k N. apply key_count_keys. destruct lv; [| | | contradiction]; cbn [at_level].
  - now apply same_map_keys.
  - induction S as [| t t' ts ts' S F IH]; [reflexivity |]. cbn [flat_map]. rewrite !map_app, IH.
    f_equal. apply same_map_keys. apply S.
  - unfold log_events. induction S as [| t t' ts ts' [_ S] F IH]; [reflexivity |]. cbn [flat_map].
    rewrite !flat_map_app, !map_app, IH. f_equal. clear - S.
    induction S as [| e e' es es' S F IH]; [reflexivity |]. cbn [flat_map]. rewrite !map_app, IH.
    f_equal. now apply same_map_keys.
Qed.

Lemma events_same l l' : Forall2 (same_trace mgr) (lg_traces l) (lg_traces l') ->
  Forall2 (same_event mgr) (log_events l) (log_events l').
Proof.
  unfold log_events. induction 1 as [| t t' ts ts' [_ S] F IH]; cbn [flat_map]; [constructor |].
  now apply Forall2_app.
Qed.

Lemma contributed_same e e' : readable_map (ev_attrs e) -> same_event mgr e e' ->
  (plain_stamp (REvent e) -> plain_stamp (REvent e')) /\
  (plain_stamp (REvent e) -> contributed (REvent e') = map to_millis (contributed (REvent e))).
Proof.
  intros R S. pose proof (same_map_get _ _ S (py "time:timestamp")) as G. cbn [plain_stamp contributed].
  destruct (sget (py "time:timestamp") (ev_attrs e)) as [a |] eqn:E;
  destruct (sget (py "time:timestamp") (ev_attrs e')) as [b |]; try easy.
  split.
  - intros P x [= <-]. specialize (P a eq_refl). inversion G; subst; cbn in *; congruence.
  - intros P. specialize (P a eq_refl). inversion G as [? ? ? ? ? ? ? ? C | c k x v coll meta meta' C]; subst; cbn in *; [congruence |].
    destruct v; reflexivity.
Qed.

Lemma stamps_zone l : readable_log l ->
  Forall (fun e => plain_stamp (REvent e)) (log_events l) ->
  Forall minute_zone (stamps l).
Proof.
  intros (_ & _ & _ & R) P. unfold stamps. apply Forall_forall. intros d D.
  apply in_flat_map in D. destruct D as (e & He & D). cbn [contributed] in D.
  destruct (sget (py "time:timestamp") (ev_attrs e)) as [a |] eqn:E; [| easy].
  assert (RA : readable a).
  { unfold log_events in He. apply in_flat_map in He. destruct He as (t & Ht & He).
    rewrite Forall_forall in R. destruct (R t Ht) as [_ Re]. rewrite Forall_forall in Re.
    specialize (Re e He). unfold readable_map in Re. rewrite Forall_forall in Re. apply Re.
    now apply (sget_In' (py "time:timestamp")). }
  rewrite Forall_forall in P. specialize (P e He a E).
  inversion RA as [? RV _]; subst. destruct (a_val a); try easy. destruct D as [<- | []].
  destruct (a_cls a); cbn in RV, P; try easy.
Qed.

Lemma stamps_same l l' : readable_log l ->
  Forall (fun e => plain_stamp (REvent e)) (log_events l) ->
  Forall2 (same_trace mgr) (lg_traces l) (lg_traces l') ->
  Forall (fun e => plain_stamp (REvent e)) (log_events l') /\ stamps l' = map to_millis (stamps l).
Proof.
  intros (_ & _ & _ & R) P S. apply events_same in S. unfold stamps.
  assert (R' : Forall (fun e => readable_map (ev_attrs e)) (log_events l)).
  { apply Forall_forall. intros e He. unfold log_events in He. apply in_flat_map in He.
    destruct He as (t & Ht & He). rewrite Forall_forall in R. destruct (R t Ht) as [_ Re].
    rewrite Forall_forall in Re. now apply Re. }
  clear R. revert P R'. induction S as [| e e' es es' S F IH]; intros P R; [split; [constructor | reflexivity] |].
  inversion_clear P. inversion_clear R. destruct (contributed_same e e') as [C1 C2]; try assumption.
  destruct IH as [I1 I2]; try assumption. split; [constructor; auto |].
  cbn [flat_map]. rewrite map_app, C2, I2 by assumption. reflexivity.
Qed.

Lemma earliest_millis d l : Forall minute_zone l -> earliest d l -> earliest (to_millis d) (map to_millis l).
Proof.
  intros M [I F]. split; [now apply in_map |]. rewrite Forall_forall in *. intros x Hx.
  apply in_map_iff in Hx. destruct Hx as (y & <- & Hy). apply millis_le; auto.
Qed.
Lemma latest_millis d l : Forall minute_zone l -> latest d l -> latest (to_millis d) (map to_millis l).
Proof.
  intros M [I F]. split; [now apply in_map |]. rewrite Forall_forall in *. intros x Hx.
  apply in_map_iff in Hx. destruct Hx as (y & <- & Hy). apply millis_le; auto.
Qed.
Lemma earliest_unique d d' l : earliest d l -> earliest d' l -> instant d = instant d'.
Proof.
  intros [I F] [I' F']. rewrite Forall_forall in *. apply Z.le_antisymm; auto.
Qed.
Lemma latest_unique d d' l : latest d l -> latest d' l -> instant d = instant d'.
Proof.
  intros [I F] [I' F']. rewrite Forall_forall in *. apply Z.le_antisymm; auto.
Qed.
End WithFloatIO.
