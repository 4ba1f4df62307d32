(** Property C69: what is computed from a log is the same after a file. *)
From Coq Require Import String NArith ZArith List Bool.
From Verif Require Import Base.PyBase Base.PyDate Base.PyVal Base.Xml Model.Attr Model.Log Model.Classify
  Model.TimeBounds Model.LogInfo Model.Registry Model.XesWrite Model.XesRead Model.XmlText Model.XmlChars
  Spec.Typing Spec.DateText Spec.Time Spec.Info Spec.Transform Spec.Xes Spec.XmlNorm Spec.Survive
  Proofs.TraceFacts Proofs.InfoFacts Proofs.StatFacts Proofs.StatFacts2 Props.P_Xes.
Import ListNotations.

(** A log of readable values, filed under their keys and of legal characters can be
    written and read. *)
Theorem C69_stored (FIO : FloatIO) mgr urlparse draw l :
  readable_log l -> keyed_log l -> calm_log l ->
  (forall doc, xes_serialize l = Ok doc -> legal_tree doc = true) ->
  exists l', stored mgr urlparse draw l l'.
Proof. exact (stored_exists mgr urlparse draw l). Qed.
Print Assumptions C69_stored.

(** The identities of the events, and with them variants and event classes, for every
    classifier that does not look at time stamps without a zone. *)
Theorem C69_classes (FIO : FloatIO) mgr urlparse draw l l' :
  readable_log l -> keyed_log l -> calm_log l -> stored mgr urlparse draw l l' ->
  forall c, zoned_for c l ->
  map_res (variant c) (lg_traces l') = map_res (variant c) (lg_traces l)
  /\ derive_event_classes c l' = derive_event_classes c l.
Proof.
  intros R K C S c Z. destruct (stored_content mgr urlparse draw l l' R K C S) as [_ T].
  now apply (classes_same mgr).
Qed.
Print Assumptions C69_classes.

(** Summaries: the numbers of traces and events and the frequencies of keys on the levels of
    log, trace and event. *)
Theorem C69_summary (FIO : FloatIO) mgr urlparse draw l l' :
  readable_log l -> keyed_log l -> calm_log l -> stored mgr urlparse draw l l' ->
  forall draw1 draw2 default extra s s',
  create_info draw1 l default extra = Ok s -> create_info draw2 l' default extra = Ok s' ->
  li_traces s' = li_traces s /\ li_events s' = li_events s
  /\ forall lv k, lv <> LvMeta -> ai_frequency (li_info lv s') k = ai_frequency (li_info lv s) k.
Proof.
  intros R K C S d1 d2 default extra s s' H H'.
  destruct (stored_content mgr urlparse draw l l' R K C S) as [A T].
  rewrite create_is_make in H, H'.
  destruct (summary_counts _ _ _ _ _ H) as [-> ->]. destruct (summary_counts _ _ _ _ _ H') as [-> ->].
  split; [| split].
  - clear - T. induction T; cbn; congruence.
  - pose proof (events_same mgr l l' T) as E. clear - E. induction E; cbn; congruence.
  - intros lv k N. rewrite (summary_frequencies _ _ _ _ _ lv k H), (summary_frequencies _ _ _ _ _ lv k H').
    now rewrite (levels_same mgr l l' A T lv k N).
Qed.
Print Assumptions C69_summary.

(** Without lists and containers a summary of the new log exists if and only if one of the
    old log does, and the frequencies agree on all levels. *)
Theorem C69_summary_exists (FIO : FloatIO) mgr urlparse draw l l' :
  readable_log l -> keyed_log l -> calm_log l -> stored mgr urlparse draw l l' ->
  no_lists_log l -> same_awareness l -> forall draw1 draw2 default extra,
  match create_info draw1 l default extra, create_info draw2 l' default extra with
  | Ok s, Ok s' => forall lv k, ai_frequency (li_info lv s') k = ai_frequency (li_info lv s) k
  | Raise x, Raise x' => x' = x
  | _, _ => False
  end.
Proof. exact (summary_survives mgr urlparse draw l l'). Qed.
Print Assumptions C69_summary_exists.

(** Time boundaries: the same instants to the millisecond. *)
Theorem C69_bounds (FIO : FloatIO) mgr urlparse draw l l' aw :
  readable_log l -> keyed_log l -> calm_log l -> stored mgr urlparse draw l l' ->
  Forall (fun e => plain_stamp (REvent e)) (log_events l) ->
  Forall (fun d => is_aware d = aw) (stamps l) ->
  exists b b', tb_register_all tb_empty (map REvent (log_events l)) = (b, Ok tt)
  /\ tb_register_all tb_empty (map REvent (log_events l')) = (b', Ok tt)
  /\ same_instant (tb_first b') (option_map to_millis (tb_first b))
  /\ same_instant (tb_last b') (option_map to_millis (tb_last b)).
Proof.
  intros R K C S P AW.
  destruct (stored_content mgr urlparse draw l l' R K C S) as [_ T].
  destruct (stamps_same mgr l l' R P T) as [P' E].
  pose proof (stamps_zone l R P) as MZ.
  assert (SE : forall g, flat_map contributed (map REvent (log_events g)) = stamps g).
  { intros g. unfold stamps. rewrite flat_map_concat_map, map_map, <- flat_map_concat_map. reflexivity. }
  assert (PP : forall g, Forall (fun e => plain_stamp (REvent e)) (log_events g) ->
                         Forall plain_stamp (map REvent (log_events g))).
  { intros g F. now apply Forall_map. }
  destruct (time_bounds_main aw (map REvent (log_events l))) as (b & B & M); [now apply PP | now rewrite SE |].
  destruct (time_bounds_main true (map REvent (log_events l'))) as (b' & B' & M'); [now apply PP | |].
  { rewrite SE, E. apply Forall_map, Forall_forall. intros d _. unfold is_aware, to_millis. cbn [tz]. reflexivity. }
  exists b, b'. split; [exact B |]. split; [exact B' |]. rewrite SE in M, M'. rewrite E in M'.
  destruct (tb_first b) as [f |], (tb_last b) as [g |]; try contradiction.
  - destruct M as [M1 M2]. apply earliest_millis in M1; [| exact MZ]. apply latest_millis in M2; [| exact MZ].
    destruct (tb_first b') as [f' |], (tb_last b') as [g' |]; try contradiction.
    + destruct M' as [N1 N2]. cbn. split; [exact (earliest_unique _ _ _ N1 M1) | exact (latest_unique _ _ _ N2 M2)].
    + exfalso. destruct M1 as [I _]. rewrite M' in I. exact I.
  - rewrite M in M'. destruct (tb_first b') as [f' |], (tb_last b') as [g' |]; try contradiction; cbn; auto.
    destruct M' as [[[] _] _].
Qed.
Print Assumptions C69_bounds.

(** Such a log: the sample of C34. *)
Lemma sample_log_calm : @calm_log no_floats sample_log.
Proof. intros doc E. assert (X := E). vm_compute in X. injection X as <-. reflexivity. Qed.

Example C69_example :
  (exists l', @stored no_floats sample_mgr (fun u => Some u) N.of_nat sample_log l')
  /\ @readable_log no_floats sample_log /\ keyed_log sample_log /\ @calm_log no_floats sample_log
  /\ zoned_for (mk_cl (py "c") [py "a"; py "time:timestamp"]) sample_log
  /\ Forall (fun e => plain_stamp (REvent e)) (log_events sample_log)
  /\ Forall (fun d => is_aware d = true) (stamps sample_log) /\ stamps sample_log = [noon]
  /\ @derive_event_classes no_floats (mk_cl (py "c") [py "a"; py "time:timestamp"]) sample_log
     = Ok [(py "1&&2020-02-29T12:00:00.123+02:00", mk_ec (py "1&&2020-02-29T12:00:00.123+02:00") 0 1);
           (py "2&&", mk_ec (py "2&&") 1 1)].
Proof.
  destruct sample_log_ok as [R K].
  split.
  { apply C69_stored; [exact R | exact K | exact sample_log_calm |].
    intros doc E. vm_compute in E. injection E as <-. reflexivity. }
  split; [exact R |]. split; [exact K |]. split; [exact sample_log_calm |].
  split.
  { intros t e k a [<- | [<- | []]] He Hk G; [| easy].
    destruct He as [<- | [<- | []]]; destruct Hk as [<- | [<- | []]]; vm_compute in G;
      try discriminate; injection G as <-; constructor; try discriminate; try constructor.
    intros d [= <-]. discriminate. }
  split.
  { repeat constructor; intros a G; vm_compute in G; try discriminate; injection G as <-; reflexivity. }
  split; [repeat constructor |]. split; [reflexivity |]. vm_compute. reflexivity.
Qed.

(** A time stamp without a zone is printed with Z; read back it is a time in UTC, which is
    printed without. *)
Theorem C69_naive_refuted : exists l l' c,
  @readable_log no_floats l /\ keyed_log l /\ @calm_log no_floats l
  /\ @stored no_floats sample_mgr (fun u => Some u) N.of_nat l l'
  /\ @derive_event_classes no_floats c l' <> @derive_event_classes no_floats c l.
Proof.
  pose (d := mk_dt 2020 2 29 12 0 0 0 None).
  pose (a := mk_attr CTimestamp (py "t") None (PDate d) [] []).
  pose (l := mk_log [] [mk_trace [] [mk_event 0 [(py "t", a)]]] [] [] [] [] []).
  assert (R : @readable_log no_floats l).
  { split; [constructor |]. split; [constructor |]. split; [constructor |].
    constructor; [| constructor]. split; [constructor |]. constructor; [| constructor].
    constructor; [| constructor]. constructor; [split; [reflexivity | exact I] | constructor]. }
  assert (K : keyed_log l).
  { split; [split; [split; constructor | constructor] |]. constructor; [| constructor].
    split; [split; [split; constructor | constructor] |]. constructor; [| constructor].
    split; [split; [repeat constructor | repeat constructor; easy] |].
    constructor; [| constructor]. apply well_keyed_plain; [reflexivity | split; constructor | constructor]. }
  assert (C : @calm_log no_floats l).
  { intros doc E. assert (X := E). vm_compute in X. injection X as <-. reflexivity. }
  destruct (C69_stored no_floats sample_mgr (fun u => Some u) N.of_nat l R K C) as (l' & S).
  { intros doc E. vm_compute in E. injection E as <-. reflexivity. }
  exists l, l', (mk_cl (py "c") [py "t"]). split; [exact R |]. split; [exact K |].
  split; [exact C |]. split; [exact S |].
  destruct (stored_content sample_mgr _ _ l l' R K C S) as [_ T].
  clear - T. destruct l' as [? ts ? ? ? ? ?]. cbn [lg_traces l] in T.
  inversion T as [| ? [ta te] ? ? [_ E] T']; subst. inversion T'; subst.
  cbn [tr_events] in E. inversion E as [| ? [ei ea] ? ? M E']; subst. inversion E'; subst.
  unfold same_event, same_map in M. cbn [ev_attrs] in M. inversion M as [| ? [k b] ? ? [Ek Sa] M']; subst.
  inversion M'; subst. cbn in Ek, Sa. subst k. inversion Sa; subst; [discriminate |].
  vm_compute. discriminate.
Qed.
Print Assumptions C69_naive_refuted.

(** Logs without lists: one with a summary, and one without because of its time stamp. *)
Definition plain_attr : attr := mk_attr CLiteral (py "a") None (PStr (py "1")) [] [(py "b", mk_attr CDiscrete (py "b") None (PInt 2) [] [])].
Definition plain_log (a : attr) : xlog := mk_log [] [mk_trace [] [mk_event 0 [(a_key a, a)]]] [] [] [] [] [].
Lemma plain_log_ok a : @readable no_floats a -> well_keyed a -> no_lists a ->
  @readable_log no_floats (plain_log a) /\ keyed_log (plain_log a) /\ no_lists_log (plain_log a).
Proof.
  intros R K L. split; [| split].
  - split; [constructor |]. split; [constructor |]. split; [constructor |].
    constructor; [| constructor]. split; [constructor |]. constructor; [| constructor]. constructor; [exact R | constructor].
  - split; [split; [split; constructor | constructor] |]. constructor; [| constructor].
    split; [split; [split; constructor | constructor] |]. constructor; [| constructor].
    split; [split; [repeat constructor | repeat constructor; easy] |]. constructor; [exact K | constructor].
  - split; [constructor |]. constructor; [| constructor]. split; [constructor |]. constructor; [| constructor]. constructor; [exact L | constructor].
Qed.
Example C69_summary_example :
  @readable_log no_floats (plain_log plain_attr) /\ keyed_log (plain_log plain_attr) /\ no_lists_log (plain_log plain_attr)
  /\ @calm_log no_floats (plain_log plain_attr) /\ same_awareness (plain_log plain_attr)
  /\ (exists l', @stored no_floats sample_mgr (fun u => Some u) N.of_nat (plain_log plain_attr) l')
  /\ (exists s, @create_info no_floats (fun _ _ => 0%N) (plain_log plain_attr) None [] = Ok s /\ ai_frequency (li_info LvMeta s) (py "b") = Some 1)
  /\ @create_info no_floats (fun _ _ => 0%N) (plain_log (mk_attr CTimestamp (py "t") None (PDate noon) [] [])) None [] = Raise AttributeError.
Proof.
  destruct (plain_log_ok plain_attr) as (R & K & L).
  - constructor; [exact I |]. constructor; [| constructor]. constructor; [exact I | constructor].
  - apply well_keyed_plain; [reflexivity | split; repeat constructor; easy |]. constructor; [| constructor].
    apply well_keyed_plain; [reflexivity | split; constructor | constructor].
  - apply no_lists_intro; [reflexivity |]. constructor; [| constructor]. apply no_lists_intro; [reflexivity | constructor].
  - assert (C : @calm_log no_floats (plain_log plain_attr)).
    { intros doc E. assert (X := E). vm_compute in X. injection X as <-. reflexivity. }
    split; [exact R |]. split; [exact K |]. split; [exact L |]. split; [exact C |].
    split; [exists true; constructor |]. split.
    { apply C69_stored; [exact R | exact K | exact C |]. intros doc E. vm_compute in E. injection E as <-. reflexivity. }
    split; [eexists; split; vm_compute; reflexivity | vm_compute; reflexivity].
Qed.

(** With lists the summary can get lost: members of a list that was filled with
    add_to_collection count as nested attributes only in the log that was read. *)
Theorem C69_lists_refuted : exists l l' draw s,
  @readable_log no_floats l /\ keyed_log l /\ @calm_log no_floats l /\ same_awareness l
  /\ @stored no_floats sample_mgr (fun u => Some u) N.of_nat l l'
  /\ @create_info no_floats draw l None [] = Ok s
  /\ @create_info no_floats draw l' None [] = Raise AttributeError.
Proof.
  pose (t := mk_attr CTimestamp (py "t") None (PDate noon) [] []).
  pose (a := mk_attr CList (py "a") None PNone [t] []).
  pose (l := mk_log [] [mk_trace [(py "a", lit "a" "1")] []; mk_trace [(py "a", a)] []] [] [] [] [] []).
  assert (R : @readable_log no_floats l).
  { split; [constructor |]. split; [constructor |]. split; [constructor |].
    constructor; [split; [| constructor] | constructor; [split; [| constructor] | constructor]]; (constructor; [| constructor]).
    - constructor; [exact I | constructor].
    - constructor; [exact I |]. constructor; [| constructor]. constructor; [split; [reflexivity |] | constructor].
      split; [reflexivity |]. exists 120%Z. reflexivity. }
  assert (K : keyed_log l).
  { split; [split; [split; constructor | constructor] |].
    constructor; [split; [| constructor] | constructor; [split; [| constructor] | constructor]];
      (split; [split; [repeat constructor | repeat constructor; easy] | constructor; [| constructor]]).
    - apply well_keyed_plain; [reflexivity | split; constructor | constructor].
    - apply well_keyed_coll; [reflexivity |]. constructor; [| constructor].
      apply well_keyed_plain; [reflexivity | split; constructor | constructor]. }
  assert (C : @calm_log no_floats l).
  { intros doc E. assert (X := E). vm_compute in X. injection X as <-. reflexivity. }
  destruct (C69_stored no_floats sample_mgr (fun u => Some u) N.of_nat l R K C) as (l' & S).
  { intros doc E. vm_compute in E. injection E as <-. reflexivity. }
  destruct (stored_content sample_mgr _ _ l l' R K C S) as [A T].
  assert (E : exists s, @create_info no_floats (fun _ _ => 0%N) l None [] = Ok s) by (eexists; vm_compute; reflexivity).
  destruct E as [s E].
  exists l, l', (fun _ _ => 0%N), s. split; [exact R |]. split; [exact K |]. split; [exact C |].
  split; [exists true; constructor |]. split; [exact S |]. split; [exact E |].
  clear - A T. destruct l' as [la ts ? ? ? ? ?]. cbn [lg_attrs lg_traces l] in A, T. inversion A; subst. clear A.
  inversion T as [| ? [ta1 te1] ? ts1 [A1 E1] T1]; subst. inversion T1 as [| ? [ta2 te2] ? ts2 [A2 E2] T2]; subst. inversion T2; subst.
  cbn [tr_attrs tr_events] in *. inversion E1; subst. inversion E2; subst.
  inversion A1 as [| ? [k1 b1] ? ? [Q1 S1] M1]; subst. inversion M1; subst. cbn in Q1, S1. subst k1.
  inversion A2 as [| ? [k2 b2] ? ? [Q2 S2] M2]; subst. inversion M2; subst. cbn in Q2, S2. subst k2.
  inversion S1; subst; [discriminate |]. inversion S2 as [? ? ? ? ? ? ? cc ? F |]; subst; [| discriminate].
  inversion F as [| ? b3 ? ? S3 F3]; subst. inversion F3; subst. inversion S3; subst; [discriminate |].
  repeat match goal with H : Forall2 _ [] _ |- _ => inversion H; subst; clear H end.
  vm_compute. reflexivity.
Qed.
Print Assumptions C69_lists_refuted.
