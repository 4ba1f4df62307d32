(** Properties C19-C24: attribute and log summaries. *)
From Coq Require Import String NArith ZArith List Bool SpecFloat.
From Verif Require Import Base.PyBase Base.PyDate Base.PyVal Base.PyFloat Model.Attr Model.Log Model.Classify
  Model.TimeBounds Model.LogInfo Spec.Typing Spec.Time Spec.Classes Spec.Info Spec.Registries Spec.Duration Proofs.InfoFacts Props.P_Classify.
Import ListNotations.

(** C19.  [draw] gives the identifiers drawn for prototypes. *)
Theorem C19_counts : forall `{FIO : FloatIO} draw l default extra s,
  create_info draw l default extra = Ok s ->
  li_traces s = List.length (lg_traces l) /\ li_events s = List.length (log_events l).
Proof. intros FIO draw l default extra s. rewrite create_is_make. apply summary_counts. Qed.
Print Assumptions C19_counts.

(** C19.  The time boundaries of the summary are those of all time stamps of events. *)
Theorem C19_boundaries : forall `{FIO : FloatIO} draw l default extra s,
  same_awareness l -> create_info draw l default extra = Ok s ->
  match tb_first (li_bounds s), tb_last (li_bounds s) with
  | None, None => stamps l = []
  | Some f, Some g => earliest f (stamps l) /\ latest g (stamps l)
  | _, _ => False
  end.
Proof. intros FIO draw l default extra s. rewrite create_is_make. apply summary_bounds. Qed.
Print Assumptions C19_boundaries.

Definition nat_draw : level -> pystr -> N := fun _ _ => 7%N.
Definition sample_log : xlog :=
  mk_log [lit "concept:name" "L"]
    [mk_trace [lit "case" "1"] [ev [lit "concept:name" "A"]; ev [lit "concept:name" "B"; lit "org:resource" "u"]];
     mk_trace [] []; mk_trace [] [ev [lit "concept:name" "A"]]] [] [] [] [] [].

(** A time stamp is counted only under a key that was first used by another kind. *)
Definition noon : datetime := mk_dt 2020 1 1 12 0 0 0 None.
Definition late_stamp : pystr * attr :=
  (py "time:timestamp", mk_attr CTimestamp (py "time:timestamp") None (PDate noon) [] []).
Definition stamped_log : xlog := log_of [[ev [lit "time:timestamp" "x"]; ev [late_stamp]]].

Example C19_example :
  (exists s, @create_info no_floats nat_draw sample_log None [] = Ok s /\ li_traces s = 3 /\ li_events s = 3)
  /\ same_awareness stamped_log /\ stamps stamped_log = [noon]
  /\ (exists s, @create_info no_floats nat_draw stamped_log None [] = Ok s /\ tb_first (li_bounds s) = Some noon).
Proof.
  split; [|split; [|split]].
  - eexists. split; [vm_compute; reflexivity|]. split; reflexivity.
  - exists false. repeat constructor.
  - reflexivity.
  - eexists. split; [vm_compute; reflexivity|]. reflexivity.
Qed.

(** C20.  Either AttributeError and an unsupported attribute, or a summary and none. *)
Theorem C20_exists_exactly : forall `{FIO : FloatIO} draw l default extra,
  typed_log l -> same_awareness l ->
  (create_info draw l default extra = Raise AttributeError /\ unsupported l)
  \/ (exists s, create_info draw l default extra = Ok s) /\ ~ unsupported l.
Proof. intros FIO draw l default extra. rewrite create_is_make. apply summary_exact. Qed.
Print Assumptions C20_exists_exactly.

Example C20_example :
  typed_log (log_of [[ev [lit "concept:name" "A"; late_stamp]]])
  /\ same_awareness (log_of [[ev [lit "concept:name" "A"; late_stamp]]])
  /\ @create_info no_floats nat_draw (log_of [[ev [lit "concept:name" "A"; late_stamp]]]) None [] = Raise AttributeError
  /\ typed_log sample_log /\ same_awareness sample_log
  /\ (exists s, @create_info no_floats nat_draw sample_log None [] = Ok s).
Proof.
  assert (TL : forall k v, typed_tree (snd (lit k v))) by (intros; constructor; simpl; auto).
  assert (TS : typed_tree (snd late_stamp)) by (constructor; simpl; auto).
  split; [|split; [|split; [|split; [|split]]]].
  - split; [constructor|]. repeat constructor; try apply TL; exact TS.
  - exists false. repeat constructor.
  - reflexivity.
  - split; [|]; repeat constructor; apply TL.
  - exists false. constructor.
  - eexists. vm_compute. reflexivity.
Qed.

(** C21.  For any history of registrations: frequencies are exact, add up, and every key
    is listed once.  [accepted] are the registrations that do not raise. *)
Theorem C21_frequencies : forall draw l,
  let i := ai_run draw l in
  (forall k, ai_frequency i k = if Nat.eqb (key_count k (accepted l)) 0 then None else Some (key_count k (accepted l)))
  /\ list_sum (map snd (ai_freq i)) = List.length (accepted l)
  /\ NoDup (ai_get_keys i) /\ (forall k, In k (ai_get_keys i) <-> In k (map a_key (accepted l))).
Proof. exact ai_frequencies. Qed.
Print Assumptions C21_frequencies.

(** C21.  The relative frequency of a key that was registered is a double between 0 and 1, and
    the quotient of the two numbers but for one part in [2 ^ 53]. *)
Theorem C21_relative : forall draw l k,
  let i := ai_run draw l in
  let c := Z.of_nat (key_count k (accepted l)) in
  let n := Z.of_nat (List.length (accepted l)) in
  (c = 0 -> ai_relative i k = Raise TypeError)%Z
  /\ (c <> 0 -> n < 2 ^ 1000 -> exists f r, ai_relative i k = Ok f /\ worth f r /\ 0 < r <= smallest
       /\ 2 ^ 53 * Z.abs (r * n - c * smallest) <= c * smallest)%Z.
Proof. exact relative_near. Qed.
Print Assumptions C21_relative.

(** C21.  The prototype of a key has kind, key and extension of the first attribute with
    that key, a default value, and no attributes of its own. *)
Theorem C21_prototypes : forall draw l k p, sget k (ai_keys (ai_run draw l)) = Some p ->
  exists pre a post, accepted l = pre ++ a :: post /\ a_key a = k /\ ~ In k (map a_key pre)
  /\ a_cls p = a_cls a /\ a_key p = k /\ a_ext p = a_ext a /\ a_coll p = [] /\ a_meta p = []
  /\ default_value (a_cls a) (a_val p).
Proof. exact ai_prototypes. Qed.
Print Assumptions C21_prototypes.

(** C21.  The prototypes are listed one per key, the keys in the order in which they were
    first accepted. *)
Theorem C21_listing : forall draw l, let i := ai_run draw l in
  ai_get_keys i = firsts (fun k => k) (map a_key (accepted l))
  /\ map a_key (ai_get_attributes i) = ai_get_keys i
  /\ forall p, In p (ai_get_attributes i) -> sget (a_key p) (ai_keys i) = Some p.
Proof. exact ai_listing. Qed.
Print Assumptions C21_listing.

(** C21.  In a log summary, the frequencies of a level count the attributes of that level. *)
Theorem C21_summary_frequencies : forall `{FIO : FloatIO} draw l default extra s lv k,
  create_info draw l default extra = Ok s ->
  ai_frequency (li_info lv s) k
  = if Nat.eqb (key_count k (at_level lv l)) 0 then None else Some (key_count k (at_level lv l)).
Proof. intros FIO draw l default extra s lv k. rewrite create_is_make. apply summary_frequencies. Qed.
Print Assumptions C21_summary_frequencies.

Example C21_example :
  let h := [snd (lit "a" "1"); snd late_stamp; snd (lit "b" "2"); snd (lit "a" "3")] in
  let i := ai_run (fun _ => 0%N) h in
  List.length (accepted h) = 3 /\ ai_frequency i (py "a") = Some 2 /\ ai_relative i (py "a") = Ok (S754_finite false 6004799503160661 (-53))
  /\ ai_frequency i (py "time:timestamp") = None /\ ai_get_keys i = [py "a"; py "b"]
  /\ map a_key (ai_get_attributes i) = [py "a"; py "b"]
  /\ (exists p, sget (py "a") (ai_keys i) = Some p /\ a_val p = PStr (py "UNKNOWN"))
  /\ key_count (py "concept:name") (at_level LvEvent sample_log) = 3.
Proof. cbv zeta. repeat split. eexists. split; reflexivity. Qed.

(** C22.  The queries by type and by extension are always empty. *)
Theorem C22_queries_empty : forall draw l,
  let i := ai_run draw l in
  (forall c, ai_for_type i c = [] /\ ai_keys_for_type i c = [])
  /\ (forall e, ai_for_extension i e = [] /\ ai_keys_for_extension i e = [])
  /\ ai_without_extension i = [].
Proof. exact ai_queries_empty. Qed.
Print Assumptions C22_queries_empty.

Example C22_example :
  let i := ai_run (fun _ => 0%N) [snd (lit "a" "1")] in
  ai_get_keys i = [py "a"] /\ ai_for_type i CLiteral = [] /\ ai_without_extension i = [].
Proof. repeat split. Qed.

(** C23.  The summary holds the event classes of exactly the classifiers asked for, the
    default one, and the three standard ones; each equal to the direct classification. *)
Theorem C23_event_classes : forall `{FIO : FloatIO} draw l default extra s,
  create_info draw l default extra = Ok s ->
  get_event_classes s None = get_event_classes s (Some (asked default))
  /\ forall c, match get_event_classes s (Some c) with
               | Some m => In c (extra ++ [asked default; by_name; by_resource; by_transition])
                           /\ derive_event_classes c l = Ok m
               | None => ~ In c (extra ++ [asked default; by_name; by_resource; by_transition])
               end.
Proof. intros FIO draw l default extra s. rewrite create_is_make. apply summary_classes. Qed.
Print Assumptions C23_event_classes.

(** C23.  The classifiers covered are exactly those, each once. *)
Theorem C23_classifiers : forall `{FIO : FloatIO} draw l default extra s,
  create_info draw l default extra = Ok s ->
  NoDup (get_event_classifiers s)
  /\ forall c, In c (get_event_classifiers s)
               <-> In c (extra ++ [asked default; by_name; by_resource; by_transition]).
Proof. intros FIO draw l default extra s. rewrite create_is_make. apply summary_classifiers. Qed.
Print Assumptions C23_classifiers.

(** C23.  The getters for the standard classifications never come back empty handed. *)
Theorem C23_standard_classes : forall `{FIO : FloatIO} draw l default extra s,
  create_info draw l default extra = Ok s ->
  (exists m, get_name_classes s = Some m /\ derive_event_classes by_name l = Ok m)
  /\ (exists m, get_resource_classes s = Some m /\ derive_event_classes by_resource l = Ok m)
  /\ (exists m, get_transition_classes s = Some m /\ derive_event_classes by_transition l = Ok m).
Proof.
  intros FIO draw l default extra s H. destruct (C23_event_classes draw l default extra s H) as [_ G].
  assert (Q : forall c, In c [asked default; by_name; by_resource; by_transition] ->
    exists m, get_event_classes s (Some c) = Some m /\ derive_event_classes c l = Ok m).
  { intros c I. specialize (G c). destruct (get_event_classes s (Some c)) as [m|]; [exists m; intuition|].
    exfalso. apply G, in_app_iff. auto. }
  repeat split; apply Q; simpl; auto.
Qed.
Print Assumptions C23_standard_classes.

Example C23_example :
  let c := mk_cl (py "mine") [py "org:resource"; py "concept:name"] in
  exists s, @create_info no_floats nat_draw sample_log None [c] = Ok s
  /\ get_event_classifiers s = [c; standard_classifier; name_classifier; resource_classifier; lifetrans_classifier]
  /\ (exists m, get_event_classes s (Some c) = Some m /\ map fst m = [py "&&A"; py "u&&B"])
  /\ (exists m, get_name_classes s = Some m /\ map (fun x => (ec_index (snd x), ec_size (snd x))) m = [(0, 2); (1, 1)]).
Proof.
  cbv zeta. eexists. split; [vm_compute; reflexivity|]. split; [vm_compute; reflexivity|]. split.
  - eexists. split; vm_compute; reflexivity.
  - eexists. split; vm_compute; reflexivity.
Qed.

(** C24.  A summary once returned is returned again for equal classifiers, whatever happens
    to the log's content in between. *)
Theorem C24_cached : forall `{FIO : FloatIO} draw w c w' i,
  create_log_info draw w c = (w', Ok i) ->
  forall ls, let w'' := fold_left edit_log ls w' in create_log_info draw w'' c = (w'', Ok i).
Proof. exact @cache_hit. Qed.
Print Assumptions C24_cached.

(** C24.  Another classifier (or none cached): a new object made from the current content,
    which replaces the cached one; if it cannot be made, nothing changes. *)
Theorem C24_replaced : forall `{FIO : FloatIO} draw w c,
  (forall c' i, w_cache w = Some (c', i) -> c' <> asked c) ->
  match create_info draw (w_log w) (Some (asked c)) [] with
  | Ok s => create_log_info draw w c
            = (mk_world (w_log w) (Some (asked c, List.length (w_infos w))) (w_infos w ++ [s]), Ok (List.length (w_infos w)))
  | Raise x => create_log_info draw w c = (w, Raise x)
  end.
Proof. exact @cache_miss. Qed.
Print Assumptions C24_replaced.

(** C24.  A clone has no cached summary: the next request makes a new object. *)
Theorem C24_clone : forall `{FIO : FloatIO} draw w l c w' i,
  create_log_info draw (clone_log w l) c = (w', Ok i) ->
  i = List.length (w_infos w)
  /\ exists s, create_info draw l (Some (asked c)) [] = Ok s /\ nth_error (w_infos w') i = Some s.
Proof.
  intros FIO draw w l c w' i H. assert (G := cache_miss draw (clone_log w l) c).
  assert (M : forall c' i, w_cache (clone_log w l) = Some (c', i) -> c' <> asked c) by discriminate.
  specialize (G M). cbn [clone_log w_log w_infos] in G. unfold clone_log in H.
  destruct (create_info draw l (Some (asked c)) []) as [s|] eqn:E.
  - unfold clone_log in G. rewrite G in H. injection H as <- <-. split; auto. exists s. split; auto.
    cbn. rewrite nth_error_app2, PeanoNat.Nat.sub_diag; auto.
  - unfold clone_log in G. rewrite G in H. discriminate.
Qed.
Print Assumptions C24_clone.

(** C24.  The expectation that a returned summary describes the log is wrong. *)
Theorem C24_up_to_date_refuted : exists w l w1 w2 i s,
  @create_log_info no_floats nat_draw w None = (w1, Ok i)
  /\ @create_log_info no_floats nat_draw (edit_log w1 l) None = (w2, Ok i)
  /\ nth_error (w_infos w2) i = Some s
  /\ li_events s <> List.length (log_events (w_log w2)).
Proof.
  eexists (mk_world sample_log None []), (log_of []), _, _, _, _.
  split; [vm_compute; reflexivity|]. split; [vm_compute; reflexivity|].
  split; [vm_compute; reflexivity|]. vm_compute. discriminate.
Qed.
Print Assumptions C24_up_to_date_refuted.

Example C24_example :
  let w := mk_world sample_log None [] in
  let w1 := fst (@create_log_info no_floats nat_draw w None) in
  let w2 := fst (@create_log_info no_floats nat_draw w1 (Some name_classifier)) in
  snd (@create_log_info no_floats nat_draw w None) = Ok 0
  /\ snd (@create_log_info no_floats nat_draw w1 (Some standard_classifier)) = Ok 0
  /\ snd (@create_log_info no_floats nat_draw w1 (Some name_classifier)) = Ok 1
  /\ snd (@create_log_info no_floats nat_draw w2 None) = Ok 2.
Proof. vm_compute. repeat split. Qed.
