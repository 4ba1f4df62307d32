From Coq Require Import String NArith ZArith List Bool Lia.
From Verif Require Import Base.PyBase Base.PyDate Base.PyVal Base.Xml Model.Attr Model.DateConv Model.Log
  Model.Token Model.Registry Model.XesWrite Model.XesRead Spec.DateText Spec.Registries Spec.Xes
  Proofs.BaseFacts Proofs.StrFacts Proofs.AttrInd Proofs.XidFacts Proofs.DateFacts Proofs.XesReadFacts.
Import ListNotations.

Section W.
Context `{FIO : FloatIO} (mgr : manager xext) (urlparse : pystr -> option pystr) (draw : nat -> N).

Lemma map_res_ok {A B} (f : A -> res B) l r : map_res f l = Ok r <-> Forall2 (fun x y => f x = Ok y) l r.
Proof.
  revert r; induction l as [|x l IH]; intros r; simpl.
  - split; [intros [= <-]; constructor|intros H; now inversion H].
  - split.
    + destruct (f x) as [y|] eqn:F; [|discriminate]. destruct (map_res f l) as [t|]; [|discriminate].
      intros [= <-]. constructor; auto. now apply IH.
    + intros H. inversion H as [|? y ? t F T]; subst. apply IH in T. now rewrite F, T.
Qed.

(** ** Writing one attribute *)

Lemma write_attr_eq c k e v coll meta :
  write_attr (mk_attr c k e v coll meta)
  = if is_collection c
    then let! ns := map_res write_attr coll in Ok (XElem (xes_tag c) [(py "key", k)] ns)
    else let! t := attr_str (mk_attr c k e v coll meta) in
         let! ns := map_res write_attr (map snd meta) in Ok (XElem (xes_tag c) [(py "key", k); (py "value", t)] ns).
Proof.
  cbn [write_attr]. destruct (is_collection c).
  - f_equal. induction coll as [|x coll IH]; simpl; auto. rewrite IH. reflexivity.
  - unfold bind. destruct (attr_str _) as [t|]; auto.
    match goal with |- match ?a with _ => _ end = match ?b with _ => _ end => assert (E : a = b) end.
    { clear. induction meta as [|[k x] meta IH]; simpl; auto. rewrite IH. reflexivity. }
    now rewrite E.
Qed.

Lemma attr_tag_of c : attr_tag (lower (xes_tag c)) = Some c.
Proof. destruct c; reflexivity. Qed.

Lemma value_roundtrip c k e v coll meta : readable_value c v -> is_collection c = false ->
  exists t, attr_str (mk_attr c k e v coll meta) = Ok t /\ tag_value c t = Ok (Some (value_back v)).
Proof.
  intros R C. destruct c; try discriminate; destruct v; simpl in R; try contradiction; cbn [attr_str py_str].
  - eexists; split; reflexivity.
  - eexists; split; [reflexivity|]. destruct R as [V M]. cbn [tag_value]. now rewrite parse_timestamp_str.
  - eexists; split; [reflexivity|]. cbn [tag_value]. now rewrite py_int_print_Z.
  - eexists; split; [reflexivity|]. cbn [tag_value]. now rewrite R.
  - eexists; split; [reflexivity|]. destruct b; reflexivity.
  - eexists; split; [reflexivity|]. cbn [tag_value]. now rewrite xid_roundtrip.
Qed.

Definition writes (a : attr) : Prop := readable a -> exists x, write_attr a = Ok x
  /\ elem_attr mgr x = Some (read_back mgr a) /\ elem_globals mgr x = Some (globals_back mgr a).

Lemma writes_list l : Forall writes l -> Forall readable l -> exists xs, map_res write_attr l = Ok xs
  /\ map_opt (elem_attr mgr) xs = Some (map (read_back mgr) l)
  /\ map_opt (elem_globals mgr) xs = Some (map (globals_back mgr) l).
Proof.
  induction 1 as [|a l W F IH]; intros R; simpl.
  - exists []. auto.
  - inversion R; subst. destruct (W H1) as (x & -> & E1 & E2). destruct (IH H2) as (xs & -> & E3 & E4).
    exists (x :: xs). simpl. now rewrite E1, E2, E3, E4.
Qed.

Lemma key_att k l : att "key" ((py "key", k) :: l) (py "UNKNOWN") = k.
Proof. reflexivity. Qed.

Theorem writes_attr a : writes a.
Proof.
  induction a as [c k e v coll meta IC IM] using attr_ind2. intros R.
  inversion R as [? RV RK E]; subst. unfold kids_of in RK. cbn [a_cls a_val a_coll a_meta] in *.
  rewrite write_attr_eq. cbn [read_back globals_back].
  destruct (is_collection c) eqn:C.
  - destruct (writes_list coll IC RK) as (xs & -> & E1 & E2).
    eexists. split; [reflexivity|]. cbn [elem_attr elem_globals]. rewrite tag_class_eq, attr_tag_of, E1, E2, C, key_att.
    assert (V : tag_value c (att "value" [(py "key", k)] []) = Ok (Some PNone)) by (destruct c; try discriminate; reflexivity).
    apply text_value_eq in V. rewrite V. split; [reflexivity|]. do 2 f_equal. symmetry. apply flat_map_concat_map.
  - destruct (value_roundtrip c k e v coll meta RV C) as (t & -> & TV).
    assert (IM' : Forall writes (map snd meta)) by (apply Forall_map; exact IM).
    destruct (writes_list (map snd meta) IM' RK) as (xs & W & E1 & E2).
    cbn [bind]. rewrite W. eexists. split; [reflexivity|].
    cbn [elem_attr elem_globals]. rewrite tag_class_eq, attr_tag_of, E1, E2, C, key_att.
    assert (V : att "value" [(py "key", k); (py "value", t)] [] = t) by reflexivity.
    apply text_value_eq in TV. rewrite V, TV, map_map. split; [reflexivity|]. do 2 f_equal. rewrite flat_map_concat_map. now rewrite map_map.
Qed.

Lemma writes_attrs l : Forall readable l -> exists xs, add_attributes l = Ok xs
  /\ map_opt (elem_attr mgr) xs = Some (map (read_back mgr) l)
  /\ map_opt (elem_globals mgr) xs = Some (map (globals_back mgr) l).
Proof. apply writes_list. apply Forall_forall. intros a _. apply writes_attr. Qed.

(** ** Writing a log *)

Lemma map_opt_app {A B} (f : A -> option B) a b : map_opt f (a ++ b)
  = match map_opt f a, map_opt f b with Some x, Some y => Some (x ++ y) | _, _ => None end.
Proof.
  induction a as [|x a IH]; simpl; [now destruct (map_opt f b)|]. destruct (f x); auto. rewrite IH.
  destruct (map_opt f a), (map_opt f b); auto.
Qed.

Lemma map_opt_imp {A B C} (f : A -> option B) (g : A -> option C) (h : B -> C) l r :
  (forall x y, f x = Some y -> g x = Some (h y)) -> map_opt f l = Some r -> map_opt g l = Some (map h r).
Proof.
  intros H. revert r; induction l as [|x l IH]; intros r; simpl; [now intros [= <-]|].
  destruct (f x) as [y|] eqn:F; [|discriminate]. destruct (map_opt f l) as [t|]; [|discriminate].
  intros [= <-]. now rewrite (H _ _ F), (IH _ eq_refl).
Qed.

Lemma attr_not_event x a : elem_attr mgr x = Some a -> elem_event mgr x = None.
Proof.
  destruct x as [t atts kids|]; [|discriminate]. simpl.
  destruct (str_eqb_spec (lower t) (py "event")) as [->|]; auto. discriminate.
Qed.

Lemma write_event_back e : readable_map (ev_attrs e) -> exists x, write_event e = Ok x
  /\ elem_attr mgr x = None /\ elem_event mgr x = Some (read_back_map mgr (ev_attrs e)).
Proof.
  intros R. unfold write_event. destruct (writes_attrs _ R) as (xs & W & E & _). rewrite W. cbn [bind].
  eexists. split; [reflexivity|]. split; [reflexivity|]. cbn [elem_event]. rewrite E. reflexivity.
Qed.

Lemma write_events_back es : Forall (fun e => readable_map (ev_attrs e)) es -> exists xs, map_res write_event es = Ok xs
  /\ map_opt (elem_in_trace mgr) xs = Some (map inr (map (fun e => read_back_map mgr (ev_attrs e)) es)).
Proof.
  induction 1 as [|e es R F IH]; simpl; [exists []; auto|].
  destruct (write_event_back e R) as (x & -> & N & E). destruct IH as (xs & -> & IH).
  exists (x :: xs). split; [reflexivity|]. simpl. unfold elem_in_trace at 1. now rewrite N, E, IH.
Qed.

Lemma lefts_mixed {A B} (a : list A) (b : list B) : lefts (map inl a ++ map inr b) = a.
Proof.
  unfold lefts. rewrite flat_map_app.
  assert (X : flat_map (fun x : A + B => match x with inl a => [a] | inr _ => [] end) (map inr b) = []) by (induction b; auto).
  rewrite X, app_nil_r. induction a as [|x a IH]; simpl; auto. now rewrite IH.
Qed.
Lemma rights_mixed {A B} (a : list A) (b : list B) : rights (map inl a ++ map inr b) = b.
Proof.
  unfold rights. rewrite flat_map_app.
  assert (X : flat_map (fun x : A + B => match x with inl _ => [] | inr b => [b] end) (map inl a) = []) by (induction a; auto).
  rewrite X. simpl. induction b as [|x b IH]; simpl; auto. now rewrite IH.
Qed.

Definition trace_back (t : trace) : sdict attr * list (sdict attr) :=
  (read_back_map mgr (tr_attrs t), map (fun e => read_back_map mgr (ev_attrs e)) (tr_events t)).

Lemma write_trace_back t : readable_map (tr_attrs t) -> Forall (fun e => readable_map (ev_attrs e)) (tr_events t) ->
  exists x, write_trace t = Ok x /\ elem_attr mgr x = None /\ elem_trace mgr x = Some (trace_back t).
Proof.
  intros R RE. unfold write_trace. destruct (writes_attrs _ R) as (xs & W & E & _). rewrite W. cbn [bind].
  destruct (write_events_back _ RE) as (ys & -> & E2). cbn [bind]. eexists. split; [reflexivity|].
  split; [reflexivity|]. cbn [elem_trace]. rewrite map_opt_app, E2.
  assert (E1 : map_opt (elem_in_trace mgr) xs = Some (map inl (map (read_back mgr) (map snd (tr_attrs t))))).
  { eapply map_opt_imp; [|exact E]. intros x y H. unfold elem_in_trace. now rewrite H. }
  rewrite E1. simpl. rewrite lefts_mixed, rights_mixed. reflexivity.
Qed.

Lemma write_traces_back ts : Forall (fun t => readable_map (tr_attrs t) /\ Forall (fun e => readable_map (ev_attrs e)) (tr_events t)) ts ->
  exists xs, map_res write_trace ts = Ok xs
  /\ map_opt (elem_in_log mgr urlparse) xs = Some (map LTrace (map trace_back ts)).
Proof.
  induction 1 as [|t ts [R RE] F IH]; simpl; [exists []; auto|].
  destruct (write_trace_back t R RE) as (x & -> & N & E). destruct IH as (xs & -> & IH).
  exists (x :: xs). split; [reflexivity|]. simpl. unfold elem_in_log at 1. now rewrite N, E, IH.
Qed.

Lemma write_globals_back scope g l : lower scope = scope ->
  (if str_eqb scope (py "trace") then Some GTrace else if str_eqb scope (py "event") then Some GEvent else None) = Some g ->
  Forall readable l -> exists xs, add_global_attributes scope l = Ok xs
  /\ map_opt (elem_in_log mgr urlparse) xs
     = Some (match l with [] => [] | _ => [LGlobals g (flat_map (globals_back mgr) l)] end).
Proof.
  intros LS SG R. destruct l as [|a l]; [exists []; auto|].
  unfold add_global_attributes. destruct (writes_attrs _ R) as (xs & W & _ & E). rewrite W. cbn [bind].
  eexists. split; [reflexivity|]. unfold map_opt, elem_in_log. cbn [elem_attr elem_trace].
  replace (tag_class (lower (py "global"))) with (@None acls) by reflexivity.
  replace (str_eqb (lower (py "global")) (py "trace")) with false by reflexivity.
  replace (str_eqb (lower (py "global")) (py "global")) with true by reflexivity.
  unfold elem_global. replace (sget (py "scope") [(py "scope", scope)]) with (Some scope) by reflexivity.
  rewrite LS, E. destruct (str_eqb scope (py "trace")).
  - injection SG as <-. cbn [option_map]. now rewrite flat_map_concat_map.
  - destruct (str_eqb scope (py "event")); [|discriminate]. injection SG as <-. cbn [option_map]. now rewrite flat_map_concat_map.
Qed.

Lemma write_extensions_back l : map_opt (elem_in_log mgr urlparse) (map write_extension l)
  = Some (map (fun x => LExt (mgr_by_prefix x_prefix mgr (x_prefix x))) l).
Proof. induction l as [|x l IH]; [reflexivity|]. cbn [map map_opt]. rewrite IH. reflexivity. Qed.

Lemma write_classifiers_back l : map_opt (elem_in_log mgr urlparse) (map write_classifier l)
  = Some (map (fun c => LClassifier (if nonempty (cl_name c) && nonempty (format_token (cl_keys c))
       then Some (mk_cl (cl_name c) (extract_tokens (format_token (cl_keys c)))) else None)) l).
Proof. induction l as [|x l IH]; [reflexivity|]. cbn [map map_opt]. rewrite IH. reflexivity. Qed.

Lemma flat_map_map {A B C} (f : B -> list C) (g : A -> B) l : flat_map f (map g l) = flat_map (fun x => f (g x)) l.
Proof. induction l as [|x l IH]; simpl; auto. now rewrite IH. Qed.
Lemma flat_map_none {A B} (f : A -> list B) l : (forall x, f x = []) -> flat_map f l = [].
Proof. intros H. induction l as [|x l IH]; simpl; auto. now rewrite H. Qed.
Lemma flat_map_eq {A B} (f g : A -> list B) l : (forall x, f x = g x) -> flat_map f l = flat_map g l.
Proof. intros H. induction l as [|x l IH]; simpl; auto. now rewrite H, IH. Qed.
Lemma flat_map_one {A B} (f : A -> B) l : flat_map (fun x => [f x]) l = map f l.
Proof. induction l as [|x l IH]; simpl; [auto|]. now f_equal. Qed.

Theorem serialize_back l : readable_log l -> exists doc, xes_serialize l = Ok doc
  /\ doc_log mgr urlparse draw doc = Some (log_back mgr draw l).
Proof.
  intros (RA & RT & RE & RS). unfold xes_serialize.
  destruct (write_globals_back (py "trace") GTrace _ eq_refl eq_refl RT) as (gt & -> & E1).
  destruct (write_globals_back (py "event") GEvent _ eq_refl eq_refl RE) as (ge & -> & E2).
  destruct (writes_attrs _ RA) as (ns & W & E3 & _). cbn [bind]. rewrite W. cbn [bind].
  destruct (write_traces_back _ RS) as (ts & -> & E4). cbn [bind].
  eexists. split; [reflexivity|]. cbn [doc_log]. replace (str_eqb (lower (py "log")) (py "log")) with true by reflexivity.
  assert (E3' : map_opt (elem_in_log mgr urlparse) ns = Some (map (fun a => LAttrs [a]) (map (read_back mgr) (map snd (lg_attrs l))))).
  { eapply map_opt_imp; [|exact E3]. intros x y H. unfold elem_in_log. now rewrite H. }
  rewrite !map_opt_app, E1, E2, E3', E4, write_extensions_back, write_classifiers_back. cbn [option_map]. f_equal.
  unfold parts_log, log_back.
  assert (N1 : forall (B : Type) (f : log_part -> list B) g l0, (forall x, f (LGlobals g x) = []) ->
     flat_map f (match l0 with [] => [] | _ => [LGlobals g (flat_map (globals_back mgr) l0)] end) = []).
  { intros B f g [|a l0] H; simpl; auto. now rewrite H. }
  f_equal.
  - rewrite !flat_map_app, !N1, !flat_map_map by auto. rewrite !(flat_map_none (A := xext)), !(flat_map_none (A := classifier)), !(flat_map_none (A := trace)) by auto.
    simpl. rewrite app_nil_r. unfold read_back_map. f_equal. rewrite (flat_map_one (fun x => read_back mgr (snd x))). now rewrite map_map.
  - rewrite !flat_map_app, !N1, !flat_map_map by auto. rewrite !(flat_map_none (A := xext)), !(flat_map_none (A := classifier)), !(flat_map_none (A := pystr * attr)) by auto.
    simpl. now f_equal; apply (flat_map_one trace_back).
  - rewrite !flat_map_app, !N1, !flat_map_map by auto. rewrite !(flat_map_none (A := classifier)), !(flat_map_none (A := trace)), !(flat_map_none (A := pystr * attr)) by auto.
    simpl. rewrite app_nil_r. now f_equal; apply flat_map_eq; intros x; unfold extension_back; destruct (mgr_by_prefix _ _ _).
  - rewrite !flat_map_app, !N1, !flat_map_map by auto. rewrite !(flat_map_none (A := xext)), !(flat_map_none (A := trace)), !(flat_map_none (A := pystr * attr)) by auto.
    simpl. rewrite app_nil_r. apply flat_map_eq. intros x. unfold classifier_back. now destruct (nonempty _ && nonempty _).
  - rewrite !flat_map_app, (N1 _ _ GEvent), !flat_map_map by auto. rewrite !(flat_map_none (A := xext)), !(flat_map_none (A := classifier)), !(flat_map_none (A := trace)), !(flat_map_none (A := pystr * attr)) by auto.
    simpl. destruct (lg_gtrace l); simpl; now rewrite ?app_nil_r.
  - rewrite !flat_map_app, (N1 _ _ GTrace), !flat_map_map by auto. rewrite !(flat_map_none (A := xext)), !(flat_map_none (A := classifier)), !(flat_map_none (A := trace)), !(flat_map_none (A := pystr * attr)) by auto.
    simpl. destruct (lg_gevent l); simpl; now rewrite ?app_nil_r.
Qed.

(** ** The same tree *)

Lemma index_fold l : forall m0, NoDup (map fst m0 ++ map a_key l) ->
  fold_left (fun m a => sset (a_key a) a m) l m0 = m0 ++ map (fun a => (a_key a, a)) l.
Proof.
  induction l as [|a l IH]; intros m0 H; simpl; [now rewrite app_nil_r|].
  simpl in H. rewrite sset_new.
  - rewrite IH; [now rewrite <- app_assoc|]. rewrite map_app, <- app_assoc. exact H.
  - apply NoDup_remove_2 in H. intros X. apply H. apply in_or_app. auto.
Qed.

Lemma index_nodup l : NoDup (map a_key l) -> index l = map (fun a => (a_key a, a)) l.
Proof. intros H. apply (index_fold l []). exact H. Qed.

Lemma read_back_key a : a_key (read_back mgr a) = a_key a.
Proof. destruct a as [c ? ? ? ? ?]. simpl. now destruct (is_collection c). Qed.

Lemma read_back_keyed m : keyed m -> read_back_map mgr m = map (fun kv => (fst kv, read_back mgr (snd kv))) m.
Proof.
  intros [K N]. unfold read_back_map.
  assert (E : map a_key (map (read_back mgr) (map snd m)) = map fst m).
  { rewrite !map_map. apply map_ext_in. intros kv I. rewrite read_back_key. symmetry. rewrite Forall_forall in K. now apply K. }
  rewrite index_nodup by now rewrite E. rewrite !map_map. apply map_ext_in. intros kv I. rewrite read_back_key.
  rewrite Forall_forall in K. now rewrite (K kv I).
Qed.

Theorem read_back_same a : well_keyed a -> same_attr mgr a (read_back mgr a).
Proof.
  induction a as [c k e v coll meta IC IM] using attr_ind2. intros W. cbn [read_back].
  inversion W as [? ? ? ? ? ? C WK|? ? ? ? ? ? C K WK]; subst; rewrite C.
  - apply same_coll; auto. clear W C. induction IC as [|a l H F IH]; simpl; constructor; inversion WK; auto.
  - apply same_plain; auto.
    change (index (map (fun kv => read_back mgr (snd kv)) meta)) with (index (map (fun kv : pystr * attr => read_back mgr (snd kv)) meta)).
    assert (E : index (map (fun kv => read_back mgr (snd kv)) meta) = read_back_map mgr meta) by (unfold read_back_map; now rewrite map_map).
    rewrite E, read_back_keyed by auto. clear E K C W. induction IM as [|kv l H F IH]; simpl; constructor; inversion WK; auto.
Qed.

Lemma read_back_map_same m : keyed_deep m -> same_map mgr m (read_back_map mgr m).
Proof.
  intros [K W]. rewrite read_back_keyed by auto. unfold same_map. clear K.
  induction m as [|kv m IH]; simpl; constructor; inversion W; auto. split; auto. now apply read_back_same.
Qed.

Lemma number_events_same es : forall n, Forall (fun e => keyed_deep (ev_attrs e)) es ->
  Forall2 (same_event mgr) es (number_events draw n (map (fun e => read_back_map mgr (ev_attrs e)) es)).
Proof.
  induction es as [|e es IH]; intros n H; simpl; constructor; inversion H; subst; auto.
  unfold same_event. simpl. now apply read_back_map_same.
Qed.

Theorem log_back_same l : keyed_log l ->
  same_map mgr (lg_attrs l) (lg_attrs (log_back mgr draw l))
  /\ Forall2 (same_trace mgr) (lg_traces l) (lg_traces (log_back mgr draw l)).
Proof.
  intros [K T]. unfold log_back. cbn [lg_attrs lg_traces]. split; [now apply read_back_map_same|].
  generalize 0. induction T as [|t ts [KT KE] F IH]; intros n; simpl; constructor; auto.
  split; simpl; [now apply read_back_map_same|now apply number_events_same].
Qed.

(** ** Reading one attribute *)

Lemma attach_put k r o : attach k r o = put_attr k r o.
Proof. destruct o; try reflexivity. unfold attach. simpl. now destruct (is_collection c). Qed.

Theorem read_attr x a : elem_attr mgr x = Some a -> forall s p, inside s p -> exists s' r,
  xes_run mgr urlparse draw (sax_of x) s = Ok s' /\ same_position s s' /\ attr_in (p_heap s') r a
  /\ List.length (p_heap s) <= r
  /\ forall i, i < List.length (p_heap s) ->
       nth_error (p_heap s') i = if Nat.eqb i p then option_map (put_attr (a_key a) r) (nth_error (p_heap s) i)
                                 else nth_error (p_heap s) i.
Proof.
  intros E s p (G & L & (rest & A) & T).
  destruct (run_attr mgr urlparse draw x a E s p rest A G) as (new & R & H); auto.
  eexists. exists (List.length (p_heap s)). split; [exact R|]. split; [repeat split|]. split; [|split; auto].
  - simpl. assert (X := H (update p (attach (a_key a) (List.length (p_heap s))) (p_heap s)) [] ltac:(apply update_length)).
    now rewrite app_nil_r in X.
  - intros i I. simpl. rewrite nth_error_app1 by now rewrite update_length. rewrite update_nth, Nat.eqb_sym.
    destruct (Nat.eqb i p); auto. destruct (nth_error (p_heap s) i); simpl; auto. now rewrite attach_put.
Qed.

Theorem attr_roundtrip a : readable a -> well_keyed a -> exists x b,
  write_attr a = Ok x /\ same_attr mgr a b /\ forall s p, inside s p -> exists s' r,
  xes_run mgr urlparse draw (sax_of x) s = Ok s' /\ same_position s s' /\ attr_in (p_heap s') r b
  /\ List.length (p_heap s) <= r
  /\ forall i, i < List.length (p_heap s) ->
       nth_error (p_heap s') i = if Nat.eqb i p then option_map (put_attr (a_key a) r) (nth_error (p_heap s) i)
                                 else nth_error (p_heap s) i.
Proof.
  intros R W. destruct (writes_attr a R) as (x & WX & E & _). exists x, (read_back mgr a).
  split; auto. split; [now apply read_back_same|]. intros s p I. rewrite <- read_back_key. now apply read_attr.
Qed.

Theorem log_roundtrip l : readable_log l -> exists doc s r, xes_serialize l = Ok doc
  /\ xes_parse mgr urlparse draw doc = Ok s /\ p_log s = Some r /\ log_in (p_heap s) r (log_back mgr draw l).
Proof.
  intros R. destruct (serialize_back l R) as (doc & W & D). destruct (parse_doc mgr urlparse draw doc _ D) as (s & r & P & L & I & _).
  exists doc, s, r. auto.
Qed.
End W.
