(** Anonymising commutes with what does not look at resources. *)
From Coq Require Import String NArith ZArith List Bool Arith Lia Permutation.
From Verif Require Import Spec.Xes Spec.Loose.
From Verif Require Import Base.PyBase Base.PyDate Base.PyVal Model.Attr Model.Log Model.Classify Model.Alpha Model.Examples Model.People
  Spec.Classes Spec.Transform Spec.Anon Spec.People Proofs.BaseFacts Proofs.ClassFacts Proofs.XesRoundFacts Proofs.PeopleFacts Proofs.ExampleFacts.
Import ListNotations.

Definition turns {A B} (f : A -> res B) (a : A) (b : B) : Prop := f a = Ok b.

Lemma map_turns {A B} (f : A -> res B) l m : map_res f l = Ok m <-> Forall2 (turns f) l m.
Proof. apply map_res_ok. Qed.

Lemma bind_ok {A B} (r : res A) (f : A -> res B) b : bind r f = Ok b -> exists a, r = Ok a /\ f a = Ok b.
Proof. destruct r as [a|]; [|discriminate]. intros H. now exists a. Qed.

Lemma anon_parts l l' : anonymize l = Ok l' ->
  lg_attrs l' = lg_attrs l /\ lg_exts l' = lg_exts l /\ lg_classifiers l' = lg_classifiers l /\ lg_features l' = lg_features l
  /\ map_res hide (lg_gtrace l) = Ok (lg_gtrace l') /\ map_res hide (lg_gevent l) = Ok (lg_gevent l')
  /\ Forall2 (turns hide_trace) (lg_traces l) (lg_traces l').
Proof.
  intros H. unfold anonymize in H. apply bind_ok in H. destruct H as (gt & G & H). apply bind_ok in H. destruct H as (ge & E & H).
  apply bind_ok in H. destruct H as (ts & T & H). injection H as <-. cbn. repeat split; auto. now apply map_turns.
Qed.

(** *** Twice *)

Lemma hide_twice a b : hide a = Ok b -> hide b = Ok b.
Proof.
  unfold hide. destruct (is_resource a) eqn:R.
  - destruct a as [c k x v coll meta]. cbn. destruct (is_collection c) eqn:C; [discriminate|]. intros [= <-].
    unfold is_resource in *. cbn in *. rewrite R, C. reflexivity.
  - intros [= <-]. now rewrite R.
Qed.
Lemma turns_twice {A} (f : A -> res A) l m : (forall a b, f a = Ok b -> f b = Ok b) -> map_res f l = Ok m -> map_res f m = Ok m.
Proof.
  intros H. rewrite !map_turns. induction 1 as [|a b l m K F IH]; constructor; [now apply (H a)|exact IH].
Qed.
Lemma hide_map_twice m n : hide_map m = Ok n -> hide_map n = Ok n.
Proof.
  apply turns_twice. intros (k & a) (k' & b) H. apply bind_ok in H. destruct H as (b' & E & [= <- <-]).
  now rewrite (hide_twice a b' E).
Qed.
Lemma hide_event_twice e f : hide_event e = Ok f -> hide_event f = Ok f.
Proof.
  unfold hide_event. intros H. apply bind_ok in H. destruct H as (m & E & [= <-]). cbn [ev_attrs ev_id].
  now rewrite (hide_map_twice _ _ E).
Qed.
Lemma hide_trace_twice t u : hide_trace t = Ok u -> hide_trace u = Ok u.
Proof.
  unfold hide_trace. intros H. apply bind_ok in H. destruct H as (m & E & H). apply bind_ok in H. destruct H as (es & F & [= <-]).
  cbn [tr_attrs tr_events]. rewrite (hide_map_twice _ _ E). cbn [bind]. now rewrite (turns_twice _ _ _ hide_event_twice F).
Qed.
Lemma anon_twice l l' : anonymize l = Ok l' -> anonymize l' = Ok l'.
Proof.
  intros H. destruct (anon_parts l l' H) as (_ & _ & _ & _ & G & E & T). apply map_turns in T. unfold anonymize.
  rewrite (turns_twice _ _ _ hide_twice G), (turns_twice _ _ _ hide_twice E), (turns_twice _ _ _ hide_trace_twice T). cbn.
  now destruct l'.
Qed.

(** *** Identities *)

Section WithFloatIO.
Context {FIO : FloatIO}.

Lemma hide_get m n k : hide_map m = Ok n ->
  match sget k m with
  | Some a => exists b, hide a = Ok b /\ sget k n = Some b
  | None => sget k n = None
  end.
Proof.
  unfold hide_map. rewrite map_turns. induction 1 as [|(k1 & a1) (k2 & b) m n H F IH]; [reflexivity|].
  apply bind_ok in H. destruct H as (b' & E & [= <- <-]). cbn. destruct (str_eqb k k1) eqn:K; [now exists b'|exact IH].
Qed.
Lemma hide_other a b : ~ hidden_key (a_key a) -> hide a = Ok b -> b = a.
Proof.
  intros N. unfold hide. destruct (is_resource a) eqn:R; [|congruence]. destruct N. unfold is_resource in R. cbn in R.
  rewrite orb_false_r in R. apply orb_prop in R. destruct R as [R|R]; apply str_eqb_eq in R; [now left|now right].
Qed.
Lemma identity_kept c e f : (forall k a, In k (cl_keys c) -> sget k (ev_attrs e) = Some a -> ~ hidden_key (a_key a)) ->
  hide_event e = Ok f -> class_identity c f = class_identity c e.
Proof.
  intros N H. apply identity_depends. intros k K. unfold hide_event in H. apply bind_ok in H. destruct H as (m & E & [= <-]).
  assert (G := hide_get _ _ k E). unfold shown. cbn [ev_attrs].
  destruct (sget k (ev_attrs e)) as [a|] eqn:S; [|now rewrite G].
  destruct G as (b & Hb & ->). now rewrite (hide_other a b (N k a K S) Hb).
Qed.

(** Traces before and after, with the same identities. *)
Definition veiled c (t u : trace) : Prop :=
  hide_trace t = Ok u /\ Forall2 (fun e f => class_identity c f = class_identity c e) (tr_events t) (tr_events u).

Lemma turns_events t u : hide_trace t = Ok u -> Forall2 (turns hide_event) (tr_events t) (tr_events u).
Proof.
  unfold hide_trace. intros H. apply bind_ok in H. destruct H as (m & E & H). apply bind_ok in H. destruct H as (es & F & [= <-]).
  now apply map_turns.
Qed.
Lemma Forall2_with {A B} (P Q : A -> B -> Prop) l m : (forall a b, In a l -> P a b -> Q a b) -> Forall2 P l m -> Forall2 Q l m.
Proof.
  intros H F. induction F as [|a b l m K F IH]; constructor; [apply H; [now left|exact K]|].
  apply IH. intros x y X. apply H. now right.
Qed.
Lemma veiled_all c l l' : blind c l -> anonymize l = Ok l' -> Forall2 (veiled c) (lg_traces l) (lg_traces l').
Proof.
  intros N H. destruct (anon_parts l l' H) as (_ & _ & _ & _ & _ & _ & T). revert T. apply Forall2_with.
  intros t u I K. split; [exact K|]. apply turns_events in K. revert K. apply Forall2_with.
  intros e f J. apply identity_kept. intros k a Ik. apply (N e k a); [|exact Ik].
  apply in_flat_map. exists t. auto.
Qed.
Lemma veiled_variant c t u : veiled c t u -> map_res (class_identity c) (tr_events u) = map_res (class_identity c) (tr_events t).
Proof. intros [_ F]. induction F as [|e f l m K F IH]; [reflexivity|]. cbn. now rewrite K, IH. Qed.
Lemma veiled_variants c ts us : Forall2 (veiled c) ts us ->
  map_res (fun t => map_res (class_identity c) (tr_events t)) us = map_res (fun t => map_res (class_identity c) (tr_events t)) ts.
Proof. induction 1 as [|t u ts us V F IH]; [reflexivity|]. cbn. now rewrite (veiled_variant c t u V), IH. Qed.

Lemma mine_anon (SO : SetOrder) c l l' : blind c l -> anonymize l = Ok l' -> mine_log c l' = mine_log c l.
Proof. intros N H. unfold mine_log. now rewrite (veiled_variants c _ _ (veiled_all c l l' N H)). Qed.
Lemma vectors_anon (SO : SetOrder) c l l' : blind c l -> anonymize l = Ok l' -> log_vectors c l' = log_vectors c l.
Proof. intros N H. unfold log_vectors. now rewrite (veiled_variants c _ _ (veiled_all c l l' N H)). Qed.

(** *** Filtering *)

Lemma same_events_anon c a a' : Forall2 (fun e f => class_identity c f = class_identity c e) a a' ->
  forall b b', Forall2 (fun e f => class_identity c f = class_identity c e) b b' -> same_events c a' b' = same_events c a b.
Proof.
  induction 1 as [|e f a a' K F IH]; intros b b' G; [now destruct G|]. destruct G as [|e1 f1 b b' K1 G]; [reflexivity|].
  cbn. unfold same_event_class. rewrite K, K1. destruct (class_identity c e) as [x|]; [|reflexivity].
  destruct (class_identity c e1) as [y|]; [|reflexivity]. cbn. destruct (str_eqb x y); [now apply IH|reflexivity].
Qed.
Lemma F2_len {A B} (P : A -> B -> Prop) l m : Forall2 P l m -> List.length m = List.length l.
Proof. induction 1; cbn; congruence. Qed.
Lemma same_trace_anon c t u t' u' : veiled c t t' -> veiled c u u' -> same_trace c t' u' = same_trace c t u.
Proof.
  intros [_ F] [_ G]. unfold same_trace. rewrite (F2_len _ _ _ F), (F2_len _ _ _ G).
  destruct (negb _); [reflexivity|]. now apply same_events_anon.
Qed.
Lemma have_anon c t t' n n' : veiled c t t' -> Forall2 (veiled c) n n' -> have_trace c t' n' = have_trace c t n.
Proof.
  intros V F. induction F as [|u u' n n' K F IH]; [reflexivity|]. cbn. rewrite (same_trace_anon c t u t' u' V K).
  destruct (same_trace c t u) as [[]|]; auto.
Qed.
Lemma filter_anon_fold c ts us : Forall2 (veiled c) ts us -> forall n n', Forall2 (veiled c) n n' ->
  let step := fun new a => let! h := have_trace c a new in Ok (if h then new else new ++ [a]) in
  match fold_res step ts n with
  | Ok r => exists r', fold_res step us n' = Ok r' /\ Forall2 (veiled c) r r'
  | Raise x => fold_res step us n' = Raise x
  end.
Proof.
  cbv zeta. induction 1 as [|t u ts us V F IH]; intros n n' G; [cbn; now exists n'|].
  cbn. rewrite (have_anon c t u n n' V G). destruct (have_trace c t n) as [[]|]; cbn; [now apply IH| |reflexivity].
  apply IH. apply Forall2_app; [exact G|constructor; [exact V|constructor]].
Qed.
Lemma filter_anon c l l' : blind c l -> anonymize l = Ok l' -> filter_log c l' = bind (filter_log c l) anonymize.
Proof.
  intros N H. assert (V := veiled_all c l l' N H).
  destruct (anon_parts l l' H) as (E1 & E2 & E3 & E4 & G & E & _).
  assert (K := filter_anon_fold c _ _ V [] [] (Forall2_nil _)). cbv zeta in K. unfold filter_log, filter_traces.
  destruct (fold_res _ (lg_traces l) []) as [r|x]; [|now rewrite K].
  destruct K as (r' & -> & R). cbn [bind]. unfold anonymize. cbn [lg_gtrace lg_gevent lg_traces lg_attrs lg_exts lg_classifiers lg_features].
  rewrite G, E. cbn [bind]. rewrite (proj2 (map_turns hide_trace r r')); [|revert R; apply Forall2_with; now intros a b _ [X _]].
  cbn [bind]. now rewrite E1, E2, E3, E4.
Qed.

(** *** Clusters *)

Lemma anon_add t u l l' : hide_trace t = Ok u -> anonymize l = Ok l' -> anonymize (add_trace t l) = Ok (add_trace u l').
Proof.
  intros T H. destruct (anon_parts l l' H) as (E1 & E2 & E3 & E4 & G & E & F). unfold anonymize, add_trace. cbn.
  rewrite G, E. cbn. rewrite (proj2 (map_turns hide_trace _ (lg_traces l' ++ [u]))).
  - cbn. now rewrite E1, E2, E3, E4.
  - apply Forall2_app; [exact F|constructor; [exact T|constructor]].
Qed.
Lemma anon_empty l l' : anonymize l = Ok l' -> anonymize (empty_cluster l) = Ok (empty_cluster l').
Proof. intros H. destruct (anon_parts l l' H) as (E1 & E2 & _). unfold empty_cluster, anonymize. cbn. now rewrite E1, E2. Qed.
Lemma update_F2 {A B} (P : A -> B -> Prop) f g : (forall a b, P a b -> P (f a) (g b)) -> forall l m, Forall2 P l m ->
  forall i, Forall2 P (update i f l) (update i g m).
Proof. intros H. induction 1 as [|a b l m K F IH]; intros [|i]; cbn; constructor; auto. Qed.
Lemma cluster_fold (predict : list nat -> nat) c ts us : Forall2 (veiled c) ts us -> forall vs logs logs',
  Forall2 (turns anonymize) logs logs' ->
  let step := fun ls '(v, t) => let k := predict v in
    if Nat.ltb k (List.length ls) then Ok (update k (add_trace t) ls) else Raise KeyError in
  match fold_res step (combine vs ts) logs with
  | Ok r => exists r', fold_res step (combine vs us) logs' = Ok r' /\ Forall2 (turns anonymize) r r'
  | Raise x => fold_res step (combine vs us) logs' = Raise x
  end.
Proof.
  cbv zeta. induction 1 as [|t u ts us V F IH]; intros [|v vs] logs logs' G; cbn [combine fold_res]; try (now exists logs').
  rewrite (F2_len _ _ _ G). destruct (Nat.ltb (predict v) (List.length logs)); [|reflexivity].
  apply IH. apply update_F2; [|exact G]. intros a b. apply anon_add. exact (proj1 V).
Qed.
Lemma cluster_anon (SO : SetOrder) centres predict c l l' : blind c l -> anonymize l = Ok l' ->
  cluster_log centres predict c l' = bind (cluster_log centres predict c l) (map_res anonymize).
Proof.
  intros N H. unfold cluster_log. rewrite (vectors_anon SO c l l' N H). destruct (log_vectors c l) as [vs|]; [|reflexivity].
  cbn [bind].
  assert (R : Forall2 (turns anonymize) (repeat (empty_cluster l) (centres vs)) (repeat (empty_cluster l') (centres vs))).
  { induction (centres vs) as [|n IH]; cbn; constructor; [now apply anon_empty|exact IH]. }
  assert (K := cluster_fold (predict vs) c _ _ (veiled_all c l l' N H) vs _ _ R). cbv zeta in K. cbv zeta.
  match type of K with match ?x with _ => _ end => match goal with |- _ = bind ?y _ => change y with x end; destruct x as [r|ex] end; [|now rewrite K].
  destruct K as (r' & -> & F). cbn [bind]. symmetry. now apply map_turns.
Qed.

(** *** The chart *)

Lemma resource_anon l l' f : text_resources l -> anonymize l = Ok l' -> In f (log_events l') ->
  resource_is f (Ok (py "UNKNOWN")) \/ resource_is f (Ok []).
Proof.
  intros X H I. destruct (anon_parts l l' H) as (_ & _ & _ & _ & _ & _ & T).
  apply in_flat_map in I. destruct I as (u & U & I).
  assert (K : exists t, In t (lg_traces l) /\ hide_trace t = Ok u).
  { clear -T U. induction T as [|a b ls ms Kx Fx IH]; [destruct U|]. destruct U as [<-|U]; [exists a; split; [now left|exact Kx]|].
    destruct (IH U) as (t & J & E). exists t. split; [now right|exact E]. }
  destruct K as (t & J & K). apply turns_events in K.
  assert (L : exists e, In e (tr_events t) /\ hide_event e = Ok f).
  { clear -K I. induction K as [|a b ls ms Kx Fx IH]; [destruct I|]. destruct I as [<-|I]; [exists a; split; [now left|exact Kx]|].
    destruct (IH I) as (e & J & E). exists e. split; [now right|exact E]. }
  destruct L as (e & Je & L). unfold hide_event in L. apply bind_ok in L. destruct L as (m & E & [= <-]).
  assert (G := hide_get _ _ (py "Resource") E). specialize (X e).
  destruct (sget (py "Resource") (ev_attrs e)) as [a|] eqn:S.
  - destruct G as (b & Hb & Sb). destruct (X a) as [Kk Kc]; [apply in_flat_map; now exists t|reflexivity|].
    left. apply resource_identity. unfold class_identity. cbn [cl_keys resource_classifier ev_attrs]. rewrite Sb.
    unfold hide in Hb. destruct a as [c k x v coll meta]. cbn in Kk, Kc. subst. cbn in Hb. injection Hb as <-. reflexivity.
  - right. apply resource_identity. unfold class_identity. cbn [cl_keys resource_classifier ev_attrs]. now rewrite G.
Qed.
Lemma chart_anon logs logs' : Forall text_resources logs -> Forall2 (turns anonymize) logs logs' ->
  exists names units, people_chart logs' = Ok (names, units) /\ incl names [py "UNKNOWN"; []].
Proof.
  intros X F.
  assert (R : forall e, In e (all_events logs') -> resource_is e (Ok (py "UNKNOWN")) \/ resource_is e (Ok [])).
  { intros e I. apply in_flat_map in I. destruct I as (l' & L & I). clear -X F L I.
    induction F as [|a b ls ms Kx Fx IH]; [destruct L|]. inversion X; subst. destruct L as [<-|L]; [now apply (resource_anon a b)|auto]. }
  assert (C : exists ids, Forall2 (fun e s => resource_is e (Ok s)) (all_events logs') ids).
  { revert R. generalize (all_events logs'). intros es. induction es as [|e es IH]; intros R; [now exists []|].
    destruct IH as (ids & I); [intros; apply R; now right|].
    destruct (R e (or_introl eq_refl)) as [K|K]; eexists (_ :: ids); constructor; eauto. }
  destruct C as (ids & C). assert (E := chart_ok logs' ids C). eexists _, _. split; [exact E|].
  apply chart_totals in E. destruct E as (_ & _ & _ & _ & E). intros p P. apply E in P. destruct P as (e & I & P).
  apply resource_identity in P. destruct (R e I) as [K|K]; apply resource_identity in K; rewrite K in P; injection P as <-; cbn; auto.
Qed.
End WithFloatIO.

(** *** Storing *)

Lemma hide_nested a b x : hide a = Ok b -> In x (post_order b) -> In x (post_order a) \/ (x = b /\ hidden_key (a_key a)).
Proof.
  intros H. destruct (hide_ok a b H) as [[N ->]|[K ->]]; [now left|]. destruct a as [c k e v coll meta]. cbn in *.
  rewrite !in_app_iff. cbn. intros [I|[I|[]]]; auto.
Qed.
Lemma F2_back {A B} (f : A -> res B) l m : Forall2 (turns f) l m -> forall b, In b m -> exists a, In a l /\ f a = Ok b.
Proof.
  induction 1 as [|a b l m K F IH]; intros x []; [subst; exists a; split; [now left|exact K]|].
  destruct (IH x H) as (y & I & E). exists y. split; [now right|exact E].
Qed.
Lemma F2_forth {A B} (f : A -> res B) l m : Forall2 (turns f) l m -> forall a, In a l -> exists b, In b m /\ f a = Ok b.
Proof.
  induction 1 as [|a b l m K F IH]; intros x []; [subst; exists b; split; [now left|exact K]|].
  destruct (IH x H) as (y & I & E). exists y. split; [now right|exact E].
Qed.
Lemma map_back m n b : hide_map m = Ok n -> In b (map snd n) -> exists a, In a (map snd m) /\ hide a = Ok b.
Proof.
  intros H I. apply map_turns in H. apply in_map_iff in I. destruct I as ((k & b') & <- & I).
  destruct (F2_back _ _ _ H _ I) as ((k' & a) & J & E). apply bind_ok in E. destruct E as (b2 & E & [= <- <-]).
  exists a. split; [apply in_map_iff; now exists (k', a)|exact E].
Qed.
Lemma map_forth m n a : hide_map m = Ok n -> In a (map snd m) -> exists b, In b (map snd n) /\ hide a = Ok b.
Proof.
  intros H I. apply map_turns in H. apply in_map_iff in I. destruct I as ((k & a') & <- & I).
  destruct (F2_forth _ _ _ H _ I) as ((k' & b) & J & E). apply bind_ok in E. destruct E as (b2 & E & [= <- <-]).
  exists b2. split; [apply in_map_iff; now exists (k, b2)|exact E].
Qed.
Lemma trace_maps t u : hide_trace t = Ok u -> hide_map (tr_attrs t) = Ok (tr_attrs u) /\ Forall2 (turns hide_event) (tr_events t) (tr_events u).
Proof.
  intros H. split; [|now apply turns_events]. unfold hide_trace in H. apply bind_ok in H. destruct H as (m & E & H).
  apply bind_ok in H. destruct H as (es & F & [= <-]). exact E.
Qed.
Lemma event_map e f : hide_event e = Ok f -> hide_map (ev_attrs e) = Ok (ev_attrs f).
Proof. unfold hide_event. intros H. apply bind_ok in H. now destruct H as (m & E & [= <-]). Qed.

(** Attributes of the log itself, and those the script looks at. *)
Lemma written_split l x : In x (written_attrs l) <->
  (exists a, In a (map snd (lg_attrs l)) /\ In x (post_order a)) \/ (exists a, In a (top_attrs l) /\ In x (post_order a)).
Proof.
  unfold written_attrs, top_attrs, log_events. rewrite !in_app_iff, !in_flat_map. setoid_rewrite in_app_iff. setoid_rewrite in_flat_map. split.
  - intros [(a & I & J)|[(a & I & J)|[(a & I & J)|(t & T & [(a & I & J)|(e & E & I)])]]].
    + right. exists a. rewrite !in_app_iff. auto.
    + right. exists a. rewrite !in_app_iff. auto.
    + left. now exists a.
    + right. exists a. rewrite !in_app_iff, !in_flat_map. split; [|exact J]. right. right. left. now exists t.
    + apply in_flat_map in I. destruct I as (a & I & J). right. exists a. rewrite !in_app_iff, !in_flat_map. split; [|exact J]. right. right. right.
      exists e. split; [|exact I]. apply in_flat_map. now exists t.
  - intros [(a & I & J)|(a & I & J)].
    + right. right. left. now exists a.
    + rewrite !in_app_iff, !in_flat_map in I. destruct I as [I|[I|[(t & T & I)|(e & E & I)]]].
      * left. now exists a.
      * right. left. now exists a.
      * right. right. right. exists t. split; [exact T|]. left. now exists a.
      * apply in_flat_map in E. destruct E as (t & T & E). right. right. right. exists t. split; [exact T|]. right.
        exists e. split; [exact E|]. apply in_flat_map. now exists a.
Qed.
Lemma in_top l a : In a (top_attrs l) <-> In a (lg_gtrace l) \/ In a (lg_gevent l)
  \/ (exists t, In t (lg_traces l) /\ (In a (map snd (tr_attrs t)) \/ exists e, In e (tr_events t) /\ In a (map snd (ev_attrs e)))).
Proof.
  unfold top_attrs, log_events. rewrite !in_app_iff, !in_flat_map. setoid_rewrite in_flat_map. firstorder.
Qed.
Lemma top_back l l' b : anonymize l = Ok l' -> In b (top_attrs l') -> exists a, In a (top_attrs l) /\ hide a = Ok b.
Proof.
  intros H I. destruct (anon_parts l l' H) as (_ & _ & _ & _ & G & E & T). apply map_turns in G, E. apply in_top in I.
  destruct I as [I|[I|(u & U & I)]].
  - destruct (F2_back _ _ _ G _ I) as (a & J & K). exists a. split; [apply in_top; auto|exact K].
  - destruct (F2_back _ _ _ E _ I) as (a & J & K). exists a. split; [apply in_top; auto|exact K].
  - destruct (F2_back _ _ _ T _ U) as (t & J & K). destruct (trace_maps t u K) as [M F]. destruct I as [I|(f & Ff & I)].
    + destruct (map_back _ _ _ M I) as (a & Ja & Ka). exists a. split; [apply in_top; eauto 6|exact Ka].
    + destruct (F2_back _ _ _ F _ Ff) as (e & Je & Ke). apply event_map in Ke.
      destruct (map_back _ _ _ Ke I) as (a & Ja & Ka). exists a. split; [apply in_top; eauto 8|exact Ka].
Qed.
Lemma top_forth l l' a : anonymize l = Ok l' -> In a (top_attrs l) -> exists b, In b (top_attrs l') /\ hide a = Ok b.
Proof.
  intros H I. destruct (anon_parts l l' H) as (_ & _ & _ & _ & G & E & T). apply map_turns in G, E. apply in_top in I.
  destruct I as [I|[I|(u & U & I)]].
  - destruct (F2_forth _ _ _ G _ I) as (b & J & K). exists b. split; [apply in_top; auto|exact K].
  - destruct (F2_forth _ _ _ E _ I) as (b & J & K). exists b. split; [apply in_top; auto|exact K].
  - destruct (F2_forth _ _ _ T _ U) as (t & J & K). destruct (trace_maps u t K) as [M F]. destruct I as [I|(f & Ff & I)].
    + destruct (map_forth _ _ _ M I) as (b & Ja & Ka). exists b. split; [apply in_top; eauto 6|exact Ka].
    + destruct (F2_forth _ _ _ F _ Ff) as (e & Je & Ke). apply event_map in Ke.
      destruct (map_forth _ _ _ Ke I) as (b & Ja & Ka). exists b. split; [apply in_top; eauto 8|exact Ka].
Qed.
Lemma self_written a : In a (post_order a).
Proof. destruct a. cbn. rewrite ?in_app_iff. cbn. auto. Qed.

Lemma written_back l l' x : anonymize l = Ok l' -> In x (written_attrs l') ->
  In x (written_attrs l) \/ exists a, In a (top_attrs l) /\ hidden_key (a_key a) /\ hide a = Ok x.
Proof.
  intros H I. apply written_split in I. rewrite written_split. destruct I as [(a & I & J)|(b & I & J)].
  - rewrite (proj1 (anon_parts l l' H)) in I. left. left. now exists a.
  - destruct (top_back l l' b H I) as (a & Ia & Ha). destruct (hide_nested a b x Ha J) as [K|[-> K]].
    + left. right. now exists a.
    + right. now exists a.
Qed.
Lemma kept_written (P : attr -> Prop) l l' : (forall a, a_cls a = CLiteral -> P a) ->
  (forall a, In a (top_attrs l) -> hidden_key (a_key a) -> a_cls a = CLiteral) ->
  anonymize l = Ok l' -> Forall P (written_attrs l) -> Forall P (written_attrs l').
Proof.
  intros HP L H W. rewrite Forall_forall in *. intros x I. destruct (written_back l l' x H I) as [J|(a & J & K & E)]; [auto|].
  apply HP. destruct (hide_ok a x E) as [[N _]|[_ ->]]; [contradiction|]. exact (L a J K).
Qed.
Lemma hidden_written l l' a : anonymize l = Ok l' -> In a (top_attrs l) -> hidden_key (a_key a) ->
  In (mk_attr (a_cls a) (a_key a) (a_ext a) (PStr (py "UNKNOWN")) (a_coll a) (a_meta a)) (written_attrs l').
Proof.
  intros H I K. destruct (top_forth l l' a H I) as (b & J & E). destruct (hide_ok a b E) as [[N _]|[_ <-]]; [contradiction|].
  apply written_split. right. exists b. split; [exact J|apply self_written].
Qed.
