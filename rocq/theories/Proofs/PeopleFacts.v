(** Proofs about the chart of events per resource. *)
From Coq Require Import String NArith List Bool Arith Lia.
From Verif Require Import Base.PyBase Base.PyDate Base.PyVal Model.Attr Model.Log Model.Classify
  Model.People Model.Registry Spec.People Spec.Xes Spec.Survive Proofs.BaseFacts
  Proofs.StatFacts Proofs.StatFacts2.
Import ListNotations.

Section WithFloatIO.
Context `{FIO : FloatIO}.

Lemma fold_res_concat {A B S} (f : S -> B -> res S) (g : A -> list B) l : forall s,
  fold_res (fun s a => fold_res f (g a) s) l s = fold_res f (flat_map g l) s.
Proof.
  induction l as [|a l IH]; intros s; [reflexivity|]. cbn [fold_res flat_map].
  rewrite fold_res_app. destruct (fold_res f (g a) s); cbn; [apply IH|reflexivity].
Qed.

Lemma fold_res_ext {A S} (f g : S -> A -> res S) l : (forall s a, f s a = g s a) ->
  forall s, fold_res f l s = fold_res g l s.
Proof.
  intros E. induction l as [|a l IH]; intros s; [reflexivity|]. cbn. rewrite E.
  destruct (g s a); [apply IH|reflexivity].
Qed.

Lemma Forall2_imp {A B} (P Q : A -> B -> Prop) l m : (forall a b, P a b -> Q a b) -> Forall2 P l m -> Forall2 Q l m.
Proof. intros I F. induction F; constructor; auto. Qed.

Lemma count_people_events c logs : count_people c logs = fold_res (count_event c) (all_events logs) [].
Proof.
  unfold count_people, all_events.
  rewrite <- (fold_res_concat (count_event c) (fun l => flat_map tr_events (lg_traces l))).
  apply fold_res_ext. intros s l. apply fold_res_concat.
Qed.

Lemma resource_identity e r : resource_is e r <-> class_identity resource_classifier e = r.
Proof.
  unfold class_identity, resource_classifier; cbn [cl_keys]. split.
  - intros [E|a E]; rewrite E; reflexivity.
  - destruct (sget (py "Resource") (ev_attrs e)) eqn:E; intros <-; [apply some_resource | apply no_resource]; exact E.
Qed.

(** ** Counting texts *)
Definition count_all (l : list pystr) (d : sdict nat) : sdict nat := fold_left count_one l d.

Lemma count_events_ok c es : forall ids d, Forall2 (fun e s => class_identity c e = Ok s) es ids ->
  fold_res (count_event c) es d = Ok (count_all ids d).
Proof.
  induction es as [|e es IH]; intros ids d F; inversion F; subst; [reflexivity|].
  cbn [fold_res]. unfold count_event at 1. rewrite H1. cbn. apply IH; assumption.
Qed.

Lemma count_events_raise c es : forall d x, fold_res (count_event c) es d = Raise x <->
  exists pre e post, es = pre ++ e :: post /\ class_identity c e = Raise x
    /\ forall y, In y pre -> exists s, class_identity c y = Ok s.
Proof.
  induction es as [|e es IH]; intros d x; split.
  - discriminate.
  - intros ([|y pre] & e & post & E & _); discriminate.
  - cbn [fold_res]. unfold count_event at 1. destruct (class_identity c e) as [s|y] eqn:Ei; cbn.
    + intros R. apply IH in R. destruct R as (pre & e' & post & -> & R & P).
      exists (e :: pre), e', post. repeat split; [assumption|]. intros z [<-|I]; [eexists; exact Ei|auto].
    + intros R. injection R as <-. exists [], e, es. repeat split; [assumption|]. intros z [].
  - intros ([|y pre] & e' & post & E & R & P); cbn in E; injection E as <- ->; cbn [fold_res]; unfold count_event at 1.
    + rewrite R. reflexivity.
    + destruct (P e (or_introl eq_refl)) as (s & ->). cbn. apply IH.
      exists pre, e', post. repeat split; [assumption|]. intros z I. apply P. right; exact I.
Qed.

Definition seen (d : sdict nat) (p : pystr) : nat := match sget p d with Some n => n | None => 0 end.

Lemma seen_one p q d : seen (count_one d p) q = (if str_eqb q p then 1 else 0) + seen d q.
Proof.
  unfold seen, count_one. destruct (str_eqb q p) eqn:E.
  - apply str_eqb_eq in E as ->. rewrite sget_sset_same. destruct (sget p d); reflexivity.
  - rewrite sget_sset_other; [reflexivity|]. intros ->. rewrite str_eqb_refl in E; discriminate.
Qed.
Lemma seen_all l : forall d q, seen (count_all l d) q = times q l + seen d q.
Proof.
  induction l as [|x l IH]; intros d q; [reflexivity|].
  unfold count_all, times in *. cbn [fold_left filter]. rewrite IH, seen_one.
  destruct (str_eqb q x); cbn; lia.
Qed.

Lemma keys_one d p : map fst (count_one d p) = map fst d ++ (if smem p d then [] else [p]).
Proof. unfold count_one. rewrite sset_keys. destruct (smem p d); [rewrite app_nil_r|]; reflexivity. Qed.

Lemma smem_app p (d : sdict nat) x : smem p (count_one d x) = smem p d || str_eqb p x.
Proof.
  apply Bool.eq_iff_eq_true. rewrite orb_true_iff, !smem_in, str_eqb_eq, keys_one, in_app_iff.
  destruct (smem x d) eqn:E; cbn; [apply smem_in in E|]; intuition (subst; auto).
Qed.

Lemma keys_all l : forall d,
  map fst (count_all l d) = map fst d ++ filter (fun x => negb (smem x d)) (distinct_texts l).
Proof.
  induction l as [|x l IH]; intros d; [cbn; now rewrite app_nil_r|].
  unfold count_all in *. cbn [fold_left distinct_texts]. rewrite IH, keys_one, <- app_assoc. f_equal.
  cbn [filter]. assert (E : forall q, filter (fun y => negb (smem y (count_one d x))) q
    = filter (fun y => negb (smem y d)) (filter (fun y => negb (str_eqb x y)) q)).
  { induction q as [|y q I]; [reflexivity|]. cbn [filter]. rewrite smem_app, I, (str_eqb_sym y x).
    destruct (str_eqb x y) eqn:G; cbn [negb orb]; [now rewrite orb_true_r|]. rewrite orb_false_r. reflexivity. }
  rewrite E. destruct (smem x d); reflexivity.
Qed.

Lemma keys_nil l : map fst (count_all l []) = distinct_texts l.
Proof.
  rewrite keys_all. cbn [map app]. induction (distinct_texts l) as [|x q I]; [reflexivity|].
  cbn [filter]. change (smem x (@nil (pystr * nat))) with false. cbn [negb]. now rewrite I.
Qed.

Lemma chart_ok logs ids : Forall2 (fun e s => resource_is e (Ok s)) (all_events logs) ids ->
  people_chart logs = Ok (distinct_texts ids, map (fun p => times p ids) (distinct_texts ids)).
Proof.
  intros F. unfold people_chart. rewrite count_people_events.
  rewrite (count_events_ok resource_classifier _ ids).
  - cbn [bind]. unfold bars. rewrite keys_nil. f_equal. f_equal. apply map_ext. intros p.
    change (seen (count_all ids []) p = times p ids). rewrite seen_all. unfold seen. cbn. lia.
  - eapply Forall2_imp; [|exact F]. intros e s H. now apply resource_identity.
Qed.

Lemma chart_raise logs x : people_chart logs = Raise x <->
  exists pre e post, all_events logs = pre ++ e :: post /\ resource_is e (Raise x)
    /\ forall y, In y pre -> exists s, resource_is y (Ok s).
Proof.
  unfold people_chart. rewrite count_people_events.
  transitivity (fold_res (count_event resource_classifier) (all_events logs) [] = Raise x).
  - destruct (fold_res _ _ _); cbn; split; congruence.
  - rewrite count_events_raise. split; intros (pre & e & post & E & R & P); exists pre, e, post;
      (split; [exact E|]); (split; [now apply resource_identity|]); intros y I; destruct (P y I) as (s & H); exists s;
      now apply resource_identity.
Qed.

(** ** The different texts of a list *)
Lemma distinct_in l : forall x, In x (distinct_texts l) <-> In x l.
Proof.
  induction l as [|y l IH]; intros x; [reflexivity|]. cbn [distinct_texts In]. rewrite filter_In, IH, negb_true_iff.
  split; [tauto|]. intros [->|H]; [tauto|]. destruct (str_eqb_spec y x); tauto.
Qed.
Lemma distinct_nodup l : NoDup (distinct_texts l).
Proof.
  induction l as [|y l IH]; cbn [distinct_texts]; constructor; [|now apply NoDup_filter].
  rewrite filter_In, str_eqb_refl. intros [_ H]; discriminate.
Qed.

Lemma times_cons x y l : times x (y :: l) = (if str_eqb x y then 1 else 0) + times x l.
Proof. unfold times. cbn [filter]. destruct (str_eqb x y); reflexivity. Qed.
Lemma sum_times_filter x l q : NoDup q -> 
  list_sum (map (fun p => times p l) q) = (if existsb (str_eqb x) q then times x l else 0)
  + list_sum (map (fun p => times p l) (filter (fun y => negb (str_eqb x y)) q)).
Proof.
  induction q as [|y q IH]; intros N; [reflexivity|]. inversion N as [|? ? Ny Nq]; subst. cbn [existsb filter map].
  specialize (IH Nq). destruct (str_eqb x y) eqn:E; cbn [negb orb map].
  - apply str_eqb_eq in E as <-. destruct (existsb (str_eqb x) q) eqn:B.
    + apply existsb_exists in B as (z & I & Z). apply str_eqb_eq in Z as <-. contradiction.
    + unfold list_sum in *. cbn [fold_right]. lia.
  - unfold list_sum in *. cbn [fold_right]. lia.
Qed.
Lemma sum_times l : list_sum (map (fun p => times p l) (distinct_texts l)) = List.length l.
Proof.
  induction l as [|x l IH]; [reflexivity|]. cbn [distinct_texts map List.length].
  rewrite (sum_times_filter x l _ (distinct_nodup l)) in IH.
  assert (E : map (fun p => times p (x :: l)) (filter (fun y => negb (str_eqb x y)) (distinct_texts l))
    = map (fun p => times p l) (filter (fun y => negb (str_eqb x y)) (distinct_texts l))).
  { apply map_ext_in. intros y I. apply filter_In in I as [_ I]. rewrite times_cons, (str_eqb_sym y x).
    destruct (str_eqb x y); [discriminate|reflexivity]. }
  rewrite E, times_cons, str_eqb_refl. change (list_sum (?a :: ?b)) with (a + list_sum b).
  destruct (existsb (str_eqb x) (distinct_texts l)) eqn:B.
  - cbn [list_sum fold_right]. fold (list_sum (map (fun p => times p l) (filter (fun y => negb (str_eqb x y)) (distinct_texts l)))). lia.
  - assert (Z : times x l = 0).
    { unfold times. destruct (filter (str_eqb x) l) as [|z f] eqn:F; [reflexivity|].
      assert (I : In z (filter (str_eqb x) l)) by (rewrite F; now left). apply filter_In in I as [I H].
      apply str_eqb_eq in H as <-. apply distinct_in in I. exfalso. apply Bool.not_true_iff_false in B. apply B.
      apply existsb_exists. exists x. split; [exact I | apply str_eqb_refl]. }
    cbn [list_sum fold_right]. fold (list_sum (map (fun p => times p l) (filter (fun y => negb (str_eqb x y)) (distinct_texts l)))). lia.
Qed.
Lemma times_pos x l : In x l <-> 0 < times x l.
Proof.
  unfold times. split.
  - intros I. assert (H : In x (filter (str_eqb x) l)) by (apply filter_In; split; [exact I | apply str_eqb_refl]).
    destruct (filter (str_eqb x) l); [destruct H | cbn; lia].
  - destruct (filter (str_eqb x) l) as [|z f] eqn:F; [cbn; lia|]. intros _.
    assert (I : In z (filter (str_eqb x) l)) by (rewrite F; now left). apply filter_In in I as [I H].
    apply str_eqb_eq in H as <-. exact I.
Qed.

Lemma identities_or es : (exists ids, Forall2 (fun e s => class_identity resource_classifier e = Ok s) es ids)
  \/ exists x d, fold_res (count_event resource_classifier) es d = Raise x.
Proof.
  induction es as [|e es [(ids & F)|(x & d & R)]]; [left; exists []; constructor| |].
  - destruct (class_identity resource_classifier e) as [s|x] eqn:E.
    + left. exists (s :: ids). now constructor.
    + right. exists x, []. cbn. unfold count_event. now rewrite E.
  - right. apply count_events_raise in R as (pre & e' & post & -> & R & P).
    destruct (class_identity resource_classifier e) as [s|y] eqn:E.
    + exists x, []. apply count_events_raise. exists (e :: pre), e', post. repeat split; [exact R|].
      intros z [<-|I]; [now exists s | auto].
    + exists y, []. cbn. unfold count_event. now rewrite E.
Qed.

Lemma chart_totals logs names units : people_chart logs = Ok (names, units) ->
  NoDup names /\ List.length units = List.length names
  /\ list_sum units = List.length (all_events logs)
  /\ Forall (lt 0) units
  /\ forall p, In p names <-> exists e, In e (all_events logs) /\ resource_is e (Ok p).
Proof.
  intros H. destruct (identities_or (all_events logs)) as [(ids & F)|(x & d & R)].
  - assert (F' : Forall2 (fun e s => resource_is e (Ok s)) (all_events logs) ids).
    { eapply Forall2_imp; [|exact F]. intros e s E. now apply resource_identity. }
    rewrite (chart_ok _ _ F') in H. injection H as <- <-.
    split; [apply distinct_nodup|]. split; [apply map_length|].
    split; [rewrite sum_times; clear - F; induction F; cbn; congruence|]. split.
    + apply Forall_map, Forall_forall. intros p I. apply times_pos, distinct_in, I.
    + intros p. rewrite distinct_in. clear - F'. induction F' as [|e s es ids E F IH].
      * split; [intros [] | intros (e & [] & _)].
      * cbn. rewrite IH. split.
        -- intros [<-|(e' & I & R)]; [exists e; auto | exists e'; auto].
        -- intros (e' & [<-|I] & R); [left | right; exists e'; auto].
           apply resource_identity in R, E. congruence.
  - apply count_events_raise in R. exfalso.
    assert (X : people_chart logs = Raise x).
    { apply chart_raise. destruct R as (pre & e & post & E & R & P). exists pre, e, post.
      split; [exact E|]. split; [now apply resource_identity|]. intros y I. destruct (P y I) as (s & Q). exists s.
      now apply resource_identity. }
    congruence.
Qed.

(** ** After a file *)
Lemma chart_same logs logs' :
  Forall2 (fun e e' => class_identity resource_classifier e' = class_identity resource_classifier e)
    (all_events logs) (all_events logs') -> people_chart logs' = people_chart logs.
Proof.
  intros F. unfold people_chart. rewrite !count_people_events. f_equal.
  generalize (@nil (pystr * nat)). induction F as [|e e' es es' E F IH]; intros d; [reflexivity|].
  cbn [fold_res]. unfold count_event at 1 3. rewrite E. destruct (class_identity resource_classifier e); [apply IH|reflexivity].
Qed.

Lemma chart_survives mgr urlparse draw logs logs' :
  Forall2 (fun l l' => readable_log l /\ keyed_log l /\ calm_log l /\ zoned_for resource_classifier l
                       /\ stored mgr urlparse draw l l') logs logs' ->
  people_chart logs' = people_chart logs.
Proof.
  intros F. apply chart_same. unfold all_events.
  induction F as [|l l' ls ls' (R & K & C & Z & S) F IH]; [constructor|].
  cbn [flat_map]. apply Forall2_app; [|exact IH].
  destruct (stored_content mgr urlparse draw l l' R K C S) as [_ T].
  destruct R as (_ & _ & _ & R). unfold zoned_for in Z. clear - R Z T. revert R Z.
  induction T as [|t t' ts ts' S T IH]; intros R Z; [constructor|]. inversion_clear R. cbn [flat_map].
  apply Forall2_app; [|apply IH; [assumption | intros; eapply Z; eauto; now right]].
  destruct H as [_ H]. destruct S as [_ S].
  assert (Z' : forall e k a, In e (tr_events t) -> In k (cl_keys resource_classifier) ->
    sget k (ev_attrs e) = Some a -> zoned a) by (intros; eapply Z; eauto; now left).
  clear - H Z' S. revert H Z'. induction S as [|e e' es es' S F IH]; intros H Z; [constructor|].
  inversion_clear H. constructor; [|apply IH; [assumption | intros; eapply Z; eauto; now right]].
  apply (identity_same mgr); [assumption | intros k a; apply Z; now left | exact S].
Qed.
End WithFloatIO.
