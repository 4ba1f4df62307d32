(** The anonymiser on objects. *)
From Coq Require Import String NArith List Bool Arith Lia.
From Verif Require Import Base.PyBase Base.PyVal Model.Attr Model.Log Model.Heap Model.HeapAnon Spec.Clone Spec.Transform
  Proofs.BaseFacts Proofs.AttrInd Proofs.CloneFacts Proofs.ExampleFacts Proofs.AnonFacts Props.P_Clone Model.Examples Spec.HeapAnon.
Import ListNotations.

(** *** One attribute *)

Lemma hidden_key_b k : existsb (str_eqb k) [py "Resource"; py "org:resource"] = true <-> hidden_key k.
Proof.
  cbn [existsb]. rewrite orb_false_r, orb_true_iff, !str_eqb_eq. reflexivity.
Qed.
Lemma hide_at_out s a : match hide_at s a with
  | Ok s' => exists c k e v l m, read s a = Some (KAttr c k e v l m)
             /\ ((hidden_key k /\ is_collection c = false /\ s' = write a (KAttr c k e (PStr (py "UNKNOWN")) l m) s)
                 \/ (~ hidden_key k /\ s' = s))
  | Raise x => x = AttributeError /\ (~ is_attr (read s a) \/ stubborn (read s a))
  end.
Proof.
  unfold hide_at, attr_set_value, is_attr, stubborn.
  destruct (read s a) as [[c k e v l m|m|i m|m es|lc|cs|l|d|xs]|] eqn:R; try (split; [reflexivity|]; left; intros (? & ? & ? & ? & ? & ? & X); discriminate X).
  destruct (existsb _ _) eqn:E.
  - apply hidden_key_b in E. destruct (is_collection c) eqn:C.
    + split; [reflexivity|]. right. now exists c, k, e, v, l, m.
    + exists c, k, e, v, l, m. split; [reflexivity|]. left. auto.
  - exists c, k, e, v, l, m. split; [reflexivity|]. right. split; [|reflexivity]. rewrite <- hidden_key_b. congruence.
Qed.

(** *** The rest of the heap *)

Definition alike_cell (x y : option cell) : Prop :=
  match x with
  | Some (KAttr c k e _ l m) => exists w, y = Some (KAttr c k e w l m)
  | _ => y = x
  end.
Definition alike (s s' : st) : Prop := forall a, alike_cell (read s a) (read s' a).
Lemma alike_cell_refl x : alike_cell x x.
Proof. destruct x as [[]|]; cbn; eauto. Qed.
Lemma alike_refl s : alike s s.
Proof. intros a. apply alike_cell_refl. Qed.
Lemma alike_trans s t u : alike s t -> alike t u -> alike s u.
Proof.
  intros A B a. specialize (A a). specialize (B a). unfold alike_cell in *.
  destruct (read s a) as [[c k e v l m|m|i m|m es|lc|cs|l|d|xs]|]; try (now rewrite A in B).
  destruct A as (w & A). rewrite A in B. exact B.
Qed.
Lemma alike_hide s a s' : hide_at s a = Ok s' -> alike s s'.
Proof.
  intros H. assert (K := hide_at_out s a). rewrite H in K. destruct K as (c & k & e & v & l & m & R & [(_ & _ & ->)|(_ & ->)]); [|apply alike_refl].
  intros b. destruct (Nat.eq_dec a b) as [<-|N].
  - rewrite R, read_write_same by (exact (read_in _ _ _ R)). cbn. eauto.
  - rewrite read_write_other by exact N. apply alike_cell_refl.
Qed.
Lemma alike_fold l : forall s s', fold_res hide_at l s = Ok s' -> alike s s'.
Proof.
  induction l as [|a l IH]; intros s s' H; cbn in H; [injection H as <-; apply alike_refl|].
  destruct (hide_at s a) as [s1|] eqn:E; [|discriminate]. exact (alike_trans _ _ _ (alike_hide _ _ _ E) (IH _ _ H)).
Qed.

Lemma alike_map s s' m : alike s s' -> map_view s' m = map_view s m.
Proof.
  intros A. specialize (A m). unfold map_view, alike_cell in *.
  destruct (read s m) as [[c k e v l x|x|i x|x es|lc|cs|l|d|xs]|]; try (now rewrite A). now destruct A as (w & ->).
Qed.
Lemma alike_event s s' e : alike s s' -> event_view s' e = event_view s e.
Proof.
  intros A. assert (B := A e). unfold event_view, alike_cell in *.
  destruct (read s e) as [[c k ex v l x|x|i x|x es|lc|cs|l|d|xs]|]; try (now rewrite B).
  - now destruct B as (w & ->).
  - rewrite B. now rewrite (alike_map s s' x A).
Qed.
Lemma alike_trace s s' t : alike s s' -> trace_view s' t = trace_view s t.
Proof.
  intros A. assert (B := A t). unfold trace_view, alike_cell in *.
  destruct (read s t) as [[c k ex v l x|x|i x|x es|lc|cs|l|d|xs]|]; try (now rewrite B).
  - now destruct B as (w & ->).
  - rewrite B, (alike_map s s' x A). now rewrite (map_ext _ _ (fun e => alike_event s s' e A)).
Qed.
Lemma alike_log s s' l : alike s s' -> log_view s' l = log_view s l.
Proof.
  intros A. assert (B := A l). unfold log_view, alike_cell in *.
  destruct (read s l) as [[c k ex v ll x|x|i x|x es|lc|cs|ll|d|xs]|]; try (now rewrite B).
  - now destruct B as (w & ->).
  - rewrite B, (alike_map s s' _ A), (map_ext _ _ (fun e => alike_trace s s' e A)).
    destruct (map_view s (lc_map lc)); [|reflexivity]. destruct (all_some _); [|reflexivity].
    assert (Q : forall a, match read s a with Some (KAttr _ _ _ _ _ _) => exists c k e w l m, read s' a = Some (KAttr c k e w l m)
                          | x => read s' a = x end).
    { intros a. specialize (A a). unfold alike_cell in A. destruct (read s a) as [[]|]; auto. destruct A as (w & ->). eauto 8. }
    assert (Q1 := Q (lc_clfs lc)). assert (Q2 := Q (lc_gtrace lc)). assert (Q3 := Q (lc_gevent lc)).
    assert (Q4 := Q (lc_feat lc)). assert (Q5 := Q (lc_exts lc)). clear Q A B.
    destruct (read s (lc_clfs lc)) as [[]|]; try (now rewrite Q1); try (now destruct Q1 as (? & ? & ? & ? & ? & ? & ->)).
    rewrite Q1. destruct (read s (lc_gtrace lc)) as [[]|]; try (now rewrite Q2); try (now destruct Q2 as (? & ? & ? & ? & ? & ? & ->)).
    rewrite Q2. destruct (read s (lc_gevent lc)) as [[]|]; try (now rewrite Q3); try (now destruct Q3 as (? & ? & ? & ? & ? & ? & ->)).
    rewrite Q3. destruct (read s (lc_feat lc)) as [[]|]; try (now rewrite Q4); try (now destruct Q4 as (? & ? & ? & ? & ? & ? & ->)).
    rewrite Q4. destruct (read s (lc_exts lc)) as [[]|]; try (now rewrite Q5); try (now destruct Q5 as (? & ? & ? & ? & ? & ? & ->)).
Qed.

(** *** The loops are one loop *)

Lemma hide_in_one s m d : map_view s m = Some d -> hide_in m s = fold_res hide_at (map snd d) s.
Proof.
  unfold map_view, hide_in, get_map. destruct (read s m) as [[]|]; try discriminate. now intros [= <-].
Qed.
Lemma hide_event_one s e i d : event_view s e = Some (i, d) -> hide_event_at s e = fold_res hide_at (map snd d) s.
Proof.
  unfold event_view, hide_event_at, get_event. destruct (read s e) as [[]|]; try discriminate.
  destruct (map_view s m) as [d'|] eqn:M; [|discriminate]. intros [= <- <-]. cbn [bind snd]. now apply hide_in_one.
Qed.
Lemma hide_events_one s0 es : forall l s, alike s0 s -> all_some (map (event_view s0) es) = Some l ->
  fold_res hide_event_at es s = fold_res hide_at (flat_map (fun e => map snd (snd e)) l) s.
Proof.
  induction es as [|e es IH]; intros l s A H; cbn in H.
  - injection H as <-. reflexivity.
  - destruct (event_view s0 e) as [(i & d)|] eqn:V; [|discriminate]. destruct (all_some _) as [r|]; [|discriminate].
    injection H as <-. cbn [fold_res flat_map snd]. rewrite fold_res_app.
    rewrite (hide_event_one s e i d) by (rewrite (alike_event s0 s e A); exact V).
    destruct (fold_res hide_at (map snd d) s) as [s1|] eqn:F; [|reflexivity].
    apply IH; [|reflexivity]. exact (alike_trans _ _ _ A (alike_fold _ _ _ F)).
Qed.
Lemma hide_trace_one s t v : trace_view s t = Some v -> hide_trace_at s t = fold_res hide_at (trace_objects v) s.
Proof.
  unfold trace_view, hide_trace_at, get_trace. destruct (read s t) as [[]|]; try discriminate.
  destruct (map_view s m) as [d|] eqn:M; [|discriminate]. destruct (all_some _) as [l|] eqn:E; [|discriminate]. intros [= <-].
  cbn [bind fst snd]. unfold trace_objects. cbn [fst snd]. rewrite fold_res_app, (hide_in_one s m d M).
  destruct (fold_res hide_at (map snd d) s) as [s1|] eqn:F; [|reflexivity]. cbn [bind].
  apply (hide_events_one s); [exact (alike_fold _ _ _ F)|exact E].
Qed.
Lemma hide_traces_one s0 ts : forall l s, alike s0 s -> all_some (map (trace_view s0) ts) = Some l ->
  fold_res hide_trace_at ts s = fold_res hide_at (flat_map trace_objects l) s.
Proof.
  induction ts as [|t ts IH]; intros l s A H; cbn in H.
  - injection H as <-. reflexivity.
  - destruct (trace_view s0 t) as [v|] eqn:V; [|discriminate]. destruct (all_some _) as [r|]; [|discriminate].
    injection H as <-. cbn [fold_res flat_map]. rewrite fold_res_app.
    rewrite (hide_trace_one s t v) by (rewrite (alike_trace s0 s t A); exact V).
    destruct (fold_res hide_at (trace_objects v) s) as [s1|] eqn:F; [|reflexivity].
    apply IH; [|reflexivity]. exact (alike_trans _ _ _ A (alike_fold _ _ _ F)).
Qed.
Lemma hide_list_one s s0 a l : alike s0 s -> read s0 a = Some (KAttrs l) -> hide_list a s = fold_res hide_at l s.
Proof. intros A R. specialize (A a). rewrite R in A. cbn in A. unfold hide_list, get_attrs. now rewrite A. Qed.

Lemma anonymize_one s l v : log_view s l = Some v -> anonymize_at l s = fold_res hide_at (looked_at v) s.
Proof.
  unfold log_view, anonymize_at, get_log. destruct (read s l) as [[]|]; try discriminate.
  destruct (map_view s _) as [d|]; [|discriminate]. destruct (all_some _) as [ts|] eqn:T; [|discriminate].
  destruct (read s (lc_clfs _)) as [[]|]; try discriminate.
  destruct (read s (lc_gtrace _)) as [[]|] eqn:G; try discriminate.
  destruct (read s (lc_gevent _)) as [[]|] eqn:E; try discriminate.
  destruct (read s (lc_feat _)) as [[]|]; try discriminate.
  destruct (read s (lc_exts _)) as [[]|]; try discriminate. intros [= <-].
  unfold looked_at. cbn [bind v_gtrace v_gevent v_traces]. rewrite !fold_res_app.
  rewrite (hide_list_one s s _ _ (alike_refl s) G). match goal with |- context [fold_res hide_at ?x s] => destruct (fold_res hide_at x s) as [s1|] eqn:F1 end; [|reflexivity].
  assert (A1 := alike_fold _ _ _ F1). cbn [bind]. rewrite (hide_list_one s1 s _ _ A1 E), fold_res_app.
  match goal with |- context [fold_res hide_at ?x s1] => destruct (fold_res hide_at x s1) as [s2|] eqn:F2 end; [|reflexivity].
  cbn [bind]. apply (hide_traces_one s); [|exact T]. exact (alike_trans _ _ _ A1 (alike_fold _ _ _ F2)).
Qed.

(** *** The effect *)

Lemma veiled_none a x : veiled_cell [] a x x.
Proof. right. split; [|reflexivity]. intros (? & ? & ? & ? & ? & ? & _ & [] & _). Qed.
Lemma effect objs : forall s s', fold_res hide_at objs s = Ok s' -> forall a, veiled_cell objs a (read s a) (read s' a).
Proof.
  induction objs as [|b objs IH]; intros s s' H a; cbn in H; [injection H as <-; apply veiled_none|].
  destruct (hide_at s b) as [s1|] eqn:E; [|discriminate]. specialize (IH s1 s' H a).
  assert (K := hide_at_out s b). rewrite E in K. destruct K as (c & k & e & v & l & m & R & K).
  destruct (Nat.eq_dec b a) as [<-|N].
  - destruct K as [(Hk & _ & ->)|(Nk & ->)].
    + rewrite read_write_same in IH by (exact (read_in _ _ _ R)). left. exists c, k, e, v, l, m. split; [exact R|].
      split; [now left|]. split; [exact Hk|]. destruct IH as [(c' & k' & e' & v' & l' & m' & [= <- <- <- <- <- <-] & _ & _ & Y)|[_ Y]]; exact Y.
    + destruct IH as [(c' & k' & e' & v' & l' & m' & X & _ & Hk & _)|[_ Y]]; [rewrite R in X; injection X as <- <- <- <- <- <-; contradiction|].
      right. split; [|exact Y]. intros (c' & k' & e' & v' & l' & m' & X & _ & Hk). rewrite R in X. injection X as <- <- <- <- <- <-. contradiction.
  - assert (Q : read s1 a = read s a).
    { destruct K as [(_ & _ & ->)|(_ & ->)]; [now apply read_write_other|reflexivity]. }
    rewrite Q in IH. destruct IH as [(c' & k' & e' & v' & l' & m' & X & I & Hk & Y)|[Z Y]].
    + left. exists c', k', e', v', l', m'. split; [exact X|]. split; [now right|]. auto.
    + right. split; [|exact Y]. intros (c' & k' & e' & v' & l' & m' & X & [I|I] & Hk); [contradiction|]. apply Z.
      exists c', k', e', v', l', m'. auto.
Qed.
Lemma alike_stubborn s s' a : alike s s' -> (stubborn (read s' a) <-> stubborn (read s a)) /\ (is_attr (read s' a) <-> is_attr (read s a)).
Proof.
  intros A. specialize (A a). unfold alike_cell in A. unfold stubborn, is_attr.
  destruct (read s a) as [[c k e v l m|m|i m|m es|lc|cs|l|d|xs]|]; try (rewrite A; tauto).
  destruct A as (w & ->). split; split.
  - intros (? & ? & ? & ? & ? & ? & [= <- <- <- <- <- <-] & H). exists c, k, e, v, l, m. auto.
  - intros (? & ? & ? & ? & ? & ? & [= <- <- <- <- <- <-] & H). exists c, k, e, w, l, m. auto.
  - eauto 8.
  - eauto 8.
Qed.
Lemma outcome objs : forall s,
  match fold_res hide_at objs s with
  | Ok _ => forall a, In a objs -> is_attr (read s a) /\ ~ stubborn (read s a)
  | Raise x => x = AttributeError /\ exists a, In a objs /\ (~ is_attr (read s a) \/ stubborn (read s a))
  end.
Proof.
  induction objs as [|b objs IH]; intros s; cbn [fold_res]; [intros a []|].
  assert (K := hide_at_out s b). destruct (hide_at s b) as [s1|x] eqn:E.
  - assert (A := alike_hide _ _ _ E). specialize (IH s1). destruct (fold_res hide_at objs s1) as [s'|x].
    + intros a [<-|I].
      * destruct K as (c & k & e & v & l & m & R & K). rewrite R. split; [unfold is_attr; eauto 8|].
        intros (? & ? & ? & ? & ? & ? & [= <- <- <- <- <- <-] & Hk & C). destruct K as [(_ & C' & _)|(N & _)]; [congruence|contradiction].
      * destruct (alike_stubborn _ _ a A) as [S T]. rewrite <- S, <- T. now apply IH.
    + destruct IH as (-> & a & I & H). split; [reflexivity|]. exists a. split; [now right|].
      destruct (alike_stubborn _ _ a A) as [S T]. now rewrite <- S, <- T.
  - destruct K as (-> & K). split; [reflexivity|]. exists b. split; [now left|exact K].
Qed.

(** *** Clones *)

Lemma looked_shape v w : log_shape v = log_shape w -> looked_at v = looked_at w.
Proof.
  unfold log_shape, looked_at. intros [= _ T _ -> -> _ _]. f_equal. f_equal.
  revert T. generalize (v_traces w). induction (v_traces v) as [|t ts IH]; intros [|u us] T; try discriminate; [reflexivity|].
  cbn in T. injection T as H1 H2 T. cbn [flat_map]. f_equal; [|now apply IH]. unfold trace_objects. rewrite H1. f_equal.
  revert H2. generalize (snd u). induction (snd t) as [|e es IHe]; intros [|f fs] H; try discriminate; [reflexivity|].
  cbn in H. injection H as H3 H. cbn. rewrite H3. f_equal. now apply IHe.
Qed.
Lemma clone_anon draw s l v l' s' : heap_wf s -> log_view s l = Some v -> log_clone draw l s = Ok (l', s') ->
  log_view s' l = Some v /\ anonymize_at l' s' = anonymize_at l s'.
Proof.
  intros W V C. destruct (C48_independent draw s l v l' s' s' W V C) as [I _].
  assert (V' : log_view s' l = Some v) by (apply I; constructor). split; [exact V'|].
  destruct (C48_log draw s l v W V) as (l2 & s2 & v2 & C2 & V2 & S2 & _). rewrite C in C2. injection C2 as <- <-.
  rewrite (anonymize_one s' l' v2 V2), (anonymize_one s' l v V'). now rewrite (looked_shape _ _ S2).
Qed.

(** *** Trees *)

Lemma F2_imp {A B} (P Q : A -> B -> Prop) l m : (forall a b, In a l -> In b m -> P a b -> Q a b) -> Forall2 P l m -> Forall2 Q l m.
Proof.
  intros H F. induction F as [|a b l m K F IH]; constructor; [apply H; [now left|now left|exact K]|].
  apply IH. intros x y X Y. apply H; now right.
Qed.
Lemma map_kept s s' m d : alike s s' -> read s m = Some (KMap d) -> read s' m = Some (KMap d).
Proof. intros A R. specialize (A m). rewrite R in A. exact A. Qed.

(** The objects strictly below are as they were. *)
Lemma frame s s' t : alike s s' -> forall a, (forall b, b = a \/ below s a b -> read s' b = read s b) ->
  attr_tree s a t -> attr_tree s' a t.
Proof.
  intros A. induction t as [c k e v cs ms IHc IHm] using attr_ind2. intros a H T. inversion T as [? ? ? ? ? coll meta d ? ? R M C D]; subst.
  apply (tree_node s' a c k e v coll meta d cs ms).
  - rewrite (H a (or_introl eq_refl)). exact R.
  - exact (map_kept s s' meta d A M).
  - revert C. apply F2_imp. intros b t I J Tb. rewrite Forall_forall in IHc. apply (IHc t J b); [|exact Tb].
    assert (B : below s a b) by exact (below_member s a b _ _ _ _ _ _ R I).
    intros x [->|X]; apply H; right; [exact B|exact (below_deeper s a b x B X)].
  - revert D. apply F2_imp. intros (kb & b) (kt & t) I J (Ek & Tb). cbn in *. split; [exact Ek|].
    rewrite Forall_forall in IHm. apply (IHm (kt, t) J b); [|exact Tb].
    assert (B : below s a b) by (apply (below_nested s a b _ _ _ _ _ _ _ R M), in_map_iff; now exists (kb, b)).
    intros x [->|X]; apply H; right; [exact B|exact (below_deeper s a b x B X)].
Qed.

Section Run.
Variables (s s' : st) (v : log_content).
Hypothesis Done : fold_res hide_at (looked_at v) s = Ok s'.
Hypothesis Top : on_top s v.

Lemma unchanged b : (forall c k e w l m, In b (looked_at v) -> read s b = Some (KAttr c k e w l m) -> ~ hidden_key k) -> read s' b = read s b.
Proof.
  intros N. destruct (effect _ _ _ Done b) as [(c & k & e & w & l & m & R & I & K & _)|[_ Y]]; [|exact Y].
  destruct (N c k e w l m I R K).
Qed.
Lemma below_kept a b : In a (map snd (v_attrs v) ++ looked_at v) -> below s a b -> read s' b = read s b.
Proof. intros I B. apply unchanged. intros c k e w l m J R K. exact (proj2 (Top b c k e w l m J R K) a I B). Qed.
Lemma own_kept a t : In a (map snd (v_attrs v)) -> attr_tree s a t -> attr_tree s' a t.
Proof.
  intros I. apply (frame s s' t (alike_fold _ _ _ Done) a). intros b [->|B].
  - apply unchanged. intros c k e w l m J R K. exact (proj1 (Top a c k e w l m J R K) I).
  - apply (below_kept a); [apply in_or_app; now left|exact B].
Qed.
Lemma hide_tree a t : In a (looked_at v) -> attr_tree s a t -> exists t', hide t = Ok t' /\ attr_tree s' a t'.
Proof.
  intros I T. assert (A := alike_fold _ _ _ Done). assert (O := outcome (looked_at v) s). rewrite Done in O. destruct (O a I) as [_ NS].
  inversion T as [? c k e w coll meta d cs ms R M C D]; subst.
  assert (IO : In a (map snd (v_attrs v) ++ looked_at v)) by (apply in_or_app; now right).
  assert (C' : Forall2 (attr_tree s') coll cs).
  { revert C. apply F2_imp. intros b t J _. apply (frame s s' t A b).
    assert (B : below s a b) by exact (below_member s a b _ _ _ _ _ _ R J).
    intros x [->|X]; apply (below_kept a); auto. exact (below_deeper s a b x B X). }
  assert (D' : Forall2 (fun x y => fst x = fst y /\ attr_tree s' (snd x) (snd y)) d ms).
  { revert D. apply F2_imp. intros (kb & b) (kt & t) J _ (Ek & Tb). cbn in *. split; [exact Ek|]. revert Tb. apply (frame s s' t A b).
    assert (B : below s a b) by (apply (below_nested s a b _ _ _ _ _ _ _ R M), in_map_iff; now exists (kb, b)).
    intros x [->|X]; apply (below_kept a); auto. exact (below_deeper s a b x B X). }
  unfold hide, is_resource. cbn [a_key]. destruct (existsb _ _) eqn:E.
  - apply hidden_key_b in E. cbn [hide_value]. destruct (is_collection c) eqn:Cc.
    + destruct NS. exists c, k, e, w, coll, meta. auto.
    + eexists. split; [reflexivity|]. apply (tree_node s' a c k e _ coll meta d cs ms); auto.
      * destruct (effect _ _ _ Done a) as [(c2 & k2 & e2 & w2 & l2 & m2 & R2 & _ & _ & Y)|[N _]].
        -- rewrite R in R2. injection R2 as <- <- <- <- <- <-. exact Y.
        -- destruct N. exists c, k, e, w, coll, meta. auto.
      * exact (map_kept s s' meta d A M).
  - eexists. split; [reflexivity|]. apply (tree_node s' a c k e w coll meta d cs ms); auto.
    + rewrite <- R. apply unchanged. intros c2 k2 e2 w2 l2 m2 _ R2 K. rewrite R in R2. injection R2 as <- <- <- <- <- <-.
      apply hidden_key_b in K. congruence.
    + exact (map_kept s s' meta d A M).
Qed.

Lemma list_tree {A B} (f : B -> res B) (P P' : A -> B -> Prop) l ts : (forall a t, In a l -> P a t -> exists t', f t = Ok t' /\ P' a t') ->
  Forall2 P l ts -> exists ts', map_res f ts = Ok ts' /\ Forall2 P' l ts'.
Proof.
  intros H F. induction F as [|a t l ts K F IH]; [exists []; split; [reflexivity|constructor]|].
  destruct (H a t (or_introl eq_refl) K) as (t' & E & K'). destruct IH as (ts' & E' & F'); [intros; apply H; [now right|assumption]|].
  exists (t' :: ts'). cbn. rewrite E, E'. split; [reflexivity|now constructor].
Qed.
Lemma hide_map_tree d m : incl (map snd d) (looked_at v) -> map_tree s d m -> exists m', hide_map m = Ok m' /\ map_tree s' d m'.
Proof.
  intros I. unfold hide_map, map_tree. apply list_tree. intros (ka & a) (kt & t) J (Ek & T). cbn in *. subst.
  destruct (hide_tree a t) as (t' & E & T'); [apply I, in_map_iff; now exists (kt, a)|exact T|]. rewrite E. exists (kt, t'). now split.
Qed.
Lemma hide_trace_tree w t : incl (trace_objects w) (looked_at v) -> trace_tree s w t -> exists t', hide_trace t = Ok t' /\ trace_tree s' w t'.
Proof.
  intros I [M F]. destruct (hide_map_tree (fst w) (tr_attrs t)) as (m' & E & M'); [|exact M|].
  { intros a J. apply I. apply in_or_app. now left. }
  assert (K : exists es', map_res hide_event (tr_events t) = Ok es' /\ Forall2 (event_tree s') (snd w) es').
  { revert F. apply list_tree. intros (i & d) e J [Ei Md]. cbn in *. destruct (hide_map_tree d (ev_attrs e)) as (m2 & E2 & M2); [|exact Md|].
    - intros a Ja. apply I. apply in_or_app. right. apply in_flat_map. exists (i, d). auto.
    - exists (mk_event (ev_id e) m2). unfold hide_event. rewrite E2. split; [reflexivity|now split]. }
  destruct K as (es' & E' & F'). exists (mk_trace m' es'). unfold hide_trace. rewrite E. cbn [bind]. rewrite E'. split; [reflexivity|now split].
Qed.
Lemma hide_log_tree x : log_tree s v x -> exists x', anonymize x = Ok x' /\ log_tree s' v x'.
Proof.
  intros (M & T & X & C & G & E & F).
  destruct (list_tree hide (attr_tree s) (attr_tree s') (v_gtrace v) (lg_gtrace x)) as (gt & E1 & F1); [|exact G|].
  { intros a t I. apply hide_tree. apply in_or_app. now left. }
  destruct (list_tree hide (attr_tree s) (attr_tree s') (v_gevent v) (lg_gevent x)) as (ge & E2 & F2); [|exact E|].
  { intros a t I. apply hide_tree. apply in_or_app. right. apply in_or_app. now left. }
  destruct (list_tree hide_trace (trace_tree s) (trace_tree s') (v_traces v) (lg_traces x)) as (ts & E3 & F3); [|exact T|].
  { intros w t I. apply hide_trace_tree. intros a J. apply in_or_app. right. apply in_or_app. right. apply in_flat_map. now exists w. }
  exists (mk_log (lg_attrs x) ts (lg_exts x) (lg_classifiers x) gt ge (lg_features x)). unfold anonymize. rewrite E1. cbn [bind].
  rewrite E2. cbn [bind]. rewrite E3. split; [reflexivity|]. repeat split; auto.
  cbn [lg_attrs]. revert M. unfold map_tree. apply F2_imp. intros (ka & a) (kt & t) I _ (Ek & Tt). split; [exact Ek|]. apply own_kept; [|exact Tt].
  apply in_map_iff. now exists (ka, a).
Qed.
End Run.

Lemma F2_find {A B} (P : A -> B -> Prop) l m a : Forall2 P l m -> In a l -> exists b, In b m /\ P a b.
Proof.
  induction 1 as [|x y l m K F IH]; intros []; [subst; exists y; split; [now left|exact K]|].
  destruct (IH H) as (b & I & Q). exists b. split; [now right|exact Q].
Qed.
Lemma map_find s d m a : map_tree s d m -> In a (map snd d) -> exists t, In t (map snd m) /\ attr_tree s a t.
Proof.
  intros M I. apply in_map_iff in I. destruct I as ((k & a') & <- & I). destruct (F2_find _ _ _ _ M I) as ((k' & t) & J & (_ & T)).
  exists t. split; [apply in_map_iff; now exists (k', t)|exact T].
Qed.
Lemma top_tree s v x a : log_tree s v x -> In a (looked_at v) -> exists t, In t (top_attrs x) /\ attr_tree s a t.
Proof.
  intros (M & T & _ & _ & G & E & _) I. unfold looked_at in I. rewrite !in_app_iff, in_flat_map in I.
  destruct I as [I|[I|(w & W & I)]].
  - destruct (F2_find _ _ _ _ G I) as (t & J & K). exists t. split; [apply in_top; auto|exact K].
  - destruct (F2_find _ _ _ _ E I) as (t & J & K). exists t. split; [apply in_top; auto|exact K].
  - destruct (F2_find _ _ _ _ T W) as (t & J & (Kt & Ke)). unfold trace_objects in I. rewrite in_app_iff, in_flat_map in I.
    destruct I as [I|((i & d) & D & I)].
    + destruct (map_find _ _ _ _ Kt I) as (u & Iu & U). exists u. split; [apply in_top; eauto 6|exact U].
    + destruct (F2_find _ _ _ _ Ke D) as (e & Ie & (_ & Me)). destruct (map_find _ _ _ _ Me I) as (u & Iu & U).
      exists u. split; [apply in_top; eauto 8|exact U].
Qed.
Lemma tree_refines s l v x : log_view s l = Some v -> log_tree s v x -> on_top s v ->
  match anonymize x with
  | Ok x' => exists s', anonymize_at l s = Ok s' /\ log_view s' l = Some v /\ log_tree s' v x'
  | Raise e => anonymize_at l s = Raise e
  end.
Proof.
  intros V T P. rewrite (anonymize_one s l v V). assert (O := outcome (looked_at v) s).
  destruct (fold_res hide_at (looked_at v) s) as [s'|e] eqn:F.
  - destruct (hide_log_tree s s' v F P x T) as (x' & -> & T'). exists s'. split; [reflexivity|]. split; [|exact T'].
    rewrite (alike_log s s' l (alike_fold _ _ _ F)). exact V.
  - destruct O as (-> & a & I & B). destruct (top_tree s v x a T I) as (t & J & Ta).
    destruct (anonymize_main x) as [R _]. rewrite R; [reflexivity|]. exists t. split; [exact J|].
    inversion Ta as [? c k e w coll meta d cs ms Rd M C D]; subst. destruct B as [B|(c2 & k2 & e2 & w2 & l2 & m2 & R2 & K & Cc)].
    + destruct B. rewrite Rd. unfold is_attr. eauto 8.
    + rewrite Rd in R2. injection R2 as <- <- <- <- <- <-. now split.
Qed.

(** *** Nothing left to do *)

Lemma update_same {A} (l : list A) i x : nth_error l i = Some x -> update i (fun _ => x) l = l.
Proof. revert i. induction l as [|y l IH]; intros [|i]; cbn; intros H; try discriminate; [now injection H as ->|]. now rewrite IH. Qed.
Lemma hide_settled objs s : (forall a, In a objs -> exists c k e v l m, read s a = Some (KAttr c k e v l m)
    /\ (hidden_key k -> is_collection c = false /\ v = PStr (py "UNKNOWN"))) -> fold_res hide_at objs s = Ok s.
Proof.
  induction objs as [|a objs IH]; intros H; [reflexivity|]. cbn [fold_res].
  destruct (H a (or_introl eq_refl)) as (c & k & e & v & l & m & R & K).
  assert (E : hide_at s a = Ok s).
  { unfold hide_at. rewrite R. destruct (existsb _ _) eqn:B; [|reflexivity]. apply hidden_key_b in B. destruct (K B) as [C ->].
    unfold attr_set_value. rewrite R, C. unfold write. unfold read in R. rewrite (update_same _ _ _ R). now destruct s. }
  rewrite E. cbn [bind]. apply IH. intros b I. apply H. now right.
Qed.

(** *** Logs with common objects *)

Lemma settled_after objs s s' a : fold_res hide_at objs s = Ok s' -> In a objs -> exists c k e v l m, read s' a = Some (KAttr c k e v l m)
  /\ (hidden_key k -> is_collection c = false /\ v = PStr (py "UNKNOWN")).
Proof.
  intros H I. assert (O := outcome objs s). rewrite H in O. destruct (O a I) as [(c & k & e & w & ll & m & R) NS].
  destruct (effect _ _ _ H a) as [(c2 & k2 & e2 & w2 & l2 & m2 & R2 & _ & K2 & Y)|[Nn Y]].
  - exists c2, k2, e2, (PStr (py "UNKNOWN")), l2, m2. split; [exact Y|]. intros _. split; [|reflexivity].
    destruct (is_collection c2) eqn:C; [|reflexivity]. destruct NS. exists c2, k2, e2, w2, l2, m2. auto.
  - exists c, k, e, w, ll, m. rewrite Y. split; [exact R|]. intros K. destruct Nn. exists c, k, e, w, ll, m. auto.
Qed.
Lemma anon_other s l v m w s' : log_view s l = Some v -> log_view s m = Some w -> anonymize_at m s = Ok s' ->
  log_view s' l = Some v
  /\ (incl (looked_at v) (looked_at w) -> anonymize_at l s' = Ok s')
  /\ (forall a, In a (looked_at v) -> ~ In a (looked_at w) -> read s' a = read s a).
Proof.
  intros V W H. rewrite (anonymize_one s m w W) in H. assert (V' : log_view s' l = Some v).
  { rewrite (alike_log s s' l (alike_fold _ _ _ H)). exact V. }
  split; [exact V'|]. split.
  - intros I. rewrite (anonymize_one s' l v V'). apply hide_settled. intros a J. exact (settled_after _ _ _ a H (I a J)).
  - intros a _ N. destruct (effect _ _ _ H a) as [(c & k & e & x & ll & mm & _ & J & _)|[_ Y]]; [destruct (N J)|exact Y].
Qed.
Lemma anon_again s l v s' : log_view s l = Some v -> anonymize_at l s = Ok s' -> anonymize_at l s' = Ok s'.
Proof. intros V H. apply (proj1 (proj2 (anon_other s l v l v s' V V H))). apply incl_refl. Qed.
