(** Equality of elements and the list methods that use it. *)
From Coq Require Import Arith NArith List Bool Lia.
From Verif Require Import Base.PyBase Model.Log Model.Heap Model.Elements Spec.Clone Spec.Elements
  Proofs.CloneFacts Proofs.CloneMain.
Import ListNotations.

Lemma event_view_read s a i d : event_view s a = Some (i, d) -> exists m, read s a = Some (KEvent i m).
Proof.
  unfold event_view. destruct (read s a) as [c|]; [|discriminate]. destruct c; try discriminate.
  destruct (map_view s m); [|discriminate]. intros H. injection H as -> _. now exists m.
Qed.

Lemma trace_view_read s a d es : trace_view s a = Some (d, es) ->
  exists m l, read s a = Some (KTrace m l) /\ Forall2 (fun x v => event_view s x = Some v) l es.
Proof.
  unfold trace_view. destruct (read s a) as [c|]; [|discriminate]. destruct c; try discriminate.
  destruct (map_view s m); [|discriminate].
  destruct (all_some (map (event_view s) events)) as [vs|] eqn:E; [|discriminate].
  intros H. injection H as -> ->. exists m, events. split; [easy|]. now apply all_some_Forall2.
Qed.

Lemma log_view_read s a v : log_view s a = Some v ->
  exists x, read s a = Some (KLog x) /\ Forall2 (fun t w => trace_view s t = Some w) (lc_traces x) (v_traces v).
Proof.
  unfold log_view. destruct (read s a) as [c|]; [|discriminate]. destruct c; try discriminate.
  destruct (map_view s (lc_map l)) as [dm|]; [|discriminate].
  destruct (all_some (map (trace_view s) (lc_traces l))) as [ts|] eqn:E; [|discriminate].
  destruct (read s (lc_clfs l)) as [c|]; [|discriminate]. destruct c; try discriminate.
  destruct (read s (lc_gtrace l)) as [c|]; [|discriminate]. destruct c; try discriminate.
  destruct (read s (lc_gevent l)) as [c|]; [|discriminate]. destruct c; try discriminate.
  destruct (read s (lc_feat l)) as [c|]; [|discriminate]. destruct c; try discriminate.
  destruct (read s (lc_exts l)) as [c|]; [|discriminate]. destruct c; try discriminate.
  intros H. injection H as <-. exists l. split; [easy|]. cbn. now apply all_some_Forall2.
Qed.

(** Pointwise equality of lists whose items are recognised by a key. *)
Lemma list_eq_keys {V K} (eq : addr -> addr -> bool) (R : addr -> V -> Prop) (key : V -> K) :
  (forall a v w, R a v -> R a w -> key v = key w) ->
  (forall a b v w, R a v -> R b w -> eq a b = true <-> key v = key w) ->
  forall l l' vs ws, Forall2 R l vs -> Forall2 R l' ws ->
  list_eq eq l l' = true <-> map key vs = map key ws.
Proof.
  intros U E l l' vs ws H. revert l' ws. unfold list_eq.
  induction H as [|a v l vs Ra F IH]; intros l' ws H'; inversion H' as [|b w l1 ws1 Rb F' e1 e2]; subst; cbn; try easy.
  specialize (IH l1 ws1 F'). rewrite andb_true_iff in IH.
  rewrite !andb_true_iff. change (same_or eq a b) with (Nat.eqb a b || eq a b). rewrite orb_true_iff, !Nat.eqb_eq. rewrite Nat.eqb_eq in IH.
  specialize (E a b v w Ra Rb). split.
  - intros [L [M T]]. f_equal; [destruct M as [->|M]; [now apply (U b)|now apply E] | apply IH; auto].
  - intros H1. injection H1 as K1 K2. apply IH in K2. destruct K2 as [L T]. apply E in K1. auto.
Qed.

Lemma same_view_key {V K} (view : addr -> option V) (key : V -> K) a v w :
  view a = Some v -> view a = Some w -> key v = key w.
Proof. congruence. Qed.

Theorem event_equal n s a b i d j d' : event_view s a = Some (i, d) -> event_view s b = Some (j, d') ->
  obj_eq n s a b = true <-> i = j.
Proof.
  intros A B. destruct (event_view_read _ _ _ _ A) as [m R]. destruct (event_view_read _ _ _ _ B) as [m' R'].
  destruct n; cbn [obj_eq]; rewrite R, R'; apply N.eqb_eq.
Qed.

Theorem trace_equal n s a b v w : trace_view s a = Some v -> trace_view s b = Some w ->
  obj_eq (S n) s a b = true <-> trace_ids v = trace_ids w.
Proof.
  destruct v as [d es], w as [d' es']. intros A B.
  destruct (trace_view_read _ _ _ _ A) as (m & l & R & F). destruct (trace_view_read _ _ _ _ B) as (m' & l' & R' & F').
  cbn [obj_eq]. rewrite R, R'. cbn [items]. unfold trace_ids. cbn [snd].
  eapply (list_eq_keys _ (fun x v => event_view s x = Some v) fst); eauto.
  - intros x p q H1 H2. congruence.
  - intros x y [i p] [j q] H1 H2. now apply (event_equal n s x y i p j q).
Qed.

Theorem log_equal s a b v w : log_view s a = Some v -> log_view s b = Some w ->
  elem_eq s a b = true <-> ids_by_trace v = ids_by_trace w.
Proof.
  intros A B. destruct (log_view_read _ _ _ A) as (x & R & F). destruct (log_view_read _ _ _ B) as (y & R' & F').
  unfold elem_eq. cbn [obj_eq]. rewrite R, R'. cbn [items]. unfold ids_by_trace.
  eapply (list_eq_keys _ (fun x v => trace_view s x = Some v) trace_ids); eauto.
  - intros z p q H1 H2. congruence.
  - intros z u p q H1 H2. now apply (trace_equal 0).
Qed.

Lemma list_eq_apart (eq : addr -> addr -> bool) (P Q : addr -> Prop) l l' :
  (forall a b, P a -> Q b -> a <> b /\ eq a b = false) -> Forall P l -> Forall Q l' ->
  list_eq eq l l' = true <-> l = [] /\ l' = [].
Proof.
  intros H F F'. unfold list_eq. destruct l as [|a l], l' as [|b l']; cbn; try easy.
  inversion F as [|? ? Pa _]; subst. inversion F' as [|? ? Qb _]; subst. destruct (H a b Pa Qb) as [N E].
  unfold same_or. rewrite E. apply Nat.eqb_neq in N. rewrite N. cbn. rewrite andb_false_r. easy.
Qed.

Definition is_trace (s : st) (a : addr) : Prop := exists m l, read s a = Some (KTrace m l).
Definition is_event (s : st) (a : addr) : Prop := exists i m, read s a = Some (KEvent i m).

Lemma event_trace_apart n s e t : is_event s e -> is_trace s t ->
  e <> t /\ obj_eq n s e t = false /\ obj_eq n s t e = false.
Proof.
  intros (i & m & R) (m' & l & R'). assert (e <> t) as N by (intros ->; congruence).
  split; [easy|]. assert (t <> e) as N' by congruence. apply Nat.eqb_neq in N, N'.
  destruct n; cbn [obj_eq]; rewrite R, R'; cbn [items]; now rewrite ?N, ?N'.
Qed.

Lemma views_events s l es : Forall2 (fun x v => event_view s x = Some v) l es -> Forall (is_event s) l.
Proof.
  induction 1 as [|x [i d] l es V F IH]; constructor; [|easy].
  destruct (event_view_read _ _ _ _ V) as [m R]. now exists i, m.
Qed.
Lemma views_traces s l ts : Forall2 (fun x v => trace_view s x = Some v) l ts -> Forall (is_trace s) l.
Proof.
  induction 1 as [|x [d es] l ts V F IH]; constructor; [|easy].
  destruct (trace_view_read _ _ _ _ V) as (m & k & R & _). now exists m, k.
Qed.

Lemma Forall2_empty {A B} (P : A -> B -> Prop) l l' : Forall2 P l l' -> l = [] <-> l' = [].
Proof. destruct 1; split; easy. Qed.

Theorem mixed_equal s e l t i d v w :
  event_view s e = Some (i, d) -> trace_view s t = Some w -> log_view s l = Some v ->
  elem_eq s e t = false /\ elem_eq s t e = false /\ elem_eq s e l = false /\ elem_eq s l e = false
  /\ (elem_eq s l t = true <-> v_traces v = [] /\ trace_ids w = [])
  /\ (elem_eq s t l = true <-> v_traces v = [] /\ trace_ids w = []).
Proof.
  destruct w as [dt es]. intros E T L. destruct (event_view_read _ _ _ _ E) as [m R].
  destruct (trace_view_read _ _ _ _ T) as (mt & it & Rt & Ft). destruct (log_view_read _ _ _ L) as (x & Rl & Fl).
  assert (trace_ids (dt, es) = [] <-> it = []) as Y.
  { unfold trace_ids. cbn [snd]. rewrite (Forall2_empty _ _ _ Ft). split; [apply map_eq_nil | now intros ->]. }
  rewrite Y, <- (Forall2_empty _ _ _ Fl).
  apply views_events in Ft. apply views_traces in Fl.
  assert (e <> t /\ e <> l) as [N1 N2] by (split; intros ->; congruence).
  unfold elem_eq. cbn [obj_eq]. rewrite R, Rt, Rl. cbn [items].
  repeat (split; [apply Nat.eqb_neq; congruence|]). split.
  - apply (list_eq_apart _ (is_trace s) (is_event s)); auto.
    intros a b A B. destruct (event_trace_apart 1 s b a B A) as (N & _ & O). cbn in O. now split; [congruence|].
  - rewrite (list_eq_apart _ (is_event s) (is_trace s)); auto; [tauto|].
    intros a b A B. destruct (event_trace_apart 1 s a b A B) as (N & O & _). now split; [congruence|].
Qed.

(** ** The list methods *)

Lemma find_index_spec eq x l :
  match find_index eq x l with
  | Some i => first_place (fun a => same_or eq a x = true) l i
  | None => Forall (fun a => same_or eq a x = false) l
  end.
Proof.
  induction l as [|a t IH]; cbn; [constructor|].
  destruct (same_or eq a x) eqn:E.
  - split; [now exists a|]. intros j y H. lia.
  - destruct (find_index eq x t) as [i|]; cbn.
    + destruct IH as [(y & Y & P) F]. split; [now exists y|].
      intros [|j] z H Z; [cbn in Z; injection Z as <-; congruence|]. apply (F j); [lia|easy].
    + now constructor.
Qed.

Lemma Forall2_nth {A B} (P : A -> B -> Prop) l l' : Forall2 P l l' ->
  forall i x y, nth_error l i = Some x -> nth_error l' i = Some y -> P x y.
Proof.
  induction 1; intros [|i] a b; cbn; try discriminate; [congruence|]. intros. eapply IHForall2; eauto.
Qed.
Lemma Forall2_nth_l {A B} (P : A -> B -> Prop) l l' : Forall2 P l l' ->
  forall i x, nth_error l i = Some x -> exists y, nth_error l' i = Some y.
Proof. induction 1; intros [|i] a; cbn; try discriminate; eauto. Qed.
Lemma Forall2_nth_r {A B} (P : A -> B -> Prop) l l' : Forall2 P l l' ->
  forall i y, nth_error l' i = Some y -> exists x, nth_error l i = Some x.
Proof. induction 1; intros [|i] a; cbn; try discriminate; eauto. Qed.

Lemma first_place_transfer {A B} (R : A -> B -> Prop) (P : A -> Prop) (Q : B -> Prop) l l' i :
  Forall2 R l l' -> (forall a b, R a b -> P a <-> Q b) -> first_place P l i <-> first_place Q l' i.
Proof.
  intros F H. split; intros [(x & X & S) M].
  - split.
    + destruct (Forall2_nth_l _ _ _ F _ _ X) as [y Y]. exists y. split; [easy|].
      now apply (H x y (Forall2_nth _ _ _ F _ _ _ X Y)).
    + intros j y L Y S'. destruct (Forall2_nth_r _ _ _ F _ _ Y) as [z Z].
      apply (M j z L Z). now apply (H z y (Forall2_nth _ _ _ F _ _ _ Z Y)).
  - split.
    + destruct (Forall2_nth_r _ _ _ F _ _ X) as [y Y]. exists y. split; [easy|].
      now apply (H y x (Forall2_nth _ _ _ F _ _ _ Y X)).
    + intros j y L Y S'. destruct (Forall2_nth_l _ _ _ F _ _ Y) as [z Z].
      apply (M j z L Z). now apply (H y z (Forall2_nth _ _ _ F _ _ _ Y Z)).
Qed.

Lemma first_place_unique {A} (P : A -> Prop) l i j : first_place P l i -> first_place P l j -> i = j.
Proof.
  intros [(x & X & Px) M] [(y & Y & Py) M']. destruct (Nat.lt_trichotomy i j) as [H|[H|H]]; [|easy|].
  - exfalso. now apply (M' i x H X).
  - exfalso. now apply (M j y H Y).
Qed.

Lemma same_trace s a x w u : trace_view s a = Some w -> trace_view s x = Some u ->
  same_or (elem_eq s) a x = true <-> trace_ids w = trace_ids u.
Proof.
  intros A X. unfold same_or. rewrite orb_true_iff, Nat.eqb_eq.
  rewrite (trace_equal 1 s a x w u A X). split; [|auto]. intros [->|E]; [congruence|easy].
Qed.

Theorem log_index s l t v w i : log_view s l = Some v -> trace_view s t = Some w ->
  elem_index s l t = Ok i <-> first_place (fun u => trace_ids u = trace_ids w) (v_traces v) i.
Proof.
  intros L T. destruct (log_view_read _ _ _ L) as (x & R & F).
  unfold elem_index, get_items. rewrite R. cbn [items bind].
  rewrite <- (first_place_transfer _ (fun a => same_or (elem_eq s) a t = true) _ (lc_traces x) (v_traces v) i F).
  2:{ intros a b A. now apply same_trace. }
  pose proof (find_index_spec (elem_eq s) t (lc_traces x)) as S.
  destruct (find_index (elem_eq s) t (lc_traces x)) as [j|].
  - split; [intros H; now injection H as ->|]. intros H. f_equal. now apply (first_place_unique _ _ _ _ S).
  - split; [discriminate|]. intros [(y & Y & P) _]. rewrite Forall_forall in S.
    apply nth_error_In in Y. rewrite (S y Y) in P. discriminate.
Qed.

Theorem log_index_none s l t v w : log_view s l = Some v -> trace_view s t = Some w ->
  elem_index s l t = Raise ValueError <-> forall u, In u (v_traces v) -> trace_ids u <> trace_ids w.
Proof.
  intros L T. destruct (log_view_read _ _ _ L) as (x & R & F).
  unfold elem_index, get_items. rewrite R. cbn [items bind].
  pose proof (find_index_spec (elem_eq s) t (lc_traces x)) as S.
  destruct (find_index (elem_eq s) t (lc_traces x)) as [j|].
  - split; [discriminate|]. intros H. destruct S as [(y & Y & P) _].
    destruct (Forall2_nth_l _ _ _ F _ _ Y) as [z Z]. exfalso. apply (H z (nth_error_In _ _ Z)).
    apply (same_trace s y t); auto. now apply (Forall2_nth _ _ _ F _ _ _ Y Z).
  - split; [|easy]. intros _ u U E. apply In_nth_error in U as [n U].
    destruct (Forall2_nth_r _ _ _ F _ _ U) as [y Y]. rewrite Forall_forall in S.
    specialize (S y (nth_error_In _ _ Y)). assert (same_or (elem_eq s) y t = true) as Q; [|congruence].
    apply (same_trace s y t u w); auto. now apply (Forall2_nth _ _ _ F _ _ _ Y U).
Qed.

(** With distinct ids a trace with events is found in its own place. *)
Theorem log_index_own s l v i w t : log_view s l = Some v -> trace_view s t = Some w ->
  NoDup (log_ids v) -> nth_error (v_traces v) i = Some w -> trace_ids w <> [] ->
  elem_index s l t = Ok i.
Proof.
  intros L T D W E. apply (log_index s l t v w i L T). split; [now exists w|].
  intros j u J U H. unfold log_ids in D.
  apply nth_error_split in W as (l1 & l2 & V & Q). subst i. rewrite V in U, D.
  rewrite nth_error_app1 in U by easy. apply nth_error_In in U.
  rewrite flat_map_app in D. cbn in D.
  destruct (trace_ids w) as [|a r] eqn:Ew; [easy|].
  apply NoDup_remove_2 in D. apply D. rewrite in_app_iff. left. apply in_flat_map. exists u. split; [easy|].
  rewrite H. now left.
Qed.

Lemma drop_at_split i : forall l x, nth_error l i = Some x ->
  exists l1 l2, l = l1 ++ x :: l2 /\ List.length l1 = i /\ drop_at i l = l1 ++ l2.
Proof.
  induction i as [|i IH]; intros [|a l] x; cbn; try discriminate.
  - intros H. injection H as ->. now exists [], l.
  - intros H. destruct (IH l x H) as (l1 & l2 & -> & L & D). exists (a :: l1), l2. cbn. now rewrite D, L.
Qed.

Lemma trace_view_nolog s s' t v : (forall a c, read s a = Some c -> (forall x, c <> KLog x) -> read s' a = Some c) ->
  trace_view s t = Some v -> trace_view s' t = Some v.
Proof.
  intros K.
  assert (forall m d, map_view s m = Some d -> map_view s' m = Some d) as M.
  { intros m d. unfold map_view. destruct (read s m) as [c|] eqn:R; [|discriminate]. intros H.
    destruct c; try discriminate. rewrite (K _ _ R) by discriminate. easy. }
  assert (forall e w, event_view s e = Some w -> event_view s' e = Some w) as E.
  { intros e w. unfold event_view. destruct (read s e) as [c|] eqn:R; [|discriminate]. destruct c; try discriminate.
    rewrite (K _ _ R) by discriminate. destruct (map_view s m) eqn:Q; [|discriminate]. now rewrite (M _ _ Q). }
  unfold trace_view. destruct (read s t) as [c|] eqn:R; [|discriminate]. destruct c; try discriminate.
  rewrite (K _ _ R) by discriminate. destruct (map_view s m) as [d|] eqn:Q; [|discriminate]. rewrite (M _ _ Q).
  destruct (all_some (map (event_view s) events)) as [r|] eqn:S; [|discriminate].
  assert (all_some (map (event_view s') events) = Some r) as ->; [|easy].
  apply all_some_Forall2. apply all_some_Forall2 in S. eapply Forall2_mono; [|exact S]. cbn. auto.
Qed.

Lemma Forall2_drop {A B} (P : A -> B -> Prop) l1 x l2 vs : Forall2 P (l1 ++ x :: l2) vs ->
  exists v1 y v2, vs = v1 ++ y :: v2 /\ List.length v1 = List.length l1 /\ Forall2 P (l1 ++ l2) (v1 ++ v2).
Proof.
  intros F. apply Forall2_app_inv_l in F as (v1 & v2 & F1 & F2 & ->).
  inversion F2 as [|? y ? v3 _ F3]; subst. exists v1, y, v3. split; [easy|]. split.
  - clear - F1. induction F1; cbn; congruence.
  - now apply Forall2_app.
Qed.

Theorem log_remove s l t v w s' : log_view s l = Some v -> trace_view s t = Some w ->
  elem_remove s l t = Ok s' ->
  exists v1 u v2, v_traces v = v1 ++ u :: v2 /\ trace_ids u = trace_ids w
    /\ Forall (fun x => trace_ids x <> trace_ids w) v1
    /\ log_view s' l = Some (mk_lv (v_attrs v) (v1 ++ v2) (v_clfs v) (v_gtrace v) (v_gevent v) (v_feat v) (v_exts v))
    /\ (forall a, a <> l -> read s' a = read s a).
Proof.
  intros L T. unfold elem_remove. destruct (elem_index s l t) as [i|e] eqn:I.
  2:{ destruct (get_items s l); discriminate. }
  apply (log_index s l t v w i L T) in I.
  pose proof L as L0. destruct (log_view_read _ _ _ L) as (x & R & F).
  unfold get_items. rewrite R. cbn [items bind]. intros H.
  injection H as <-. destruct I as [(u & U & E) M].
  destruct (Forall2_nth_r _ _ _ F _ _ U) as [a A].
  destruct (drop_at_split i _ _ A) as (l1 & l2 & S & N & D).
  rewrite S in F. pose proof F as F0. destruct (Forall2_drop _ _ _ _ _ F) as (v1 & y & v2 & V & Len & F').
  exists v1, y, v2. split; [easy|].
  rewrite V in U, M. rewrite nth_error_app2 in U by lia. rewrite Len, N, Nat.sub_diag in U. injection U as ->.
  split; [easy|]. split.
  { rewrite Forall_forall. intros z Z. apply In_nth_error in Z as [j Z]. apply (M j z).
    - rewrite <- N, <- Len. apply nth_error_Some. congruence.
    - rewrite nth_error_app1; [easy|]. apply nth_error_Some. congruence. }
  assert (l < List.length (cells s)) as B by (apply read_in in R; easy).
  split; [|intros b Hb; apply read_write_other; congruence].
  cbn [set_items]. rewrite D.
  set (x' := KLog _). set (s' := write l x' s).
  assert (forall b c, read s b = Some c -> (forall z, c <> KLog z) -> read s' b = Some c) as K.
  { intros b c Rb Nb. unfold s'. rewrite read_write_other; [easy|]. intros ->. rewrite R in Rb. injection Rb as <-. now apply (Nb x). }
  revert L0. unfold log_view. rewrite R. unfold s' at 1. rewrite (read_write_same l x' s B). unfold x' at 1. cbn [lc_map lc_traces lc_clfs lc_gtrace lc_gevent lc_feat lc_exts].
  assert (all_some (map (trace_view s') (l1 ++ l2)) = Some (v1 ++ v2)) as ->.
  { apply all_some_Forall2. eapply Forall2_mono; [|exact F']. cbn. intros b c Hb. now apply (trace_view_nolog s). }
  assert (forall m d, map_view s m = Some d -> map_view s' m = Some d) as Mv.
  { intros m d. unfold map_view. destruct (read s m) as [c|] eqn:Rm; [|discriminate]. intros H.
    destruct c; try discriminate. rewrite (K _ _ Rm) by discriminate. easy. }
  destruct (map_view s (lc_map x)) as [dm|] eqn:Q; [|discriminate]. rewrite (Mv _ _ Q).
  destruct (all_some (map (trace_view s) (lc_traces x))) as [ts|]; [|discriminate].
  destruct (read s (lc_clfs x)) as [c1|] eqn:R1; [|discriminate]. destruct c1; try discriminate. rewrite (K _ _ R1) by discriminate.
  destruct (read s (lc_gtrace x)) as [c2|] eqn:R2; [|discriminate]. destruct c2; try discriminate. rewrite (K _ _ R2) by discriminate.
  destruct (read s (lc_gevent x)) as [c3|] eqn:R3; [|discriminate]. destruct c3; try discriminate. rewrite (K _ _ R3) by discriminate.
  destruct (read s (lc_feat x)) as [c4|] eqn:R4; [|discriminate]. destruct c4; try discriminate. rewrite (K _ _ R4) by discriminate.
  destruct (read s (lc_exts x)) as [c5|] eqn:R5; [|discriminate]. destruct c5; try discriminate. rewrite (K _ _ R5) by discriminate.
  intros H. injection H as <-. reflexivity.
Qed.

(** The same for the events of a trace. *)
Lemma same_event s a x (u v : N * sdict addr) : event_view s a = Some u -> event_view s x = Some v ->
  same_or (elem_eq s) a x = true <-> fst u = fst v.
Proof.
  destruct u as [i d], v as [j d']. intros A X. unfold same_or. rewrite orb_true_iff, Nat.eqb_eq.
  rewrite (event_equal 2 s a x i d j d' A X). cbn [fst]. split; [|auto]. intros [->|E]; [congruence|easy].
Qed.

Theorem trace_index s t e d es v i : trace_view s t = Some (d, es) -> event_view s e = Some v ->
  elem_index s t e = Ok i <-> first_place (fun u => fst u = fst v) es i.
Proof.
  intros T E. destruct (trace_view_read _ _ _ _ T) as (m & l & R & F).
  unfold elem_index, get_items. rewrite R. cbn [items bind].
  rewrite <- (first_place_transfer _ (fun a => same_or (elem_eq s) a e = true) _ l es i F).
  2:{ intros a b A. now apply same_event. }
  pose proof (find_index_spec (elem_eq s) e l) as S.
  destruct (find_index (elem_eq s) e l) as [j|].
  - split; [intros H; now injection H as ->|]. intros H. f_equal. now apply (first_place_unique _ _ _ _ S).
  - split; [discriminate|]. intros [(y & Y & P) _]. rewrite Forall_forall in S.
    apply nth_error_In in Y. rewrite (S y Y) in P. discriminate.
Qed.

Theorem trace_remove s t e d es v s' : trace_view s t = Some (d, es) -> event_view s e = Some v ->
  elem_remove s t e = Ok s' ->
  exists es1 u es2, es = es1 ++ u :: es2 /\ fst u = fst v
    /\ Forall (fun x => fst x <> fst v) es1
    /\ trace_view s' t = Some (d, es1 ++ es2)
    /\ (forall a, a <> t -> read s' a = read s a).
Proof.
  intros T E. unfold elem_remove. destruct (elem_index s t e) as [i|x] eqn:I.
  2:{ destruct (get_items s t); discriminate. }
  apply (trace_index s t e d es v i T E) in I.
  pose proof T as T0. destruct (trace_view_read _ _ _ _ T) as (m & l & R & F).
  unfold get_items. rewrite R. cbn [items bind]. intros H.
  injection H as <-. destruct I as [(u & U & Eu) M].
  destruct (Forall2_nth_r _ _ _ F _ _ U) as [a A].
  destruct (drop_at_split i _ _ A) as (l1 & l2 & S & N & D).
  rewrite S in F. destruct (Forall2_drop _ _ _ _ _ F) as (v1 & y & v2 & V & Len & F').
  exists v1, y, v2. split; [easy|].
  rewrite V in U, M. rewrite nth_error_app2 in U by lia. rewrite Len, N, Nat.sub_diag in U. injection U as ->.
  split; [easy|]. split.
  { rewrite Forall_forall. intros z Z. apply In_nth_error in Z as [j Z]. apply (M j z).
    - rewrite <- N, <- Len. apply nth_error_Some. congruence.
    - rewrite nth_error_app1; [easy|]. apply nth_error_Some. congruence. }
  assert (t < List.length (cells s)) as B by (apply read_in in R; easy).
  split; [|intros b Hb; apply read_write_other; congruence].
  cbn [set_items]. rewrite D.
  set (x' := KTrace _ _). set (s' := write t x' s).
  assert (forall b c, read s b = Some c -> (forall z w, c <> KTrace z w) -> read s' b = Some c) as K.
  { intros b c Rb Nb. unfold s'. rewrite read_write_other; [easy|]. intros ->. rewrite R in Rb. injection Rb as <-. now apply (Nb m l). }
  assert (forall m d, map_view s m = Some d -> map_view s' m = Some d) as Mv.
  { intros m' d'. unfold map_view. destruct (read s m') as [c|] eqn:Rm; [|discriminate]. intros H.
    destruct c; try discriminate. rewrite (K _ _ Rm) by discriminate. easy. }
  assert (forall e w, event_view s e = Some w -> event_view s' e = Some w) as Ev.
  { intros e' w. unfold event_view. destruct (read s e') as [c|] eqn:Re; [|discriminate]. destruct c; try discriminate.
    rewrite (K _ _ Re) by discriminate. destruct (map_view s m0) eqn:Q; [|discriminate]. now rewrite (Mv _ _ Q). }
  revert T0. unfold trace_view. rewrite R. unfold s' at 1. rewrite (read_write_same t x' s B). unfold x' at 1.
  assert (all_some (map (event_view s') (l1 ++ l2)) = Some (v1 ++ v2)) as ->.
  { apply all_some_Forall2. eapply Forall2_mono; [|exact F']. cbn. intros b c Hb. now apply Ev. }
  destruct (map_view s m) as [dm|] eqn:Q; [|discriminate]. rewrite (Mv _ _ Q).
  destruct (all_some (map (event_view s) l)) as [ts|]; [|discriminate].
  intros H. injection H as <- _. reflexivity.
Qed.

(** How often an event occurs in a trace: by id. *)
Theorem trace_count s t e d es i d' : trace_view s t = Some (d, es) -> event_view s e = Some (i, d') ->
  elem_count s t e = Ok (count_occ N.eq_dec (map fst es) i).
Proof.
  intros T E. destruct (trace_view_read _ _ _ _ T) as (m & l & R & F).
  unfold elem_count, get_items. rewrite R. cbn [items bind]. f_equal. clear T R.
  induction F as [|x [j q] l es V F IH]; [easy|]. cbn [filter map fst count_occ].
  assert (same_or (elem_eq s) x e = true <-> j = i) as S.
  { unfold same_or. rewrite orb_true_iff, Nat.eqb_eq. unfold elem_eq. rewrite (event_equal 2 s x e j q i d' V E).
    split; [|auto]. intros [->|H]; [congruence|easy]. }
  destruct (N.eq_dec j i) as [Q|Q].
  - apply S in Q. rewrite Q. cbn [List.length]. now rewrite IH.
  - destruct (same_or (elem_eq s) x e); [|easy]. exfalso. now apply Q, S.
Qed.

Lemma contains_spec s l x it : get_items s l = Ok it ->
  exists b, elem_contains s l x = Ok b /\ (b = true <-> exists a, In a it /\ same_or (elem_eq s) a x = true).
Proof.
  intros G. unfold elem_contains. rewrite G. cbn [bind]. eexists. split; [reflexivity|].
  pose proof (find_index_spec (elem_eq s) x it) as S. destruct (find_index (elem_eq s) x it) as [j|].
  - split; [|easy]. intros _. destruct S as [(a & N & E) _]. exists a. split; [now apply nth_error_In in N|easy].
  - split; [easy|]. intros (a & I & E). rewrite Forall_forall in S. specialize (S a I). congruence.
Qed.

(** Whether an event is in a trace: by id.  Whether a trace is in a log: by the ids. *)
Theorem trace_contains s t e d es i d' : trace_view s t = Some (d, es) -> event_view s e = Some (i, d') ->
  exists b, elem_contains s t e = Ok b /\ (b = true <-> In i (map fst es)).
Proof.
  intros T E. destruct (trace_view_read _ _ _ _ T) as (m & l & R & F).
  destruct (contains_spec s t e l) as (b & C & B); [unfold get_items; now rewrite R|].
  exists b. split; [easy|]. rewrite B. clear T R B C.
  induction F as [|x [j q] l es V F IH]; [cbn; split; [intros (a & [] & _)|easy]|].
  assert (same_or (elem_eq s) x e = true <-> j = i) as S.
  { unfold same_or. rewrite orb_true_iff, Nat.eqb_eq. unfold elem_eq. rewrite (event_equal 2 s x e j q i d' V E).
    split; [|auto]. intros [->|H]; [congruence|easy]. }
  cbn [map fst In]. rewrite <- IH, <- S. split.
  - intros (a & [<-|I] & Q); [now left|right; now exists a].
  - intros [Q|(a & I & Q)]; [exists x; split; [now left|easy]|exists a; split; [now right|easy]].
Qed.
Theorem log_contains s l t v w : log_view s l = Some v -> trace_view s t = Some w ->
  exists b, elem_contains s l t = Ok b /\ (b = true <-> In (trace_ids w) (ids_by_trace v)).
Proof.
  intros L T. destruct (log_view_read _ _ _ L) as (x & R & F).
  destruct (contains_spec s l t (lc_traces x)) as (b & C & B); [unfold get_items; now rewrite R|].
  exists b. split; [easy|]. rewrite B. clear L R B C. unfold ids_by_trace.
  induction F as [|y u ts us V F IH]; [cbn; split; [intros (a & [] & _)|easy]|].
  assert (same_or (elem_eq s) y t = true <-> trace_ids u = trace_ids w) as S.
  { unfold same_or. rewrite orb_true_iff, Nat.eqb_eq. unfold elem_eq. rewrite (trace_equal 1 s y t u w V T).
    split; [|auto]. intros [->|H]; [congruence|easy]. }
  cbn [map In]. rewrite <- IH, <- S. split.
  - intros (a & [<-|I] & Q); [now left|right; now exists a].
  - intros [Q|(a & I & Q)]; [exists y; split; [now left|easy]|exists a; split; [now right|easy]].
Qed.

(** ** Copies *)

Lemma fresh_apart draw s s' ids k : fresh_from draw s ids -> drawn_between draw s s' k ->
  forall i, In i k -> ~ In i ids.
Proof.
  intros F (ks & _ & B & ->) i I. apply in_map_iff in I as (n & <- & I).
  apply F. rewrite Forall_forall in B. specialize (B n I). lia.
Qed.

Theorem event_clone_equal draw s e i d e' s' : heap_wf s -> event_view s e = Some (i, d) ->
  fresh_from draw s [i] -> event_clone draw e s = Ok (e', s') -> elem_eq s' e e' = false.
Proof.
  intros W V F C. destruct (event_clone_main draw s e i d W V) as (e2 & s2 & j & E & V2 & D & K & _).
  rewrite C in E. injection E as <- <-.
  assert (event_view s' e = Some (i, d)) as V'.
  { revert V. unfold event_view. destruct (read s e) as [c|] eqn:R; [|discriminate]. rewrite (K _ _ R).
    destruct c; try discriminate. unfold map_view. destruct (read s m) as [c|] eqn:R'; [|discriminate].
    now rewrite (K _ _ R'). }
  destruct (elem_eq s' e e') eqn:Q; [|easy].
  apply (event_equal 2 s' e e' i d j d V' V2) in Q. subst j. exfalso.
  apply (fresh_apart _ _ _ _ _ F D i); now left.
Qed.

Theorem trace_clone_equal draw s t v t' s' : heap_wf s -> trace_view s t = Some v ->
  fresh_from draw s (trace_ids v) -> trace_clone draw t s = Ok (t', s') ->
  elem_eq s' t t' = true <-> trace_ids v = [].
Proof.
  intros W V F C. destruct (trace_clone_main draw s t v W V) as (t2 & s2 & v' & E & V2 & Sh & D & K & _).
  rewrite C in E. injection E as <- <-.
  assert (trace_view s' t = Some v) as V' by (apply (trace_view_nolog s); auto).
  unfold elem_eq. rewrite (trace_equal 1 s' t t' v v' V' V2). split.
  - intros Q. destruct (trace_ids v) as [|i r] eqn:Ei; [easy|]. exfalso.
    apply (fresh_apart _ _ _ _ _ F D i); [rewrite <- Q|]; now left.
  - intros Q. rewrite Q. symmetry. unfold trace_ids in *. apply map_eq_nil in Q.
    destruct v as [dv ev], v' as [dv' ev']. cbn in *. subst ev. unfold trace_shape in Sh. cbn in Sh.
    injection Sh as _ Sh. destruct ev'; [easy|discriminate].
Qed.

Theorem log_clone_equal draw s l v l' s' : heap_wf s -> log_view s l = Some v ->
  fresh_from draw s (log_ids v) -> log_clone draw l s = Ok (l', s') ->
  elem_eq s' l l' = true <-> log_ids v = [].
Proof.
  intros W V F C. destruct (log_clone_main draw s l v W V) as (l2 & s2 & v' & E & V2 & Sh & D & K & _).
  rewrite C in E. injection E as <- <-.
  assert (log_view s' l = Some v) as V'.
  { revert V. unfold log_view. destruct (read s l) as [c|] eqn:R; [|discriminate]. rewrite (K _ _ R).
    destruct c as [| | | |x| | | |]; try discriminate.
    destruct (map_view s (lc_map x)) as [dm|] eqn:Q; [|discriminate].
    assert (map_view s' (lc_map x) = Some dm) as ->.
    { revert Q. unfold map_view. destruct (read s (lc_map x)) as [c|] eqn:R'; [|discriminate]. now rewrite (K _ _ R'). }
    destruct (all_some (map (trace_view s) (lc_traces x))) as [ts|] eqn:T; [|discriminate].
    assert (all_some (map (trace_view s') (lc_traces x)) = Some ts) as ->.
    { apply all_some_Forall2. apply all_some_Forall2 in T. eapply Forall2_mono; [|exact T]. cbn.
      intros b c Hb. apply (trace_view_nolog s); auto. }
    destruct (read s (lc_clfs x)) as [c1|] eqn:R1; [|discriminate]. rewrite (K _ _ R1).
    destruct c1; try discriminate.
    destruct (read s (lc_gtrace x)) as [c2|] eqn:R2; [|discriminate]. rewrite (K _ _ R2).
    destruct c2; try discriminate.
    destruct (read s (lc_gevent x)) as [c3|] eqn:R3; [|discriminate]. rewrite (K _ _ R3).
    destruct c3; try discriminate.
    destruct (read s (lc_feat x)) as [c4|] eqn:R4; [|discriminate]. rewrite (K _ _ R4).
    destruct c4; try discriminate.
    destruct (read s (lc_exts x)) as [c5|] eqn:R5; [|discriminate]. rewrite (K _ _ R5). easy. }
  rewrite (log_equal s' l l' v v' V' V2). unfold ids_by_trace. split.
  - intros Q. unfold log_ids in *. rewrite flat_map_concat_map in *. rewrite <- Q in D.
    destruct (concat (map trace_ids (v_traces v))) as [|i r] eqn:Ei; [easy|]. exfalso.
    apply (fresh_apart _ _ _ _ _ F D i); now left.
  - intros Q. unfold log_shape in Sh. injection Sh as _ Sh _ _ _ _ _.
    unfold log_ids in Q. revert Sh Q. generalize (v_traces v) as l1, (v_traces v') as l2. clear.
    induction l1 as [|[d es] l1 IH]; intros [|[d' es'] l2]; cbn; try discriminate; [easy|].
    unfold trace_shape at 1 3. cbn. intros H Q. injection H as _ H1 H2. apply app_eq_nil in Q as [Q1 Q2].
    f_equal; [|now apply IH]. unfold trace_ids in *. cbn in *. apply map_eq_nil in Q1. subst es.
    destruct es'; [easy|discriminate].
Qed.

Theorem log_remove_found s l t v w : log_view s l = Some v -> trace_view s t = Some w ->
  match elem_remove s l t with
  | Ok _ => exists u, In u (v_traces v) /\ trace_ids u = trace_ids w
  | Raise e => e = ValueError /\ forall u, In u (v_traces v) -> trace_ids u <> trace_ids w
  end.
Proof.
  intros L T. destruct (log_view_read _ _ _ L) as (x & R & _).
  pose proof (log_index_none s l t v w L T) as N. pose proof (fun i => log_index s l t v w i L T) as I.
  assert (J : (exists i, elem_index s l t = Ok i) \/ elem_index s l t = Raise ValueError).
  { unfold elem_index, get_items. rewrite R. cbn [items bind]. destruct (find_index _ _ _); eauto. }
  unfold elem_remove, get_items. rewrite R. cbn [items bind]. destruct J as [[i J]|J]; rewrite J; cbn [bind].
  - apply I in J as [(u & U & E) _]. eauto using nth_error_In.
  - split; [easy|]. now apply N.
Qed.

Theorem trace_remove_found s t e d es v : trace_view s t = Some (d, es) -> event_view s e = Some v ->
  match elem_index s t e, elem_remove s t e with
  | Ok i, Ok _ => first_place (fun u => fst u = fst v) es i
  | Raise x, Raise y => x = ValueError /\ y = ValueError /\ forall u, In u es -> fst u <> fst v
  | _, _ => False
  end.
Proof.
  intros T E. destruct (trace_view_read _ _ _ _ T) as (m & l & R & F).
  pose proof (fun i => trace_index s t e d es v i T E) as I.
  assert (J : (exists i, elem_index s t e = Ok i) \/ elem_index s t e = Raise ValueError).
  { unfold elem_index, get_items. rewrite R. cbn [items bind]. destruct (find_index _ _ _); eauto. }
  unfold elem_remove. assert (G : get_items s t = Ok l) by (unfold get_items; now rewrite R). rewrite G, R. cbn [bind]. destruct J as [[i J]|J]; rewrite J; cbn [bind].
  - now apply I.
  - split; [reflexivity|]. split; [reflexivity|]. intros u U Q. apply In_nth_error in U as [n U].
    destruct (Forall2_nth_r _ _ _ F _ _ U) as [y Y].
    pose proof (find_index_spec (elem_eq s) e l) as S. revert J. unfold elem_index, get_items. rewrite R. cbn [items bind].
    destruct (find_index (elem_eq s) e l) as [j|]; [discriminate|]. intros _. rewrite Forall_forall in S.
    specialize (S y (nth_error_In _ _ Y)). assert (same_or (elem_eq s) y e = true) as Z; [|congruence].
    apply (same_event s y e u v); auto. now apply (Forall2_nth _ _ _ F _ _ _ Y U).
Qed.

Theorem log_count s l t v w : log_view s l = Some v -> trace_view s t = Some w ->
  elem_count s l t = Ok (count_occ (list_eq_dec N.eq_dec) (ids_by_trace v) (trace_ids w)).
Proof.
  intros L T. destruct (log_view_read _ _ _ L) as (x & R & F).
  unfold elem_count, get_items. rewrite R. cbn [items bind]. f_equal. unfold ids_by_trace. clear L R.
  induction F as [|a u la lv V F IH]; [easy|]. cbn [filter map count_occ].
  pose proof (same_trace s a t u w V T) as S.
  destruct (list_eq_dec N.eq_dec (trace_ids u) (trace_ids w)) as [Q|Q].
  - apply S in Q. rewrite Q. cbn [List.length]. now rewrite IH.
  - destruct (same_or (elem_eq s) a t); [|easy]. exfalso. now apply Q, S.
Qed.
