(** Edits of one element do not reach a separate one. *)
From Coq Require Import String NArith ZArith List Bool Lia Arith.
From Verif Require Import Base.PyBase Base.PyDate Base.PyVal Model.Attr Model.Log Model.Heap
  Spec.Clone Proofs.BaseFacts Proofs.CloneFacts.
Import ListNotations.

Definition closed (s : st) : Prop := Forall (fun c => Forall (in_heap s) (children c)) (cells s).

Lemma heap_wf_closed s : heap_wf s -> closed s.
Proof. apply Forall_impl. now intros c []. Qed.

Lemma closed_read s a c : closed s -> read s a = Some c -> Forall (in_heap s) (children c).
Proof.
  unfold closed, read. rewrite Forall_forall. intros W R. apply (W c). eapply nth_error_In, R.
Qed.

Lemma child_in_heap s a b : closed s -> child s a b -> in_heap s b.
Proof.
  intros C (c & R & I). pose proof (closed_read _ _ _ C R) as F.
  rewrite Forall_forall in F. now apply F.
Qed.

Lemma reach_in_heap s a x : closed s -> in_heap s a -> reach s a x -> in_heap s x.
Proof. intros C H R. induction R; auto. eapply child_in_heap; eauto. Qed.

Lemma reach_trans s a b c : reach s a b -> reach s b c -> reach s a c.
Proof. intros R1 R2. induction R2; auto. econstructor; eauto. Qed.

(** ** Views depend only on what is reached *)

Section Local.
Variables s s' : st.

Definition same_cells (A : addr) : Prop := forall x, reach s A x -> read s' x = read s x.

Lemma same_cells_child A c b : same_cells A -> read s A = Some c -> In b (children c) -> same_cells b.
Proof.
  intros H R I x Rx. apply H. eapply reach_trans; [|exact Rx].
  econstructor; [constructor|]. exists c. auto.
Qed.

Lemma same_read A : same_cells A -> read s' A = read s A.
Proof. intros H. apply H. constructor. Qed.

Lemma map_view_local A : same_cells A -> map_view s' A = map_view s A.
Proof. intros H. unfold map_view. now rewrite (same_read A H). Qed.

Lemma event_view_local A : same_cells A -> event_view s' A = event_view s A.
Proof.
  intros H. unfold event_view. rewrite (same_read A H).
  destruct (read s A) as [[]|] eqn:R; auto.
  rewrite map_view_local; auto. eapply same_cells_child; [exact H | exact R | now left].
Qed.

Lemma trace_view_local A : same_cells A -> trace_view s' A = trace_view s A.
Proof.
  intros H. unfold trace_view. rewrite (same_read A H).
  destruct (read s A) as [[]|] eqn:R; auto.
  rewrite map_view_local by (eapply same_cells_child; [exact H | exact R | now left]).
  replace (map (event_view s') events) with (map (event_view s) events); auto.
  apply map_ext_in. intros e I. symmetry. apply event_view_local.
  eapply same_cells_child; [exact H | exact R | now right].
Qed.

Lemma log_view_local A : same_cells A -> log_view s' A = log_view s A.
Proof.
  intros H. unfold log_view. rewrite (same_read A H).
  destruct (read s A) as [[]|] eqn:R; auto.
  assert (K : forall b, In b (children (KLog l)) -> same_cells b).
  { intros b I. eapply same_cells_child; eauto. }
  cbn in K.
  rewrite map_view_local by (apply K; auto).
  replace (map (trace_view s') (lc_traces l)) with (map (trace_view s) (lc_traces l)).
  2:{ apply map_ext_in. intros t I. symmetry. apply trace_view_local, K. auto 10. }
  rewrite (same_read (lc_clfs l)) by (apply K; auto 10).
  rewrite (same_read (lc_gtrace l)) by (apply K; auto 10).
  rewrite (same_read (lc_gevent l)) by (apply K; auto 10).
  rewrite (same_read (lc_feat l)) by (apply K; auto 10).
  rewrite (same_read (lc_exts l)) by (apply K; auto 10). reflexivity.
Qed.

End Local.

(** ** One edit *)

Lemma perform_ok o w s s' : perform o w s = Ok s' ->
  exists c c', read s w = Some c /\ apply_op o c = Ok c' /\ s' = write w c' s.
Proof.
  unfold perform. destruct (read s w) as [c|] eqn:R; [|discriminate]. intros H.
  apply bind_ok in H. destruct H as (c' & A & E). injection E as <-. exists c, c'. auto.
Qed.

Lemma apply_op_children o c c' : apply_op o c = Ok c' ->
  forall x, In x (children c') -> In x (children c) \/ In x (inserted o).
Proof.
  intros H x. destruct o, c; cbn in H; try discriminate;
    try (destruct (smem k m); try discriminate);
    injection H as <-; cbn; intuition.
Qed.

Lemma apply_op_attr o c c' : apply_op o c = Ok c' ->
  match c with KAttr _ _ _ _ _ _ => False | _ => True end.
Proof. destruct o, c; cbn; intros H; try discriminate; exact I. Qed.

(** What is true after some edits of [B] that keep off [A]. *)
Record kept (A B : addr) (s s' : st) : Prop := mk_kept {
  k_closed : closed s';
  k_inA : in_heap s' A;
  k_inB : in_heap s' B;
  k_sep : separate s' A B;
  k_reach : forall x, reach s' A x -> reach s A x;
  k_same : same_cells s s' A;
  k_attr : forall a c k e v l m, read s a = Some (KAttr c k e v l m) ->
                                 read s' a = Some (KAttr c k e v l m)
}.

Lemma kept_back A B s s' : kept A B s s' -> forall x, reach s A x -> reach s' A x.
Proof.
  intros K x R. induction R as [|b c Rb IH (cc & Rc & I)]; [constructor|].
  econstructor; [exact IH|]. exists cc. split; [|exact I].
  rewrite (k_same _ _ _ _ K b Rb). exact Rc.
Qed.

Lemma closed_mono s s' c : List.length (cells s) <= List.length (cells s') ->
  Forall (in_heap s) c -> Forall (in_heap s') c.
Proof. intros L. apply Forall_impl. unfold in_heap. intros a. lia. Qed.

Lemma edits_kept A B s s' : closed s -> in_heap s A -> in_heap s B -> separate s A B ->
  edits A B s s' -> kept A B s s'.
Proof.
  intros C HA HB S E. induction E as [s|s s1 c E IH Wc|s s1 s2 o w E IH Rw Ins P].
  - split; auto; intros x; auto.
  - specialize (IH C HA HB S). destruct IH as [C1 A1 B1 S1 R1 Q1 T1].
    set (s2 := snd (alloc c s1)).
    assert (X : ext s1 s2) by apply ext_alloc.
    pose proof (ext_length _ _ X) as L.
    assert (Old : forall a, in_heap s1 a -> read s2 a = read s1 a).
    { intros a H. unfold s2, read, alloc; cbn. now rewrite nth_error_app1. }
    assert (RR : forall a x, in_heap s1 a -> reach s2 a x -> reach s1 a x).
    { intros a x H R. induction R as [|b d Rb IHb (cc & Rc & I)]; [constructor|].
      econstructor; [exact IHb|]. exists cc. split; [|exact I].
      rewrite <- Old; [exact Rc|]. eapply reach_in_heap; eauto. }
    split.
    + unfold closed, s2; cbn. apply Forall_app. split.
      * eapply Forall_impl; [|exact C1]. intros cc. now apply closed_mono.
      * constructor; [|constructor]. destruct Wc as [Fc _]. revert Fc. now apply closed_mono.
    + unfold in_heap in *. lia.
    + unfold in_heap in *. lia.
    + intros x Ra Rb. apply (S1 x); apply RR; auto.
    + intros x R. apply R1. now apply RR.
    + intros x R. rewrite Old; [now apply Q1|].
      eapply reach_in_heap; [exact C1 | exact A1 |].
      eapply kept_back; [|exact R]. split; eauto.
    + intros a cc k e v l m R. eapply ext_read; [exact X | eauto].
  - specialize (IH C HA HB S). pose proof (kept_back _ _ _ _ IH) as BK.
    destruct IH as [C1 A1 B1 S1 R1 Q1 T1].
    destruct (perform_ok _ _ _ _ P) as (c & c' & Rc & Ap & ->).
    pose proof (apply_op_children _ _ _ Ap) as Ch.
    assert (NA : forall x, reach s1 A x -> x <> w).
    { intros x R ->. apply (S1 w); auto. }
    assert (RA : forall x, reach (write w c' s1) A x -> reach s1 A x).
    { intros x R. induction R as [|b d Rb IHb (cc & Rcc & I)]; [constructor|].
      econstructor; [exact IHb|]. exists cc. split; [|exact I].
      rewrite read_write_other in Rcc; [exact Rcc|]. intros ->. now apply (NA b). }
    assert (RB : forall x, reach (write w c' s1) B x ->
              reach s1 B x \/ exists n, In n (inserted o) /\ reach s1 n x).
    { intros x R. induction R as [|b d Rb IHb (cc & Rcc & I)]; [left; constructor|].
      destruct (Nat.eq_dec w b) as [->|Nb].
      - rewrite read_write_same in Rcc by (eapply read_in, Rc). injection Rcc as <-.
        destruct (Ch d I) as [I'|I'].
        + destruct IHb as [H|(n & H1 & H2)].
          * left. econstructor; [exact H|]. exists c. auto.
          * right. exists n. split; [exact H1|]. econstructor; [exact H2|]. exists c. auto.
        + right. exists d. split; [exact I'|constructor].
      - rewrite read_write_other in Rcc by exact Nb.
        destruct IHb as [H|(n & H1 & H2)].
        + left. econstructor; [exact H|]. exists cc. auto.
        + right. exists n. split; [exact H1|]. econstructor; [exact H2|]. exists cc. auto. }
    assert (Lw : List.length (cells (write w c' s1)) = List.length (cells s1)) by apply write_length.
    split.
    + unfold closed; cbn [cells write].
      assert (Km : forall cc, Forall (in_heap s1) cc -> Forall (in_heap (write w c' s1)) cc).
      { intros cc. apply closed_mono. lia. }
      apply Forall_update.
      * eapply Forall_impl; [|exact C1]. intros cc. apply Km.
      * intros _. apply Km. rewrite Forall_forall. intros x Ix.
        destruct (Ch x Ix) as [I'|I']; [|now apply Ins].
        pose proof (closed_read _ _ _ C1 Rc) as F. rewrite Forall_forall in F. now apply F.
    + unfold in_heap in *. lia.
    + unfold in_heap in *. lia.
    + intros x Ra Rb. destruct (RB x Rb) as [H|(n & H1 & H2)].
      * apply (S1 x); auto.
      * destruct (Ins n H1) as [_ Sep]. apply (Sep x); auto.
    + intros x R. apply R1. now apply RA.
    + intros x R. rewrite read_write_other; [now apply Q1|].
      intros ->. apply (NA x); auto.
    + intros a cc k e v l m R. rewrite read_write_other; [eauto|].
      intros ->. apply apply_op_attr in Ap. specialize (T1 _ _ _ _ _ _ _ R).
      rewrite T1 in Rc. injection Rc as <-. exact Ap.
Qed.

(** ** Copies are separate *)

Lemma old_reach s s' a x : closed s -> ext s s' -> in_heap s a -> reach s' a x -> in_heap s x.
Proof.
  intros C X H R. induction R as [|b d Rb IH (cc & Rc & I)]; [exact H|].
  assert (E : exists c0, read s b = Some c0).
  { unfold read. destruct (nth_error (cells s) b) eqn:E; eauto.
    apply nth_error_None in E. unfold in_heap in IH. lia. }
  destruct E as (c0 & E). pose proof (ext_read _ _ _ _ X E) as E'.
  assert (c0 = cc) as -> by congruence.
  eapply child_in_heap; [exact C|]. exists cc. eauto.
Qed.

Lemma reach_head s a x : reach s a x -> x = a \/ exists b, child s a b /\ reach s b x.
Proof.
  induction 1 as [|b d R [->|(b' & H1 & H2)] Hc]; [now left| |].
  - right. exists d. split; [exact Hc | constructor].
  - right. exists b'. split; [exact H1|]. econstructor; eauto.
Qed.

Lemma own_map_reach n s m d x : read s m = Some (KMap d) -> n <= m -> reach s m x -> n <= x.
Proof.
  intros R L H. apply reach_head in H. destruct H as [->|(b & (c & Rc & I) & _)]; [exact L|].
  rewrite R in Rc. injection Rc as <-. destruct I.
Qed.

Lemma own_leaf_reach n s a c x : read s a = Some c -> children c = [] -> n <= a -> reach s a x -> n <= x.
Proof.
  intros R Ch L H. apply reach_head in H. destruct H as [->|(b & (c0 & Rc & I) & _)]; [exact L|].
  rewrite R in Rc. injection Rc as <-. rewrite Ch in I. destruct I.
Qed.

Lemma own_event_reach n s e v x : own_event n s e v -> reach s e x -> n <= x.
Proof.
  intros (m & R1 & R2 & L1 & L2) H. apply reach_head in H.
  destruct H as [->|(b & (c & Rc & I) & H)]; [exact L1|].
  rewrite R1 in Rc. injection Rc as <-. destruct I as [<-|[]].
  eapply own_map_reach; eauto.
Qed.

Lemma Forall2_in_l {A B} (P : A -> B -> Prop) l1 l2 a :
  Forall2 P l1 l2 -> In a l1 -> exists b, P a b.
Proof.
  induction 1 as [|x y l1 l2 H F IH]; intros [].
  - subst. eauto.
  - auto.
Qed.

Lemma own_trace_reach n s t v x : own_trace n s t v -> reach s t x -> n <= x.
Proof.
  intros (m & es & R1 & R2 & F & L1 & L2) H. apply reach_head in H.
  destruct H as [->|(b & (c & Rc & I) & H)]; [exact L1|].
  rewrite R1 in Rc. injection Rc as <-. destruct I as [<-|I].
  - eapply own_map_reach; eauto.
  - destruct (Forall2_in_l _ _ _ _ F I) as (w & O). eapply own_event_reach; eauto.
Qed.

Lemma own_log_reach n s l v x : own_log n s l v -> reach s l x -> n <= x.
Proof.
  intros (y & R & L & R1 & F & R2 & R3 & R4 & R5 & R6 & B & _) H.
  apply reach_head in H. destruct H as [->|(b & (c & Rc & I) & H)]; [exact L|].
  rewrite R in Rc. injection Rc as <-. cbn in I. rewrite Forall_forall in B. cbn in B.
  destruct I as [<-|[<-|[<-|[<-|[<-|[<-|Ib]]]]]];
    try solve [refine (own_leaf_reach n s _ _ x _ _ _ H); [eassumption | reflexivity | apply B; auto 10]].
  destruct (Forall2_in_l _ _ _ _ F Ib) as (w & O). eapply own_trace_reach; eauto.
Qed.

Lemma own_log_view n s l v : own_log n s l v -> log_view s l = Some v.
Proof.
  intros (y & R & L & R1 & F & R2 & R3 & R4 & R5 & R6 & B & _).
  unfold log_view, map_view. rewrite R, R1, R2, R3, R4, R5, R6.
  rewrite (proj2 (all_some_Forall2 _ (lc_traces y) (v_traces v))); [now destruct v|].
  eapply Forall2_mono; [|exact F]. intros a b. apply own_trace_view.
Qed.

Lemma copy_separate s s' a b : closed s -> ext s s' -> in_heap s a ->
  (forall x, reach s' b x -> List.length (cells s) <= x) -> separate s' a b.
Proof.
  intros C X H F x Ra Rb. pose proof (old_reach _ _ _ _ C X H Ra). specialize (F x Rb).
  unfold in_heap in *. lia.
Qed.

Lemma separate_sym s a b : separate s a b -> separate s b a.
Proof. intros H x R1 R2. exact (H x R2 R1). Qed.
