(** The clone properties, assembled. *)
From Coq Require Import String NArith ZArith List Bool Lia Arith SpecFloat.
From Verif Require Import Base.PyBase Base.PyDate Base.PyVal Model.Attr Model.Log Model.Heap
  Spec.Typing Spec.Clone Proofs.BaseFacts Proofs.AttrFacts Proofs.CloneFacts Proofs.EditFacts
  Proofs.CreateFacts.
Import ListNotations.

Section Draw.
Variable draw : nat -> N.

Fixpoint idx (k j : nat) : list nat := match j with O => [] | S j => S k :: idx (S (S k)) j end.

Lemma clone_ids_idx k j : clone_ids draw k j = map draw (idx k j).
Proof. revert k. induction j; intros k; cbn; [reflexivity | now rewrite IHj]. Qed.
Lemma idx_length k j : List.length (idx k j) = j.
Proof. revert k. induction j; intros k; cbn; auto. Qed.
Lemma idx_range k j : Forall (fun x => k < x < k + 2 * j) (idx k j).
Proof.
  revert k. induction j; intros k; cbn [idx]; constructor; [lia|].
  eapply Forall_impl; [|apply IHj]. cbn. intros x. lia.
Qed.
Lemma idx_nodup k j : NoDup (idx k j).
Proof.
  revert k. induction j; intros k; cbn [idx]; constructor; auto.
  intros I. pose proof (idx_range (S (S k)) j) as F. rewrite Forall_forall in F.
  specialize (F _ I). lia.
Qed.
Lemma idx_app k i j : idx k (i + j) = idx k i ++ idx (k + 2 * i) j.
Proof.
  revert k. induction i; intros k; cbn [idx Nat.add app]; [do 2 f_equal; lia|].
  rewrite IHi. do 3 f_equal. lia.
Qed.

Lemma fst_combine {A B} (l1 : list A) (l2 : list B) : List.length l1 = List.length l2 ->
  map fst (combine l1 l2) = l1.
Proof. revert l2. induction l1; intros [|y l2] H; cbn in *; try discriminate; f_equal; auto. Qed.
Lemma snd_combine {A B} (l1 : list A) (l2 : list B) : List.length l1 = List.length l2 ->
  map snd (combine l1 l2) = l2.
Proof. revert l2. induction l1; intros [|y l2] H; cbn in *; try discriminate; f_equal; auto. Qed.

Lemma clone_events_fst k l : map fst (clone_events draw k l) = map draw (idx k (List.length l)).
Proof.
  unfold clone_events. rewrite fst_combine; [apply clone_ids_idx|].
  now rewrite clone_ids_idx, !map_length, idx_length.
Qed.
Lemma clone_events_snd k l : map snd (clone_events draw k l) = map snd l.
Proof.
  unfold clone_events. apply snd_combine. now rewrite clone_ids_idx, !map_length, idx_length.
Qed.

Lemma clone_traces_ids : forall vs k,
  flat_map trace_ids (clone_traces draw k vs) = map draw (idx k (List.length (flat_map snd vs))).
Proof.
  induction vs as [|v vs IH]; intros k; cbn [clone_traces flat_map]; [reflexivity|].
  rewrite app_length, idx_app, map_app, IH. f_equal.
  unfold trace_ids; cbn [snd]. apply clone_events_fst.
Qed.
Lemma clone_traces_shape : forall vs k, map trace_shape (clone_traces draw k vs) = map trace_shape vs.
Proof.
  induction vs as [|v vs IH]; intros k; cbn [clone_traces map]; [reflexivity|].
  rewrite IH. f_equal. unfold trace_shape; cbn [fst snd]. now rewrite clone_events_snd.
Qed.

Lemma idx_drawn s s' j ids : drawn s' = drawn s + 2 * j -> ids = map draw (idx (drawn s) j) ->
  drawn_between draw s s' ids.
Proof.
  intros D ->. exists (idx (drawn s) j). split; [apply idx_nodup|]. split; [|reflexivity].
  eapply Forall_impl; [|apply idx_range]. cbn. intros x. lia.
Qed.

(** ** Events *)

Lemma view_in_heap_event s e v : event_view s e = Some v -> in_heap s e.
Proof. unfold event_view. destruct (read s e) eqn:R; [intros _; eapply read_in, R | discriminate]. Qed.
Lemma view_in_heap_trace s e v : trace_view s e = Some v -> in_heap s e.
Proof. unfold trace_view. destruct (read s e) eqn:R; [intros _; eapply read_in, R | discriminate]. Qed.
Lemma view_in_heap_log s e v : log_view s e = Some v -> in_heap s e.
Proof. unfold log_view. destruct (read s e) eqn:R; [intros _; eapply read_in, R | discriminate]. Qed.

Theorem event_clone_main s e i d : heap_wf s -> event_view s e = Some (i, d) ->
  exists e' s' i', event_clone draw e s = Ok (e', s')
    /\ event_view s' e' = Some (i', d) /\ drawn_between draw s s' [i']
    /\ (forall a c, read s a = Some c -> read s' a = Some c)
    /\ heap_wf s' /\ in_heap s' e /\ in_heap s' e' /\ separate s' e e'.
Proof.
  intros W V. destruct (event_clone_own draw e _ s W V) as (e' & s' & E & X & W' & D & O).
  exists e', s', (draw (S (drawn s))). pose proof (own_event_view _ _ _ _ O) as V'.
  conj; auto.
  - exists [S (drawn s)]. split; [repeat constructor; intros []|]. split; [|reflexivity].
    constructor; [lia | constructor].
  - intros a c. now apply ext_read.
  - pose proof (view_in_heap_event _ _ _ V). pose proof (ext_length _ _ X). unfold in_heap in *. lia.
  - eapply view_in_heap_event, V'.
  - eapply copy_separate; [apply heap_wf_closed, W | exact X | eapply view_in_heap_event, V |].
    intros x. eapply own_event_reach, O.
Qed.

Theorem trace_clone_main s t v : heap_wf s -> trace_view s t = Some v ->
  exists t' s' v', trace_clone draw t s = Ok (t', s')
    /\ trace_view s' t' = Some v' /\ trace_shape v' = trace_shape v
    /\ drawn_between draw s s' (trace_ids v')
    /\ (forall a c, read s a = Some c -> read s' a = Some c)
    /\ heap_wf s' /\ in_heap s' t /\ in_heap s' t' /\ separate s' t t'.
Proof.
  intros W V. destruct (trace_clone_own draw t _ s W V) as (t' & s' & E & X & W' & D & O).
  eexists t', s', _. pose proof (own_trace_view _ _ _ _ O) as V'.
  split; [exact E|]. split; [exact V'|]. conj; auto.
  - unfold trace_shape; cbn [fst snd]. now rewrite clone_events_snd.
  - eapply idx_drawn; [exact D|]. unfold trace_ids; cbn [snd]. apply clone_events_fst.
  - intros a c. now apply ext_read.
  - pose proof (view_in_heap_trace _ _ _ V). pose proof (ext_length _ _ X). unfold in_heap in *. lia.
  - eapply view_in_heap_trace, V'.
  - eapply copy_separate; [apply heap_wf_closed, W | exact X | eapply view_in_heap_trace, V |].
    intros x. eapply own_trace_reach, O.
Qed.

Theorem log_clone_main s l v : heap_wf s -> log_view s l = Some v ->
  exists l' s' v', log_clone draw l s = Ok (l', s')
    /\ log_view s' l' = Some v' /\ log_shape v' = log_shape v
    /\ drawn_between draw s s' (log_ids v')
    /\ (forall a c, read s a = Some c -> read s' a = Some c)
    /\ (exists x, get_log s' l' = Ok x /\ lc_info x = None)
    /\ heap_wf s' /\ in_heap s' l /\ in_heap s' l' /\ separate s' l l'.
Proof.
  intros W V. destruct (log_clone_own draw l _ s W V) as (l' & s' & E & X & W' & D & O).
  eexists l', s', _. pose proof (own_log_view _ _ _ _ O) as V'.
  split; [exact E|]. split; [exact V'|]. conj; auto.
  - unfold log_shape, clone_content; cbn. now rewrite clone_traces_shape.
  - eapply idx_drawn; [exact D|]. unfold log_ids, clone_content; cbn. apply clone_traces_ids.
  - intros a c. now apply ext_read.
  - destruct O as (x & R & O). exists x. unfold get_log. rewrite R.
    split; [reflexivity|]. apply O.
  - pose proof (view_in_heap_log _ _ _ V). pose proof (ext_length _ _ X). unfold in_heap in *. lia.
  - eapply view_in_heap_log, V'.
  - eapply copy_separate; [apply heap_wf_closed, W | exact X | eapply view_in_heap_log, V |].
    intros x. eapply own_log_reach, O.
Qed.

End Draw.

(** ** Later edits *)

Theorem edits_invisible A B s s' : heap_wf s -> in_heap s A -> in_heap s B -> separate s A B ->
  edits A B s s' ->
  log_view s' A = log_view s A /\ trace_view s' A = trace_view s A
  /\ event_view s' A = event_view s A
  /\ (forall a c k e v l m, read s a = Some (KAttr c k e v l m) ->
                            read s' a = Some (KAttr c k e v l m))
  /\ separate s' A B.
Proof.
  intros W HA HB S E. destruct (edits_kept A B s s' (heap_wf_closed _ W) HA HB S E) as [C1 A1 B1 S1 R1 Q1 T1].
  conj; auto using log_view_local, trace_view_local, event_view_local.
Qed.

Theorem set_value_shared s a v s' e i d k : attr_set_value a v s = Ok s' ->
  event_view s e = Some (i, d) ->
  event_view s' e = Some (i, d)
  /\ (sget k d = Some a -> event_value s' e k = Some v)
  /\ (sget k d <> Some a -> event_value s' e k = event_value s e k).
Proof.
  intros H V. unfold attr_set_value in H.
  destruct (read s a) as [[]|] eqn:R; try discriminate.
  destruct (is_collection c) eqn:C; [discriminate|]. injection H as <-.
  set (s' := write a _ s).
  assert (V' : event_view s' e = Some (i, d)).
  { unfold event_view, map_view in *.
    destruct (read s e) as [[]|] eqn:Re; try discriminate.
    destruct (read s m) as [[]|] eqn:Rm; try discriminate.
    unfold s'. rewrite read_write_other by (intros ->; congruence). rewrite Re.
    rewrite read_write_other by (intros ->; congruence). now rewrite Rm. }
  split; [exact V'|]. unfold event_value. rewrite V', V. split.
  - intros ->. unfold s'. rewrite read_write_same by (eapply read_in, R). now rewrite C.
  - intros N. destruct (sget k d) as [b|] eqn:G; [|reflexivity].
    unfold s'. rewrite read_write_other by congruence. reflexivity.
Qed.

(** ** Attributes *)

Lemma num_cmp_self x : x <> NNan -> num_cmp x x = Some Eq.
Proof.
  destruct x as [|[]|m e]; intros H; try reflexivity; [now destruct H|].
  unfold num_cmp, fin_cmp. now rewrite Z.compare_refl.
Qed.

Lemma py_eq_self v : v <> PFloat S754_nan -> py_eq v v = true.
Proof.
  intros H. unfold py_eq. destruct (num_of v) as [x|] eqn:E.
  - rewrite num_cmp_self; [reflexivity|]. intros ->.
    destruct v; try discriminate E. cbn in E. destruct f; try discriminate E. now apply H.
  - destruct v; try reflexivity; try discriminate E.
    + apply str_eqb_refl.
    + unfold dt_eqb. rewrite Bool.eqb_reflx. apply Z.eqb_refl.
    + apply N.eqb_refl.
Qed.

Theorem attr_clone_main (FIO : FloatIO) a : well_typed a -> is_collection (a_cls a) = false ->
  exists b, attr_clone a = Ok b /\ a_cls b = a_cls a /\ a_key b = a_key a /\ a_val b = a_val a
    /\ a_ext b = a_ext a /\ a_meta b = []
    /\ (a_val a <> PFloat S754_nan -> attr_eq false a b = true /\ attr_eq false b a = true).
Proof.
  intros T C.
  assert (E : attr_clone a = Ok (mk_attr (a_cls a) (a_key a) (a_ext a) (a_val a) [] [])).
  { destruct a as [c k e v l m]. unfold well_typed in T; cbn in *.
    destruct c, v; try destruct T; try discriminate; reflexivity. }
  eexists. split; [exact E|]. cbn. repeat (split; [reflexivity|]). intros NN.
  unfold attr_eq; cbn [a_cls a_key a_val]. rewrite C, acls_eqb_refl, str_eqb_refl, py_eq_self by exact NN.
  auto.
Qed.

Lemma map_get_extensions_nil m : map_get_extensions m [] = Ok [].
Proof. induction m as [|[k a] m IH]; cbn [map_get_extensions]; [reflexivity|]. now rewrite attr_get_extensions_nil. Qed.

(** ** Creation *)

Theorem construct_main draw dflt k arg s b :
  read s dflt = Some (KMap []) -> map_truth s arg = Ok b ->
  exists m s', construct draw dflt k arg s = Ok (m, s')
    /\ (forall a c, read s a = Some c -> read s' a = Some c)
    /\ (if passes_map k b then arg = Some m else ~ in_heap s m /\ map_view s' m = Some []).
Proof.
  intros R T. destruct (construct_choice draw dflt k arg s b R T) as (m & s' & E & X & C).
  exists m, s'. split; [exact E|]. split; [intros a c; now apply ext_read|].
  destruct C as [[-> ->]|[-> [L Rm]]]; [reflexivity|].
  split; [unfold in_heap; lia|]. unfold map_view. now rewrite Rm.
Qed.

Theorem program_main draw dflt s cs w :
  read s dflt = Some (KMap []) ->
  fold_res (run_cmd draw dflt) cs (mk_w s []) = Ok w ->
  map_view (w_st w) dflt = Some []
  /\ (forall i m g, nth_error (w_elems w) i = Some (m, g) -> m <> dflt)
  /\ (forall i j m g g', i < j -> nth_error (w_elems w) i = Some (m, g) ->
        nth_error (w_elems w) j = Some (m, g') -> g' = true).
Proof.
  intros R H. destruct (run_prog_ok draw dflt cs (mk_w s []) w) as (R' & F & U); [|exact H|].
  - split; [exact R|]. split; [constructor|]. intros i j m g g' _ Ni. now destruct i.
  - split; [unfold map_view; now rewrite R'|]. split; [|exact U].
    intros i m g Ni. rewrite Forall_forall in F. apply (F (m, g)). eapply nth_error_In, Ni.
Qed.

Theorem create_event_main draw s attribute identity b : map_truth s attribute = Ok b ->
  exists e s' i m, create_event draw attribute identity s = Ok (e, s')
    /\ get_event s' e = Ok (i, m)
    /\ (if b then attribute = Some m else ~ in_heap s m)
    /\ match b, identity with
       | true, Some x => i = x /\ drawn s' = drawn s
       | _, _ => i = draw (drawn s) /\ drawn s' = S (drawn s)
       end.
Proof.
  intros T. destruct (create_event_choice draw attribute identity s b T)
    as (e & s' & m & E & X & R & D & C).
  exists e, s', (match b, identity with true, Some x => x | _, _ => draw (drawn s) end), m.
  split; [exact E|]. unfold get_event. rewrite R. split; [reflexivity|]. split.
  - destruct C as [[H1 H2]|[H1 [L _]]]; rewrite T in H1; injection H1 as ->; auto.
    unfold in_heap. lia.
  - destruct b, identity; auto.
Qed.
