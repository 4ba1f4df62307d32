(** Lemmas about the heap of Model/Heap.v. *)
From Coq Require Import String NArith ZArith List Bool Lia Arith.
From Verif Require Import Base.PyBase Base.PyDate Base.PyVal Model.Attr Model.Log Model.Heap
  Spec.Clone Proofs.BaseFacts.
Import ListNotations.

Ltac conj := repeat match goal with |- _ /\ _ => split end.

(** ** Heap basics *)

Definition ext (s s' : st) : Prop :=
  (exists l, cells s' = cells s ++ l) /\ drawn s <= drawn s'.

Lemma ext_refl s : ext s s.
Proof. split; [exists []; now rewrite app_nil_r | lia]. Qed.
Lemma ext_trans a b c : ext a b -> ext b c -> ext a c.
Proof.
  intros [[l L] D] [[m M] E]. split; [|lia]. exists (l ++ m). now rewrite M, L, app_assoc.
Qed.
Lemma ext_alloc c s : ext s (snd (alloc c s)).
Proof. split; cbn; [eexists; reflexivity | lia]. Qed.
Lemma ext_read s s' a c : ext s s' -> read s a = Some c -> read s' a = Some c.
Proof.
  intros [[l L] _] R. unfold read in *. rewrite L, nth_error_app1; auto.
  apply nth_error_Some. congruence.
Qed.
Lemma ext_length s s' : ext s s' -> List.length (cells s) <= List.length (cells s').
Proof. intros [[l L] _]. rewrite L, app_length. lia. Qed.
Lemma ext_drawn s s' : ext s s' -> drawn s <= drawn s'.
Proof. now intros [_ D]. Qed.
Lemma read_in s a c : read s a = Some c -> a < List.length (cells s).
Proof. unfold read. intros H. apply nth_error_Some. congruence. Qed.

Lemma read_alloc_new c s : read (snd (alloc c s)) (fst (alloc c s)) = Some c.
Proof. unfold read, alloc; cbn. rewrite nth_error_app2, Nat.sub_diag; auto. Qed.

Lemma read_write_same a c s : a < List.length (cells s) -> read (write a c s) a = Some c.
Proof.
  unfold read, write; cbn. intros H. rewrite update_nth, Nat.eqb_refl.
  destruct (nth_error (cells s) a) eqn:E; [reflexivity|].
  apply nth_error_None in E. lia.
Qed.
Lemma read_write_other a b c s : a <> b -> read (write a c s) b = read s b.
Proof.
  unfold read, write; cbn. intros H. rewrite update_nth.
  destruct (Nat.eqb_spec a b); [contradiction | reflexivity].
Qed.
Lemma write_length a c s : List.length (cells (write a c s)) = List.length (cells s).
Proof. unfold write; cbn. apply update_length. Qed.

Lemma update_app_r {A} n (f : A -> A) l1 l2 : List.length l1 <= n ->
  update n f (l1 ++ l2) = l1 ++ update (n - List.length l1) f l2.
Proof.
  revert n. induction l1 as [|x t IH]; intros n H; cbn in *; [now rewrite Nat.sub_0_r|].
  destruct n; [lia|]. cbn. now rewrite IH by lia.
Qed.

(** A write above the old part keeps an extension. *)
Lemma ext_write s s' a c : ext s s' -> List.length (cells s) <= a -> ext s (write a c s').
Proof.
  intros [[l L] D] H. split; [|exact D]. unfold write; cbn. rewrite L, update_app_r by exact H.
  eexists; reflexivity.
Qed.

(** ** Map cloning *)

Lemma clone_fold (m0 m : sdict addr) : forall l acc,
  (forall k x, In (k, x) l -> sget k m = Some x) ->
  NoDup (map fst (acc ++ l)) ->
  fold_res (fun c k => match sget k m with
                       | Some x => Ok (sset k x c)
                       | None => Raise KeyError
                       end) (map fst l) acc = Ok (acc ++ l).
Proof.
  clear m0. induction l as [|[k x] t IH]; intros acc G ND; cbn; [now rewrite app_nil_r|].
  rewrite (G k x) by (now left). cbn.
  assert (NI : ~ In k (map fst acc)).
  { rewrite map_app in ND. cbn in ND. apply NoDup_remove_2 in ND.
    intros I. apply ND, in_or_app. now left. }
  rewrite sset_new by exact NI.
  rewrite IH.
  - now rewrite <- app_assoc.
  - intros k' x' I. apply G. now right.
  - now rewrite <- app_assoc.
Qed.

Lemma map_clone_ok a m s : read s a = Some (KMap m) -> dict_wf m ->
  map_clone a s = Ok (alloc (KMap m) s).
Proof.
  intros R W. unfold map_clone, get_map. rewrite R. cbn [bind].
  rewrite (clone_fold [] m m []); auto.
  intros k x I. now apply sin_get.
Qed.

(** ** Event cloning *)

Section Draw.
Variable draw : nat -> N.

Lemma event_init_none s :
  event_init draw None None s =
  Ok (S (S (List.length (cells s))),
      mk_st (cells s ++ [KMap []; KMap []; KEvent (draw (drawn s)) (S (List.length (cells s)))])
            (S (drawn s))).
Proof.
  unfold event_init, attributable_init, map_truth, create_id, alloc, get_map, read; cbn.
  rewrite nth_error_app2, Nat.sub_diag by auto; cbn.
  rewrite !app_length; cbn. rewrite <- !app_assoc; cbn.
  now rewrite !Nat.add_1_r.
Qed.

Lemma event_clone_ok e i a d s :
  read s e = Some (KEvent i a) -> read s a = Some (KMap d) -> dict_wf d ->
  event_clone draw e s =
  Ok (S (S (List.length (cells s))),
      mk_st (cells s ++ [KMap []; KMap [];
                         KEvent (draw (S (drawn s))) (S (S (S (List.length (cells s))))); KMap d])
            (S (S (drawn s)))).
Proof.
  intros Re Ra W. unfold event_clone. rewrite event_init_none. cbn [bind].
  set (s1 := mk_st _ _).
  assert (X : ext s s1) by (split; cbn; [eexists; reflexivity | lia]).
  unfold get_event at 1. rewrite (ext_read _ _ _ _ X Re). cbn [bind snd].
  rewrite (map_clone_ok _ d) by (auto; apply (ext_read _ _ _ _ X Ra)). cbn [bind].
  unfold s1, alloc, event_set_attributes, event_set_id, get_event, read, write, create_id.
  cbn [cells drawn bind fst snd].
  rewrite <- !app_assoc; cbn [app].
  set (n := List.length (cells s)). clear X. clearbody s1.
  remember (S (S n)) as c eqn:Hc.
  assert (N1 : forall l : list cell, nth_error (cells s ++ l) c = nth_error l 2).
  { intros l. rewrite nth_error_app2 by (unfold n in *; lia). f_equal. unfold n in *. lia. }
  assert (N2 : forall f (l : list cell), update c f (cells s ++ l) = cells s ++ update 2 f l).
  { intros f l. rewrite update_app_r by (unfold n in *; lia). do 2 f_equal. unfold n in *. lia. }
  rewrite N1; cbn [nth_error bind fst snd cells drawn].
  rewrite N2; cbn [update].
  rewrite N1; cbn [nth_error bind fst snd cells drawn].
  rewrite N2; cbn [update].
  rewrite app_length; cbn [List.length]. fold n.
  replace (n + 3) with (S c) by lia. now subst c.
Qed.


(** ** Well-formedness is kept *)

Lemma cell_wf_mono s s' c : List.length (cells s) <= List.length (cells s') ->
  cell_wf s c -> cell_wf s' c.
Proof.
  intros L [F W]. split; [|exact W]. eapply Forall_impl; [|exact F].
  unfold in_heap. intros a. lia.
Qed.

Lemma heap_wf_app s s' l : heap_wf s -> cells s' = cells s ++ l ->
  Forall (cell_wf s') l -> heap_wf s'.
Proof.
  intros W E F. unfold heap_wf. rewrite E. apply Forall_app. split; [|exact F].
  eapply Forall_impl; [|exact W]. intros c. apply cell_wf_mono. rewrite E, app_length. lia.
Qed.

Lemma heap_wf_alloc c s : heap_wf s -> cell_wf (snd (alloc c s)) c -> heap_wf (snd (alloc c s)).
Proof.
  intros W C. eapply heap_wf_app; [exact W | reflexivity |]. constructor; [exact C|constructor].
Qed.

Lemma heap_wf_read s a c : heap_wf s -> read s a = Some c -> cell_wf s c.
Proof. unfold heap_wf, read. rewrite Forall_forall. intros W R. apply W. eapply nth_error_In, R. Qed.

Lemma Forall_update {A} (P : A -> Prop) i f l :
  Forall P l -> (forall x, P (f x)) -> Forall P (update i f l).
Proof.
  intros F H. revert i. induction F as [|x t Px Ft IH]; intros [|i]; cbn; constructor; auto.
Qed.

Lemma heap_wf_write a c s : heap_wf s -> cell_wf s c -> heap_wf (write a c s).
Proof.
  intros W C. unfold heap_wf. cbn.
  assert (K : forall x, cell_wf s x -> cell_wf (write a c s) x)
    by (intros x; apply cell_wf_mono; rewrite write_length; lia).
  apply Forall_update; [eapply Forall_impl; [exact K | exact W] | intros _; now apply K].
Qed.

(** ** Objects that belong to a copy made after the heap had size [n] *)

Definition own_event (n : nat) (s : st) (e : addr) (v : N * sdict addr) : Prop :=
  exists m, read s e = Some (KEvent (fst v) m) /\ read s m = Some (KMap (snd v))
            /\ n <= e /\ n <= m.

Definition own_trace (n : nat) (s : st) (t : addr) (v : sdict addr * list (N * sdict addr)) : Prop :=
  exists m es, read s t = Some (KTrace m es) /\ read s m = Some (KMap (fst v))
               /\ Forall2 (own_event n s) es (snd v) /\ n <= t /\ n <= m.

Lemma Forall2_mono {A B} (P Q : A -> B -> Prop) l1 l2 :
  (forall a b, P a b -> Q a b) -> Forall2 P l1 l2 -> Forall2 Q l1 l2.
Proof. intros H F. induction F; constructor; auto. Qed.

(** Kinds of cells: writing to a trace or log cell moves nothing an event needs. *)
Definition agree_on (P : cell -> Prop) (s s' : st) : Prop :=
  forall a c, read s a = Some c -> P c -> read s' a = Some c.
Definition leaf_cell (c : cell) : Prop :=
  match c with KTrace _ _ | KLog _ => False | _ => True end.
Definition nolog_cell (c : cell) : Prop := match c with KLog _ => False | _ => True end.

Lemma ext_agree P s s' : ext s s' -> agree_on P s s'.
Proof. intros X a c R _. eapply ext_read; eauto. Qed.
Lemma write_agree (P : cell -> Prop) s a c c0 : read s a = Some c0 -> ~ P c0 -> agree_on P s (write a c s).
Proof.
  intros R NP b c1 Rb Pb. rewrite read_write_other; auto. intros ->. congruence.
Qed.
Lemma agree_weaken (P Q : cell -> Prop) s s' : (forall c, Q c -> P c) -> agree_on P s s' -> agree_on Q s s'.
Proof. intros H A a c R q. eapply A; eauto. Qed.

Lemma own_event_agree n s s' e v : agree_on leaf_cell s s' -> own_event n s e v -> own_event n s' e v.
Proof.
  intros A (m & R1 & R2 & L1 & L2). exists m.
  conj; auto; eapply A; eauto; exact I.
Qed.
Lemma own_trace_agree n s s' t v : agree_on nolog_cell s s' -> own_trace n s t v -> own_trace n s' t v.
Proof.
  intros A (m & es & R1 & R2 & F & L1 & L2). exists m, es.
  conj; auto; try (eapply A; eauto; exact I).
  eapply Forall2_mono; [|exact F]. intros a b. apply own_event_agree.
  eapply agree_weaken; [|exact A]. now intros [].
Qed.

Lemma own_event_view n s e v : own_event n s e v -> event_view s e = Some v.
Proof.
  intros (m & R1 & R2 & _). unfold event_view, map_view. rewrite R1, R2. now destruct v.
Qed.
Lemma all_some_Forall2 {A B} (f : A -> option B) l r :
  all_some (map f l) = Some r <-> Forall2 (fun a b => f a = Some b) l r.
Proof.
  split.
  - revert r. induction l as [|x t IH]; cbn; intros r H.
    + injection H as <-. constructor.
    + destruct (f x) eqn:E; [|discriminate].
      destruct (all_some (map f t)) eqn:E2; [|discriminate]. injection H as <-.
      constructor; auto.
  - induction 1 as [|x y l r E _ IH]; cbn; [reflexivity|]. now rewrite E, IH.
Qed.
Lemma own_trace_view n s t v : own_trace n s t v -> trace_view s t = Some v.
Proof.
  intros (m & es & R1 & R2 & F & _). unfold trace_view, map_view. rewrite R1, R2.
  rewrite (proj2 (all_some_Forall2 _ es (snd v))); [now destruct v|].
  eapply Forall2_mono; [|exact F]. intros a b. apply own_event_view.
Qed.

(** Views survive extension. *)
Lemma event_view_ext s s' e v : ext s s' -> event_view s e = Some v -> event_view s' e = Some v.
Proof.
  intros X. unfold event_view, map_view.
  destruct (read s e) as [[]|] eqn:R; try discriminate. rewrite (ext_read _ _ _ _ X R).
  destruct (read s m) as [[]|] eqn:R2; try discriminate. now rewrite (ext_read _ _ _ _ X R2).
Qed.
Lemma trace_view_ext s s' t v : ext s s' -> trace_view s t = Some v -> trace_view s' t = Some v.
Proof.
  intros X. unfold trace_view, map_view.
  destruct (read s t) as [[]|] eqn:R; try discriminate. rewrite (ext_read _ _ _ _ X R).
  destruct (read s m) as [[]|] eqn:R2; try discriminate. rewrite (ext_read _ _ _ _ X R2).
  destruct (all_some (map (event_view s) events)) eqn:E; [|discriminate]. intros <-.
  apply all_some_Forall2 in E.
  rewrite (proj2 (all_some_Forall2 (event_view s') events l)); [reflexivity|].
  eapply Forall2_mono; [|exact E]. intros a b. now apply event_view_ext.
Qed.

(** ** Events *)

Lemma event_clone_own e v s : heap_wf s -> event_view s e = Some v ->
  exists e' s', event_clone draw e s = Ok (e', s') /\ ext s s' /\ heap_wf s'
    /\ drawn s' = S (S (drawn s))
    /\ own_event (List.length (cells s)) s' e' (draw (S (drawn s)), snd v).
Proof.
  intros W V. unfold event_view, map_view in V.
  destruct (read s e) as [[]|] eqn:Re; try discriminate.
  destruct (read s m) as [[]|] eqn:Rm; try discriminate. injection V as <-.
  assert (D : dict_wf m0) by (apply (heap_wf_read _ _ _ W Rm)).
  rewrite (event_clone_ok e id m m0) by auto.
  eexists _, _. split; [reflexivity|].
  set (s' := mk_st _ _). set (n := List.length (cells s)).
  assert (L : List.length (cells s') = n + 4) by (cbn; rewrite app_length; reflexivity).
  split; [split; cbn; [eexists; reflexivity | lia]|].
  split.
  - eapply heap_wf_app; [exact W | reflexivity |].
    repeat apply Forall_cons; try apply Forall_nil; split; cbn; try exact I; try constructor;
      try (unfold in_heap; rewrite L; fold n; lia); try constructor; auto.
  - split; [reflexivity|]. exists (S (S (S n))). cbn [fst snd].
    unfold read, s'; cbn [cells]. fold n.
    rewrite !nth_error_app2 by (fold n; lia). fold n.
    replace (S (S n) - n) with 2 by lia. replace (S (S (S n)) - n) with 3 by lia.
    conj; auto; lia.
Qed.

(** ** Traces *)

Fixpoint clone_ids (k j : nat) : list N :=
  match j with O => [] | S j => draw (S k) :: clone_ids (S (S k)) j end.

Definition clone_events (k : nat) (l : list (N * sdict addr)) : list (N * sdict addr) :=
  combine (clone_ids k (List.length l)) (map snd l).

Lemma clone_events_cons k v l :
  clone_events k (v :: l) = (draw (S k), snd v) :: clone_events (S (S k)) l.
Proof. reflexivity. Qed.

Lemma trace_loop s clone m d : forall es vs s1 es1 vs1,
  Forall2 (fun e v => event_view s e = Some v) es vs ->
  ext s s1 -> heap_wf s1 ->
  read s1 clone = Some (KTrace m es1) -> List.length (cells s) <= clone ->
  read s1 m = Some (KMap d) -> List.length (cells s) <= m ->
  Forall2 (own_event (List.length (cells s)) s1) es1 vs1 ->
  exists s2 es2,
    fold_res (fun s e => let! p := event_clone draw e s in trace_append clone (fst p) (snd p)) es s1
      = Ok s2
    /\ ext s s2 /\ heap_wf s2 /\ drawn s2 = drawn s1 + 2 * List.length vs
    /\ read s2 clone = Some (KTrace m (es1 ++ es2)) /\ read s2 m = Some (KMap d)
    /\ Forall2 (own_event (List.length (cells s)) s2) (es1 ++ es2)
               (vs1 ++ clone_events (drawn s1) vs).
Proof.
  set (n := List.length (cells s)).
  induction es as [|e es IH]; intros vs s1 es1 vs1 F X W Rc Lc Rm Lm O.
  - inversion F; subst. exists s1, []. cbn. rewrite !app_nil_r. conj; auto.
  - inversion F as [|e0 v es0 vs0 Ve Fr]; subst.
    destruct (event_clone_own e v s1 W (event_view_ext _ _ _ _ X Ve))
      as (e' & s' & E & X' & W' & D' & O').
    cbn [fold_res]. rewrite E. cbn [bind fst snd].
    unfold trace_append at 1, get_trace. rewrite (ext_read _ _ _ _ X' Rc). cbn [bind fst snd].
    set (s3 := write clone _ s').
    assert (Rc' : read s' clone = Some (KTrace m es1)) by (now apply (ext_read _ _ _ _ X')).
    assert (Ag : agree_on leaf_cell s' s3) by (eapply write_agree; [exact Rc' | intros []]).
    destruct (IH vs0 s3 (es1 ++ [e']) (vs1 ++ [(draw (S (drawn s1)), snd v)])) as
      (s2 & es2 & Q & X2 & W2 & D2 & R2 & M2 & O2).
    + exact Fr.
    + apply ext_write; [eapply ext_trans; eauto | exact Lc].
    + apply heap_wf_write; [exact W'|].
      pose proof (heap_wf_read _ _ _ W' Rc') as [Fc _]. split; [|exact I].
      cbn in Fc |- *. inversion Fc as [|? ? Hm He]; subst.
      constructor; [exact Hm|]. apply Forall_app. split; [exact He|].
      constructor; [|constructor]. destruct O' as (m' & Re' & _). eapply read_in, Re'.
    + apply read_write_same. eapply read_in, Rc'.
    + exact Lc.
    + eapply Ag; [apply (ext_read _ _ _ _ X' Rm) | exact I].
    + exact Lm.
    + apply Forall2_app.
      * eapply Forall2_mono; [|exact O]. intros a b Ho. eapply own_event_agree; [exact Ag|].
        eapply own_event_agree; [apply ext_agree, X' | exact Ho].
      * constructor; [|constructor]. eapply own_event_agree; [exact Ag|].
        destruct O' as (m' & Re' & Rm' & L1 & L2). exists m'. conj; auto.
        -- pose proof (ext_length _ _ X). unfold n. lia.
        -- pose proof (ext_length _ _ X). unfold n. lia.
    + exists s2, (e' :: es2). cbn [drawn write s3] in D2, O2.
      rewrite clone_events_cons. unfold s3 in D2, O2. cbn [drawn write] in D2, O2.
      rewrite D' in D2, O2. rewrite <- (app_assoc es1) in O2, R2.
      rewrite <- (app_assoc vs1) in O2. cbn [app] in O2, R2.
      split; [exact Q|]. conj; auto. cbn [List.length]. lia.
Qed.

Lemma alloc_empty_wf s : heap_wf s -> heap_wf (snd (alloc (KMap []) s)).
Proof. intros W. apply heap_wf_alloc; auto. split; cbn; constructor. Qed.

Lemma attributable_init_some m d s : heap_wf s -> read s m = Some (KMap d) ->
  exists m' s', attributable_init (Some m) s = Ok (m', s') /\ ext s s' /\ heap_wf s'
    /\ drawn s' = drawn s /\ read s' m' = Some (KMap d) /\ (m' = m \/ m' = List.length (cells s)).
Proof.
  intros W R. unfold attributable_init, map_truth, get_map. rewrite R. cbn [bind].
  destruct d as [|p d].
  - eexists _, _. split; [reflexivity|]. split; [apply ext_alloc|].
    split; [now apply alloc_empty_wf|]. split; [reflexivity|].
    split; [apply read_alloc_new | now right].
  - exists m, s. split; [reflexivity|]. split; [apply ext_refl|]. auto.
Qed.

Lemma trace_clone_own t v s : heap_wf s -> trace_view s t = Some v ->
  exists t' s', trace_clone draw t s = Ok (t', s') /\ ext s s' /\ heap_wf s'
    /\ drawn s' = drawn s + 2 * List.length (snd v)
    /\ own_trace (List.length (cells s)) s' t' (fst v, clone_events (drawn s) (snd v)).
Proof.
  intros W V. unfold trace_view, map_view in V.
  destruct (read s t) as [[]|] eqn:Rt; try discriminate.
  destruct (read s m) as [[]|] eqn:Rm; try discriminate.
  destruct (all_some (map (event_view s) events)) as [l|] eqn:E; [|discriminate].
  injection V as <-. cbn [fst snd].
  apply all_some_Forall2 in E.
  unfold trace_clone, get_trace. rewrite Rt. cbn [bind fst snd].
  pose proof (heap_wf_read _ _ _ W Rm) as Wm.
  rewrite (map_clone_ok m m0) by (auto; apply Wm). cbn [bind].
  destruct (alloc (KMap m0) s) as [a s1] eqn:A.
  assert (A1 : a = fst (alloc (KMap m0) s)) by (now rewrite A).
  assert (A2 : s1 = snd (alloc (KMap m0) s)) by (now rewrite A).
  assert (W1 : heap_wf s1) by (subst s1; apply heap_wf_alloc; [exact W | split; [constructor | apply Wm]]).
  assert (R1 : read s1 a = Some (KMap m0)) by (subst; apply read_alloc_new).
  assert (X1 : ext s s1) by (subst; apply ext_alloc).
  unfold trace_init.
  destruct (attributable_init_some a m0 s1 W1 R1) as (m' & s2 & Q & X2 & W2 & D2 & R2 & C2).
  rewrite Q. cbn [bind fst snd].
  destruct (alloc (KTrace m' []) s2) as [c s3] eqn:B.
  assert (B1 : c = fst (alloc (KTrace m' []) s2)) by (now rewrite B).
  assert (B2 : s3 = snd (alloc (KTrace m' []) s2)) by (now rewrite B).
  assert (X3 : ext s2 s3) by (subst; apply ext_alloc).
  assert (X : ext s s3) by (eapply ext_trans; [exact X1 | eapply ext_trans; eauto]).
  assert (Ln : List.length (cells s) <= m').
  { destruct C2 as [->| ->]; [subst a; cbn; lia | apply ext_length, X1]. }
  assert (Lc : List.length (cells s) <= c).
  { rewrite B1; cbn. apply ext_length. exact (ext_trans _ _ _ X1 X2). }
  destruct (trace_loop s c m' m0 events l s3 [] []) as (s4 & es2 & Q4 & X4 & W4 & D4 & R4 & M4 & O4).
  - exact E.
  - exact X.
  - subst s3. apply heap_wf_alloc; [exact W2|]. split; [|exact I]. constructor; [|constructor].
    unfold in_heap; cbn. rewrite app_length. pose proof (read_in _ _ _ R2). lia.
  - subst. apply read_alloc_new.
  - exact Lc.
  - apply (ext_read _ _ _ _ X3 R2).
  - exact Ln.
  - constructor.
  - assert (D3 : drawn s3 = drawn s).
    { rewrite B2. cbn. rewrite D2, A2. reflexivity. }
    rewrite Q4. cbn [bind]. exists c, s4. split; [reflexivity|].
    rewrite D3 in *. cbn [app] in *.
    conj; auto. exists m', es2. conj; auto.
Qed.

(** ** Logs *)

Definition own_log (n : nat) (s : st) (l : addr) (v : log_content) : Prop :=
  exists x, read s l = Some (KLog x) /\ n <= l
    /\ read s (lc_map x) = Some (KMap (v_attrs v))
    /\ Forall2 (own_trace n s) (lc_traces x) (v_traces v)
    /\ read s (lc_clfs x) = Some (KClfs (v_clfs v))
    /\ read s (lc_gtrace x) = Some (KAttrs (v_gtrace v))
    /\ read s (lc_gevent x) = Some (KAttrs (v_gevent v))
    /\ read s (lc_feat x) = Some (KFeat (v_feat v))
    /\ read s (lc_exts x) = Some (KExts (v_exts v))
    /\ Forall (le n) [lc_map x; lc_clfs x; lc_gtrace x; lc_gevent x; lc_feat x; lc_exts x]
    /\ lc_info x = None.

Fixpoint clone_traces (k : nat) (l : list (sdict addr * list (N * sdict addr))) :=
  match l with
  | [] => []
  | v :: t => (fst v, clone_events k (snd v)) :: clone_traces (k + 2 * List.length (snd v)) t
  end.


Lemma alloc_step c s a s' : alloc c s = (a, s') -> heap_wf s -> cell_wf s c ->
  a = List.length (cells s) /\ ext s s' /\ heap_wf s' /\ read s' a = Some c /\ drawn s' = drawn s.
Proof.
  intros E W C. injection E as <- <-.
  split; [reflexivity|]. split; [apply (ext_alloc c s)|]. split; [|split].
  - apply (heap_wf_alloc c s); auto. eapply cell_wf_mono; [|exact C]. cbn. rewrite app_length. lia.
  - apply (read_alloc_new c s).
  - reflexivity.
Qed.

Lemma simple_wf s c : children c = [] ->
  match c with KMap m => dict_wf m | KExts l => NoDup (map x_uri l) | _ => True end -> cell_wf s c.
Proof. intros H K. split; [rewrite H; constructor | exact K]. Qed.

Lemma read_mono s s' a : ext s s' -> a < List.length (cells s) -> a < List.length (cells s').
Proof. intros X. pose proof (ext_length _ _ X). lia. Qed.

Lemma log_init_some m d s : heap_wf s -> read s m = Some (KMap d) ->
  exists l s' x, log_init (Some m) s = Ok (l, s') /\ ext s s' /\ heap_wf s' /\ drawn s' = drawn s
    /\ read s' l = Some (KLog x) /\ List.length (cells s) <= l
    /\ lc_traces x = [] /\ lc_info x = None
    /\ read s' (lc_map x) = Some (KMap d) /\ (lc_map x = m \/ List.length (cells s) <= lc_map x)
    /\ read s' (lc_exts x) = Some (KExts []) /\ List.length (cells s) <= lc_exts x.
Proof.
  intros W R. unfold log_init.
  destruct (attributable_init_some m d s W R) as (m' & s1 & Q & X1 & W1 & D1 & R1 & C1).
  rewrite Q. cbn [bind fst snd].
  destruct (alloc (KClfs []) s1) as [a2 s2] eqn:E2.
  destruct (alloc_step _ _ _ _ E2 W1) as (L2 & X2 & W2 & R2 & D2); [now apply simple_wf|].
  destruct (alloc (KAttrs []) s2) as [a3 s3] eqn:E3.
  destruct (alloc_step _ _ _ _ E3 W2) as (L3 & X3 & W3 & R3 & D3); [now apply simple_wf|].
  destruct (alloc (KAttrs []) s3) as [a4 s4] eqn:E4.
  destruct (alloc_step _ _ _ _ E4 W3) as (L4 & X4 & W4 & R4 & D4); [now apply simple_wf|].
  destruct (alloc (KFeat []) s4) as [a5 s5] eqn:E5.
  destruct (alloc_step _ _ _ _ E5 W4) as (L5 & X5 & W5 & R5 & D5); [now apply simple_wf|].
  destruct (alloc (KExts []) s5) as [a6 s6] eqn:E6.
  destruct (alloc_step _ _ _ _ E6 W5) as (L6 & X6 & W6 & R6 & D6); [apply simple_wf; [reflexivity|constructor]|].
  set (x := mk_lc m' [] a2 a3 a4 None a5 a6).
  assert (H1 : m' < List.length (cells s6)).
  { eapply read_mono; [|eapply read_in, R1].
    do 5 (eapply ext_trans; [eassumption|]). apply ext_refl. }
  assert (H2 : a2 < List.length (cells s6)).
  { eapply read_mono; [|eapply read_in, R2]. do 4 (eapply ext_trans; [eassumption|]). apply ext_refl. }
  assert (H3 : a3 < List.length (cells s6)).
  { eapply read_mono; [|eapply read_in, R3]. do 3 (eapply ext_trans; [eassumption|]). apply ext_refl. }
  assert (H4 : a4 < List.length (cells s6)).
  { eapply read_mono; [|eapply read_in, R4]. do 2 (eapply ext_trans; [eassumption|]). apply ext_refl. }
  assert (H5 : a5 < List.length (cells s6)).
  { eapply read_mono; [|eapply read_in, R5]. eassumption. }
  assert (H6 : a6 < List.length (cells s6)) by (eapply read_in, R6).
  destruct (alloc (KLog x) s6) as [a7 s7] eqn:E7.
  destruct (alloc_step _ _ _ _ E7 W6) as (L7 & X7 & W7 & R7 & D7).
  { split; [|exact I]. cbn. repeat (apply Forall_cons; [assumption|]). apply Forall_nil. }
  assert (X16 : ext s1 s6).
  { do 4 (eapply ext_trans; [eassumption|]). assumption. }
  exists a7, s7, x. cbn [lc_traces lc_info lc_map lc_exts x].
  pose proof (ext_length _ _ X1). pose proof (ext_length _ _ X16).
  conj; auto.
  - eapply ext_trans; [exact X1|]. eapply ext_trans; eauto.
  - congruence.
  - lia.
  - eapply ext_read; [|exact R1]. eapply ext_trans; eauto.
  - unfold x; cbn. destruct C1 as [->| ->]; [now left | right; lia].
  - eapply ext_read; eauto.
  - unfold x; cbn. rewrite L6. eapply Nat.le_trans; [apply (ext_length s s1 X1)|].
    apply ext_length. exact (ext_trans _ _ _ X2 (ext_trans _ _ _ X3 (ext_trans _ _ _ X4 X5))).
Qed.

Lemma exts_loop s x : forall es s1 acc,
  ext s s1 -> heap_wf s1 -> read s1 x = Some (KExts acc) -> List.length (cells s) <= x ->
  NoDup (map x_uri (acc ++ es)) ->
  exists s2, fold_res (fun s e => let! d := get_exts s x in
                                  Ok (write x (KExts (set_add xext_eqb e d)) s)) es s1 = Ok s2
    /\ ext s s2 /\ heap_wf s2 /\ drawn s2 = drawn s1
    /\ read s2 x = Some (KExts (acc ++ es)) /\ (forall a, a <> x -> read s2 a = read s1 a)
    /\ List.length (cells s2) = List.length (cells s1).
Proof.
  induction es as [|e es IH]; intros s1 acc X W R L ND.
  - exists s1. rewrite app_nil_r. cbn. conj; auto.
  - cbn [fold_res]. unfold get_exts at 1. rewrite R. cbn [bind].
    assert (SA : set_add xext_eqb e acc = acc ++ [e]).
    { unfold set_add. destruct (existsb (xext_eqb e) acc) eqn:Ex; [|reflexivity].
      apply existsb_exists in Ex. destruct Ex as (y & Iy & Ey). apply str_eqb_eq in Ey.
      exfalso. rewrite map_app in ND. cbn in ND. apply NoDup_remove_2 in ND. apply ND.
      apply in_or_app. left. rewrite Ey. now apply in_map. }
    rewrite SA.
    set (s1' := write x (KExts (acc ++ [e])) s1).
    destruct (IH s1' (acc ++ [e])) as (s2 & Q & X2 & W2 & D2 & R2 & O2 & L2).
    + now apply ext_write.
    + apply heap_wf_write; [exact W|]. apply simple_wf; [reflexivity|].
      replace (acc ++ e :: es) with ((acc ++ [e]) ++ es) in ND by (now rewrite <- app_assoc).
      rewrite map_app in ND. clear - ND. induction (map x_uri (acc ++ [e])) as [|u t IHt].
      * constructor.
      * cbn in ND. inversion ND; subst. constructor; auto.
        intros I. apply H1, in_or_app. now left.
    + apply read_write_same. eapply read_in, R.
    + exact L.
    + now rewrite <- app_assoc.
    + exists s2. rewrite <- app_assoc in R2. conj; auto.
      * intros a Na. rewrite O2 by exact Na. unfold s1'. apply read_write_other. congruence.
      * rewrite L2. unfold s1'. apply write_length.
Qed.

Lemma log_loop s clone x0 : forall ts vs s1 ts1 vs1,
  let cellof ts := KLog (mk_lc (lc_map x0) ts (lc_clfs x0) (lc_gtrace x0)
                               (lc_gevent x0) (lc_info x0) (lc_feat x0) (lc_exts x0)) in
  Forall2 (fun t v => trace_view s t = Some v) ts vs ->
  ext s s1 -> heap_wf s1 ->
  read s1 clone = Some (cellof ts1) -> List.length (cells s) <= clone ->
  Forall2 (own_trace (List.length (cells s)) s1) ts1 vs1 ->
  exists s2 ts2,
    fold_res (fun s t => let! p := trace_clone draw t s in log_append clone (fst p) (snd p)) ts s1
      = Ok s2
    /\ ext s s2 /\ heap_wf s2 /\ agree_on nolog_cell s1 s2
    /\ drawn s2 = drawn s1 + 2 * List.length (flat_map snd vs)
    /\ read s2 clone = Some (cellof (ts1 ++ ts2))
    /\ Forall2 (own_trace (List.length (cells s)) s2) (ts1 ++ ts2)
               (vs1 ++ clone_traces (drawn s1) vs).
Proof.
  set (n := List.length (cells s)).
  induction ts as [|t ts IH]; intros vs s1 ts1 vs1 cellof F X W Rc Lc O.
  - inversion F; subst. exists s1, []. cbn. rewrite !app_nil_r. conj; auto.
    apply ext_agree, ext_refl.
  - inversion F as [|t0 v ts0 vs0 Vt Fr]; subst.
    destruct (trace_clone_own t v s1 W (trace_view_ext _ _ _ _ X Vt))
      as (t' & s' & E & X' & W' & D' & O').
    cbn [fold_res]. rewrite E. cbn [bind fst snd].
    assert (Rc' : read s' clone = Some (cellof ts1)) by (now apply (ext_read _ _ _ _ X')).
    unfold log_append at 1, get_log. rewrite Rc'. unfold cellof at 1. cbn [bind].
    cbn [lc_map lc_traces lc_clfs lc_gtrace lc_gevent lc_info lc_feat lc_exts].
    fold (cellof (ts1 ++ [t'])).
    set (s3 := write clone _ s').
    assert (Ag : agree_on nolog_cell s' s3) by (eapply write_agree; [exact Rc' | intros []]).
    destruct (IH vs0 s3 (ts1 ++ [t']) (vs1 ++ [(fst v, clone_events (drawn s1) (snd v))])) as
      (s2 & ts2 & Q & X2 & W2 & A2 & D2 & R2 & O2).
    + exact Fr.
    + apply ext_write; [eapply ext_trans; eauto | exact Lc].
    + apply heap_wf_write; [exact W'|].
      pose proof (heap_wf_read _ _ _ W' Rc') as [Fc _]. split; [|exact I].
      unfold cellof in Fc |- *. cbn [children lc_map lc_traces lc_clfs lc_gtrace lc_gevent lc_feat lc_exts] in Fc |- *.
      apply Forall_app in Fc. destruct Fc as [F1 F2]. apply Forall_app. split; [exact F1|].
      apply Forall_app. split; [exact F2|].
      constructor; [|constructor]. destruct O' as (m' & es' & Re' & _). eapply read_in, Re'.
    + apply read_write_same. eapply read_in, Rc'.
    + exact Lc.
    + apply Forall2_app.
      * eapply Forall2_mono; [|exact O]. intros a b Ho. eapply own_trace_agree; [exact Ag|].
        eapply own_trace_agree; [apply ext_agree, X' | exact Ho].
      * constructor; [|constructor]. eapply own_trace_agree; [exact Ag|].
        pose proof (ext_length _ _ X) as Ln. fold n in Ln.
        destruct O' as (m' & es' & Re' & Rm' & Fe & L1 & L2). exists m', es'. conj; auto; try lia.
        eapply Forall2_mono; [|exact Fe]. intros a b (m2 & P1 & P2 & P3 & P4).
        exists m2. conj; auto; lia.
    + exists s2, (t' :: ts2). unfold s3 in D2, O2. cbn [drawn write] in D2, O2.
      rewrite D' in D2, O2. rewrite <- (app_assoc ts1) in O2, R2.
      rewrite <- (app_assoc vs1) in O2. cbn [app] in O2, R2.
      split; [exact Q|]. conj; auto.
      * intros a c Ra Pa. eapply A2; [|exact Pa]. eapply Ag; [|exact Pa].
        eapply ext_read; eauto.
      * cbn [flat_map]. rewrite app_length. lia.
Qed.

Definition clone_content (k : nat) (v : log_content) : log_content :=
  mk_lv (v_attrs v) (clone_traces k (v_traces v)) (v_clfs v) (v_gtrace v) (v_gevent v)
        (v_feat v) (v_exts v).

Lemma log_clone_own l v s : heap_wf s -> log_view s l = Some v ->
  exists l' s', log_clone draw l s = Ok (l', s') /\ ext s s' /\ heap_wf s'
    /\ drawn s' = drawn s + 2 * List.length (flat_map snd (v_traces v))
    /\ own_log (List.length (cells s)) s' l' (clone_content (drawn s) v).
Proof.
  intros W V. unfold log_view, map_view in V.
  destruct (read s l) as [[]|] eqn:Rl; try discriminate. rename l0 into x.
  destruct (read s (lc_map x)) as [[]|] eqn:Rm; try discriminate.
  destruct (all_some (map (trace_view s) (lc_traces x))) as [ts|] eqn:Et; [|discriminate].
  destruct (read s (lc_clfs x)) as [[]|] eqn:R1; try discriminate.
  destruct (read s (lc_gtrace x)) as [[]|] eqn:R2; try discriminate.
  destruct (read s (lc_gevent x)) as [[]|] eqn:R3; try discriminate.
  destruct (read s (lc_feat x)) as [[]|] eqn:R4; try discriminate.
  destruct (read s (lc_exts x)) as [[]|] eqn:R5; try discriminate.
  injection V as <-. rename s0 into es.
  apply all_some_Forall2 in Et.
  set (n := List.length (cells s)).
  unfold log_clone. unfold get_log at 1. rewrite Rl. cbn [bind].
  pose proof (heap_wf_read _ _ _ W Rm) as Wm.
  rewrite (map_clone_ok _ m) by (auto; apply Wm). cbn [bind].
  destruct (alloc (KMap m) s) as [a s1] eqn:A.
  destruct (alloc_step _ _ _ _ A W) as (La & X1 & W1 & Ra & D1); [split; [constructor | apply Wm]|].
  destruct (log_init_some a m s1 W1 Ra)
    as (c & s2 & y & Q & X2 & W2 & D2 & Rc & Lc & Ty & Iy & My & Cy & Ey & Ly).
  rewrite Q. cbn [bind]. unfold get_log at 1. rewrite Rc. cbn [bind].
  assert (X02 : ext s s2) by (eapply ext_trans; eauto).
  pose proof (ext_length _ _ X1) as N1. fold n in N1.
  unfold get_exts at 1. rewrite (ext_read _ _ _ _ X02 R5). cbn [bind].
  destruct (exts_loop s (lc_exts y) es s2 []) as (s3 & Q3 & X3 & W3 & D3 & R3' & O3 & N3); auto.
  { fold n. lia. }
  { cbn [app]. apply (heap_wf_read _ _ _ W R5). }
  cbn [app] in R3'.
  rewrite Q3. cbn [bind].
  unfold get_clfs. rewrite (ext_read _ _ _ _ X3 R1). cbn [bind].
  destruct (alloc (KClfs cs) s3) as [b1 s4] eqn:E4.
  destruct (alloc_step _ _ _ _ E4 W3) as (L4 & X4 & W4 & B1 & D4); [now apply simple_wf|].
  assert (X04 : ext s s4) by (eapply ext_trans; eauto).
  unfold get_attrs at 1. rewrite (ext_read _ _ _ _ X04 R2). cbn [bind].
  destruct (alloc (KAttrs l0) s4) as [b2 s5] eqn:E5.
  destruct (alloc_step _ _ _ _ E5 W4) as (L5 & X5 & W5 & B2 & D5); [now apply simple_wf|].
  assert (X05 : ext s s5) by (eapply ext_trans; eauto).
  unfold get_attrs at 1. rewrite (ext_read _ _ _ _ X05 R3). cbn [bind].
  destruct (alloc (KAttrs l1) s5) as [b3 s6] eqn:E6.
  destruct (alloc_step _ _ _ _ E6 W5) as (L6 & X6 & W6 & B3 & D6); [now apply simple_wf|].
  assert (X06 : ext s s6) by (eapply ext_trans; eauto).
  unfold get_feat at 1. rewrite (ext_read _ _ _ _ X06 R4). cbn [bind].
  destruct (alloc (KFeat d) s6) as [b4 s7] eqn:E7.
  destruct (alloc_step _ _ _ _ E7 W6) as (L7 & X7 & W7 & B4 & D7); [now apply simple_wf|].
  assert (X07 : ext s s7) by (eapply ext_trans; eauto).
  assert (X37 : ext s3 s7).
  { exact (ext_trans _ _ _ X4 (ext_trans _ _ _ X5 (ext_trans _ _ _ X6 X7))). }
  set (x0 := mk_lc (lc_map y) (lc_traces y) b1 b2 b3 (lc_info y) b4 (lc_exts y)).
  set (s8 := write c (KLog x0) s7).
  assert (Nc : c <> lc_exts y) by (intros Z; rewrite Z in Rc; congruence).
  assert (Rc3 : read s3 c = Some (KLog y)) by (now rewrite O3).
  assert (Rc7 : read s7 c = Some (KLog y)) by (apply (ext_read _ _ _ _ X37 Rc3)).
  assert (Ag : agree_on nolog_cell s7 s8) by (eapply write_agree; [exact Rc7 | intros []]).
  assert (NLm : lc_map y <> lc_exts y) by (intros Z; rewrite Z in My; congruence).
  assert (M3 : read s3 (lc_map y) = Some (KMap m)) by (now rewrite O3).
  pose proof (ext_length _ _ X07) as N7. fold n in N7.
  pose proof (ext_length _ _ X3) as N3'. fold n in N3'.
  pose proof (ext_length _ _ X4) as N4. pose proof (ext_length _ _ X5) as N5.
  pose proof (ext_length _ _ X6) as N6. pose proof (ext_length _ _ X7) as N7'.
  pose proof (read_in _ _ _ B1) as I1. pose proof (read_in _ _ _ B2) as I2.
  pose proof (read_in _ _ _ B3) as I3. pose proof (read_in _ _ _ B4) as I4.
  pose proof (read_in _ _ _ M3) as IM. pose proof (read_in _ _ _ R3') as IE.
  destruct (log_loop s c x0 (lc_traces x) ts s8 [] []) as (s9 & ts2 & Q9 & X9 & W9 & A9 & D9 & R9 & O9).
  - exact Et.
  - apply ext_write; [exact X07 | fold n; lia].
  - apply heap_wf_write; [exact W7|]. split; [|exact I]. unfold x0. cbn. rewrite Ty. cbn.
    repeat (apply Forall_cons; [unfold in_heap; lia|]). apply Forall_nil.
  - unfold s8. rewrite read_write_same by (eapply read_in, Rc7). unfold x0. cbn. now rewrite Ty.
  - fold n. lia.
  - constructor.
  - rewrite Q9. cbn [bind]. exists c, s9. split; [reflexivity|].
    assert (D8 : drawn s8 = drawn s) by (unfold s8; cbn; congruence).
    rewrite D8 in *. cbn [v_traces app] in *. conj; auto.
    eexists. split; [exact R9|]. unfold clone_content.
    cbn [lc_map lc_traces lc_clfs lc_gtrace lc_gevent lc_info lc_feat lc_exts x0
         v_attrs v_traces v_clfs v_gtrace v_gevent v_feat v_exts].
    assert (K : forall a q, read s7 a = Some q -> nolog_cell q -> read s9 a = Some q).
    { intros a0 q Rq Pq. eapply A9; [|exact Pq]. eapply Ag; eauto. }
    assert (X57 : ext s5 s7) by (eapply ext_trans; eauto).
    assert (X47 : ext s4 s7) by (eapply ext_trans; eauto).
    conj; auto.
    + fold n. lia.
    + apply K; [apply (ext_read _ _ _ _ X37 M3) | exact I].
    + apply K; [apply (ext_read _ _ _ _ X47 B1) | exact I].
    + apply K; [apply (ext_read _ _ _ _ X57 B2) | exact I].
    + apply K; [apply (ext_read _ _ _ _ X7 B3) | exact I].
    + apply K; [exact B4 | exact I].
    + apply K; [apply (ext_read _ _ _ _ X37 R3') | exact I].
    + unfold x0; cbn.
      repeat (apply Forall_cons; [|]); try apply Forall_nil;
        fold n; try lia; destruct Cy as [->|]; lia.
Qed.

End Draw.
