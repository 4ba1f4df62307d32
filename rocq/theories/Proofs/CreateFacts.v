(** Creation of elements. *)
From Coq Require Import String NArith ZArith List Bool Lia Arith.
From Verif Require Import Base.PyBase Base.PyDate Base.PyVal Model.Attr Model.Log Model.Heap
  Spec.Clone Proofs.BaseFacts Proofs.CloneFacts Proofs.EditFacts.
Import ListNotations.

Section Draw.
Variable draw : nat -> N.

(** A new, empty map, or the one passed. *)
Definition new_map (s s' : st) (m : addr) : Prop :=
  List.length (cells s) <= m /\ read s' m = Some (KMap []).
Definition map_choice (arg : option addr) (s s' : st) (m : addr) : Prop :=
  map_truth s arg = Ok true /\ arg = Some m \/ map_truth s arg = Ok false /\ new_map s s' m.

Lemma attributable_choice arg s b : map_truth s arg = Ok b ->
  exists m s', attributable_init arg s = Ok (m, s') /\ ext s s' /\ drawn s' = drawn s
    /\ map_choice arg s s' m.
Proof.
  intros T. unfold attributable_init. rewrite T. cbn [bind].
  destruct b.
  - destruct arg as [a|]; [|discriminate]. exists a, s. conj; auto using ext_refl. left. auto.
  - destruct (alloc (KMap []) s) as [m s'] eqn:E. exists m, s'.
    assert (m = fst (alloc (KMap []) s)) as -> by (now rewrite E).
    assert (s' = snd (alloc (KMap []) s)) as -> by (now rewrite E).
    split; [now destruct arg|]. conj; auto using ext_alloc. right. split; [exact T|].
    split; [cbn; lia | apply read_alloc_new].
Qed.

Lemma choice_later arg s s' s'' m : ext s' s'' -> map_choice arg s s' m -> map_choice arg s s'' m.
Proof.
  intros X [H|(H & L & R)]; [now left | right]. split; [exact H|]. split; [exact L|].
  eapply ext_read; eauto.
Qed.

(** Passing on a map just made for an empty argument changes nothing essential. *)
Lemma choice_inner arg s s1 s' a m : map_truth s arg = Ok false -> ext s s1 ->
  read s1 a = Some (KMap []) -> map_choice (Some a) s1 s' m -> map_choice arg s s' m.
Proof.
  intros T X R [[H _]|(H & L & R')].
  - unfold map_truth, get_map in H. rewrite R in H. discriminate.
  - right. split; [exact T|]. split; [|exact R']. pose proof (ext_length _ _ X). lia.
Qed.

Lemma truth_later s s' arg b : ext s s' -> map_truth s arg = Ok b -> map_truth s' arg = Ok b.
Proof.
  intros X. destruct arg as [a|]; [|auto]. unfold map_truth, get_map.
  destruct (read s a) as [[]|] eqn:R; try discriminate.
  now rewrite (ext_read _ _ _ _ X R).
Qed.

Lemma truth_same s s' arg : cells s = cells s' -> map_truth s arg = map_truth s' arg.
Proof. intros E. destruct arg; auto. unfold map_truth, get_map, read. now rewrite E. Qed.

Lemma event_init_choice arg i s b : map_truth s arg = Ok b ->
  exists e s' m, event_init draw arg i s = Ok (e, s') /\ ext s s'
    /\ read s' e = Some (KEvent (match i with Some x => x | None => draw (drawn s) end) m)
    /\ drawn s' = (match i with Some _ => drawn s | None => S (drawn s) end)
    /\ map_choice arg s s' m.
Proof.
  intros T. unfold event_init. rewrite T. cbn [bind].
  assert (Core : forall arg1 s1, map_truth s1 arg1 = Ok b -> ext s s1 -> drawn s1 = drawn s ->
    exists e s' m,
    (let '(id, s) := match i with Some i => (i, s1) | None => create_id draw s1 end in
     let! p := attributable_init arg1 s in
     Ok (alloc (KEvent id (fst p)) (snd p))) = Ok (e, s')
    /\ ext s1 s'
    /\ read s' e = Some (KEvent (match i with Some x => x | None => draw (drawn s) end) m)
    /\ drawn s' = (match i with Some _ => drawn s | None => S (drawn s) end)
    /\ map_choice arg1 s1 s' m).
  { intros arg1 s1 T1 X1 D1.
    set (q := match i with Some i => (i, s1) | None => create_id draw s1 end).
    assert (Q1 : cells (snd q) = cells s1) by (unfold q; now destruct i).
    assert (Q2 : fst q = match i with Some x => x | None => draw (drawn s) end)
      by (unfold q; destruct i; [reflexivity | cbn; now rewrite D1]).
    assert (Q3 : drawn (snd q) = match i with Some _ => drawn s | None => S (drawn s) end)
      by (unfold q; destruct i; cbn; congruence).
    assert (Q4 : ext s1 (snd q)).
    { split; [exists []; now rewrite app_nil_r|]. rewrite Q3, D1. destruct i; lia. }
    destruct q as [id s2]. cbn [fst snd] in *.
    destruct (attributable_choice arg1 s2 b) as (m & s3 & E & X & D & C).
    { rewrite <- T1. now apply truth_same. }
    rewrite E. cbn [bind fst snd].
    eexists _, _, m. split; [reflexivity|].
    split; [eapply ext_trans; [exact Q4|]; eapply ext_trans; [exact X | apply (ext_alloc (KEvent id m) s3)]|].
    split; [rewrite <- Q2; apply (read_alloc_new (KEvent id m) s3)|].
    split; [cbn; congruence|].
    apply (choice_later _ _ s3); [apply (ext_alloc (KEvent id m) s3)|].
    destruct C as [[C1 C2]|(C1 & C2 & C3)]; [left|right]; split; auto.
    - rewrite <- C1. now apply truth_same.
    - rewrite <- C1. now apply truth_same.
    - split; [now rewrite <- Q1 | exact C3]. }
  destruct b.
  - destruct (Core arg s T (ext_refl s) eq_refl) as (e & s' & m & E & X & R & D & C).
    exists e, s', m. auto.
  - destruct (alloc (KMap []) s) as [a s1] eqn:A.
    assert (a = fst (alloc (KMap []) s)) as Ea by (now rewrite A).
    assert (s1 = snd (alloc (KMap []) s)) as Es by (now rewrite A).
    assert (X1 : ext s s1) by (rewrite Es; apply ext_alloc).
    assert (R1 : read s1 a = Some (KMap [])) by (rewrite Es, Ea; apply read_alloc_new).
    destruct (Core (Some a) s1) as (e & s' & m & E & X & R & D & C).
    + unfold map_truth, get_map. now rewrite R1.
    + exact X1.
    + rewrite Es. reflexivity.
    + exists e, s', m. conj; auto.
      * eapply ext_trans; eauto.
      * eapply choice_inner; eauto.
Qed.

Lemma trace_init_choice arg s b : map_truth s arg = Ok b ->
  exists t s' m, trace_init arg s = Ok (t, s') /\ ext s s' /\ read s' t = Some (KTrace m [])
    /\ map_choice arg s s' m.
Proof.
  intros T. unfold trace_init. destruct (attributable_choice arg s b T) as (m & s1 & E & X & D & C).
  rewrite E. cbn [bind fst snd]. eexists _, _, m. split; [reflexivity|].
  pose proof (ext_alloc (KTrace m []) s1) as X2.
  split; [eapply ext_trans; eauto|]. split; [apply (read_alloc_new (KTrace m []) s1)|].
  eapply choice_later; eauto.
Qed.

Lemma log_init_choice arg s b : map_truth s arg = Ok b ->
  exists l s' x, log_init arg s = Ok (l, s') /\ ext s s' /\ read s' l = Some (KLog x)
    /\ map_choice arg s s' (lc_map x).
Proof.
  intros T. unfold log_init. destruct (attributable_choice arg s b T) as (m & s1 & E & X & D & C).
  rewrite E. cbn [bind fst snd].
  destruct (alloc (KClfs []) s1) as [a2 s2] eqn:E2.
  assert (X2 : ext s1 s2) by (replace s2 with (snd (alloc (KClfs []) s1)) by (now rewrite E2); apply ext_alloc).
  destruct (alloc (KAttrs []) s2) as [a3 s3] eqn:E3.
  assert (X3 : ext s2 s3) by (replace s3 with (snd (alloc (KAttrs []) s2)) by (now rewrite E3); apply ext_alloc).
  destruct (alloc (KAttrs []) s3) as [a4 s4] eqn:E4.
  assert (X4 : ext s3 s4) by (replace s4 with (snd (alloc (KAttrs []) s3)) by (now rewrite E4); apply ext_alloc).
  destruct (alloc (KFeat []) s4) as [a5 s5] eqn:E5.
  assert (X5 : ext s4 s5) by (replace s5 with (snd (alloc (KFeat []) s4)) by (now rewrite E5); apply ext_alloc).
  destruct (alloc (KExts []) s5) as [a6 s6] eqn:E6.
  assert (X6 : ext s5 s6) by (replace s6 with (snd (alloc (KExts []) s5)) by (now rewrite E6); apply ext_alloc).
  set (x := mk_lc m [] a2 a3 a4 None a5 a6).
  eexists _, _, x. split; [reflexivity|].
  pose proof (ext_alloc (KLog x) s6) as X7.
  assert (X17 : ext s1 (snd (alloc (KLog x) s6))).
  { exact (ext_trans _ _ _ X2 (ext_trans _ _ _ X3 (ext_trans _ _ _ X4
      (ext_trans _ _ _ X5 (ext_trans _ _ _ X6 X7))))). }
  split; [eapply ext_trans; eauto|]. split; [apply (read_alloc_new (KLog x) s6)|].
  eapply choice_later; [exact X17 | exact C].
Qed.

(** The factory makes a map itself before the constructor replaces it again. *)
Lemma factory_choice (init : option addr -> st -> res (addr * st)) arg s b P :
  (forall arg s b, map_truth s arg = Ok b ->
     exists e s' m, init arg s = Ok (e, s') /\ ext s s' /\ P s' e m /\ map_choice arg s s' m) ->
  map_truth s arg = Ok b ->
  exists e s' m, (if b then init arg s
                  else let '(m, s) := alloc (KMap []) s in init (Some m) s) = Ok (e, s')
    /\ ext s s' /\ P s' e m /\ map_choice arg s s' m.
Proof.
  intros H T. destruct b; [now apply (H arg s true)|].
  destruct (alloc (KMap []) s) as [a s1] eqn:A.
  assert (a = fst (alloc (KMap []) s)) as Ea by (now rewrite A).
  assert (s1 = snd (alloc (KMap []) s)) as Es by (now rewrite A).
  assert (X1 : ext s s1) by (rewrite Es; apply ext_alloc).
  assert (R1 : read s1 a = Some (KMap [])) by (rewrite Es, Ea; apply read_alloc_new).
  destruct (H (Some a) s1 false) as (e & s' & m & E & X & R & C).
  { unfold map_truth, get_map. now rewrite R1. }
  exists e, s', m. conj; auto; [eapply ext_trans; eauto | eapply choice_inner; eauto].
Qed.

Lemma create_event_choice arg i s b : map_truth s arg = Ok b ->
  exists e s' m, create_event draw arg i s = Ok (e, s') /\ ext s s'
    /\ read s' e = Some (KEvent (match b, i with true, Some x => x | _, _ => draw (drawn s) end) m)
    /\ drawn s' = (match b, i with true, Some _ => drawn s | _, _ => S (drawn s) end)
    /\ map_choice arg s s' m.
Proof.
  intros T. unfold create_event. rewrite T. cbn [bind].
  destruct b; [destruct i as [x|]|].
  - destruct (event_init_choice arg (Some x) s true T) as (e & s' & m & H). exists e, s', m. exact H.
  - destruct (event_init_choice arg None s true T) as (e & s' & m & H). exists e, s', m. exact H.
  - destruct (event_init_choice None None s false eq_refl) as (e & s' & m & E & X & R & D & C).
    exists e, s', m. conj; auto.
    destruct C as [[C1 _]|[_ C]]; [discriminate C1|]. right. auto.
Qed.

Lemma construct_choice dflt k arg s b : read s dflt = Some (KMap []) -> map_truth s arg = Ok b ->
  exists m s', construct draw dflt k arg s = Ok (m, s') /\ ext s s'
    /\ (passes_map k b = true /\ arg = Some m \/ passes_map k b = false /\ new_map s s' m).
Proof.
  intros Rd T.
  assert (Fin : forall s' m, map_choice arg s s' m ->
    b = true /\ arg = Some m \/ b = false /\ new_map s s' m).
  { intros s' m [[H1 H2]|[H1 H2]]; rewrite T in H1; injection H1 as ->; auto. }
  assert (EM : forall s' a m, (exists i, read s' a = Some (KEvent i m)) ->
            map_of_new (Ok (a, s')) = Ok (m, s')).
  { intros s' a m (i & R). unfold map_of_new, element_map. cbn [bind fst snd]. now rewrite R. }
  destruct k; cbn [construct passes_map].
  - unfold element_init.
    destruct (attributable_choice (Some dflt) s false) as (m & s' & E & X & _ & C).
    { unfold map_truth, get_map. now rewrite Rd. }
    exists m, s'. conj; auto. right. split; [reflexivity|].
    destruct C as [[C1 _]|[_ C]]; [|exact C].
    unfold map_truth, get_map in C1. rewrite Rd in C1. discriminate.
  - unfold element_init. destruct (attributable_choice arg s b T) as (m & s' & E & X & _ & C).
    exists m, s'. auto.
  - destruct (event_init_choice arg identity s b T) as (e & s' & m & E & X & R & _ & C).
    exists m, s'. rewrite E. split; [apply EM; eauto | auto].
  - destruct (trace_init_choice arg s b T) as (e & s' & m & E & X & R & C).
    exists m, s'. rewrite E. split; [unfold map_of_new, element_map; cbn [bind fst snd]; now rewrite R | auto].
  - destruct (log_init_choice arg s b T) as (e & s' & x & E & X & R & C).
    exists (lc_map x), s'. rewrite E. split; [unfold map_of_new, element_map; cbn [bind fst snd]; now rewrite R | auto].
  - destruct (create_event_choice arg identity s b T) as (e & s' & m & E & X & R & _ & C).
    exists m, s'. rewrite E. split; [apply EM; eauto | auto].
  - destruct (factory_choice trace_init arg s b (fun s' e m => read s' e = Some (KTrace m [])))
      as (e & s' & m & E & X & R & C); [apply trace_init_choice | exact T |].
    exists m, s'. unfold create_trace. rewrite T. cbn [bind]. rewrite E.
    split; [unfold map_of_new, element_map; cbn [bind fst snd]; now rewrite R | auto].
  - destruct (factory_choice log_init arg s b
                (fun s' e m => exists x, read s' e = Some (KLog x) /\ m = lc_map x))
      as (e & s' & m & E & X & R & C); [| exact T |].
    { intros arg0 s0 b0 T0. destruct (log_init_choice arg0 s0 b0 T0) as (e & s' & x & H1 & H2 & H3 & H4).
      exists e, s', (lc_map x). conj; eauto. }
    exists m, s'. unfold create_log. rewrite T. cbn [bind]. rewrite E.
    destruct R as (x & R & ->).
    split; [unfold map_of_new, element_map; cbn [bind fst snd]; now rewrite R | auto].
Qed.

(** ** Programs *)

Definition elems_ok (dflt : addr) (w : world) : Prop :=
  read (w_st w) dflt = Some (KMap [])
  /\ Forall (fun p => in_heap (w_st w) (fst p) /\ fst p <> dflt) (w_elems w)
  /\ (forall i j m g g', i < j -> nth_error (w_elems w) i = Some (m, g) ->
        nth_error (w_elems w) j = Some (m, g') -> g' = true).

Lemma run_cmd_ok dflt w c w' : elems_ok dflt w -> run_cmd draw dflt w c = Ok w' -> elems_ok dflt w'.
Proof.
  intros (Rd & F & U) H. destruct c as [k m|i k a|i k]; cbn [run_cmd] in H.
  - apply bind_ok in H. destruct H as ([arg s1] & Em & H). cbn [fst snd] in H.
    apply bind_ok in H. destruct H as (b & T & H).
    apply bind_ok in H. destruct H as ([mm s2] & Cn & H). cbn [fst snd] in H. injection H as <-.
    assert (P : ext (w_st w) s1 /\ match arg with
                | None => True
                | Some a => in_heap s1 a /\ a <> dflt
                end).
    { destruct m as [|i|d]; cbn in Em.
      - injection Em as <- <-. split; [apply ext_refl | exact I].
      - destruct (nth_error (w_elems w) i) as [[a g]|] eqn:Ni; [|discriminate].
        injection Em as <- <-. split; [apply ext_refl|].
        rewrite Forall_forall in F. apply (F (a, g)). eapply nth_error_In, Ni.
      - injection Em as <- <-. split; [apply (ext_alloc (KMap d) (w_st w))|].
        pose proof (read_in _ _ _ Rd). split; [unfold in_heap; cbn; rewrite app_length; cbn; lia|].
        lia. }
    destruct P as [X1 Pa].
    pose proof (ext_read _ _ _ _ X1 Rd) as Rd1.
    destruct (construct_choice dflt k arg s1 b Rd1 T) as (m' & s' & E & X2 & C).
    rewrite E in Cn. injection Cn as -> ->.
    assert (X : ext (w_st w) s2) by (eapply ext_trans; eauto).
    pose proof (ext_length _ _ X1). pose proof (ext_length _ _ X2).
    unfold elems_ok; cbn [w_st w_elems]. split; [apply (ext_read _ _ _ _ X Rd)|].
    assert (Old : Forall (fun p => in_heap s2 (fst p) /\ fst p <> dflt) (w_elems w)).
    { eapply Forall_impl; [|exact F]. intros [a g] [H1 H2]. cbn in *. split; [|exact H2].
      unfold in_heap in *. lia. }
    split.
    + apply Forall_app. split; [exact Old|]. constructor; [|constructor]. cbn.
      destruct C as [[_ ->]|[_ [L R]]].
      * destruct Pa. split; [unfold in_heap in *; lia | assumption].
      * pose proof (read_in _ _ _ Rd1). split; [unfold in_heap; eapply read_in, R | lia].
    + intros i j m0 g g' Hij Ni Nj.
      destruct (Nat.lt_ge_cases j (List.length (w_elems w))) as [Lj|Lj].
      * rewrite nth_error_app1 in Nj by exact Lj. rewrite nth_error_app1 in Ni by lia. eauto.
      * rewrite nth_error_app2 in Nj by exact Lj.
        destruct (j - List.length (w_elems w)) eqn:Dj; cbn in Nj; [|now destruct n].
        injection Nj as <- <-.
        destruct C as [[C _]|[_ [L R]]]; [exact C|]. exfalso.
        rewrite nth_error_app1 in Ni by lia. apply nth_error_In in Ni.
        rewrite Forall_forall in F. destruct (F _ Ni) as [Hi _]. cbn in Hi.
        unfold in_heap in Hi. lia.
  - destruct (nth_error (w_elems w) i) as [[m g]|] eqn:Ni; [|discriminate].
    apply bind_ok in H. destruct H as (s' & P & H). injection H as <-.
    destruct (perform_ok _ _ _ _ P) as (c & c' & Rc & Ap & ->).
    rewrite Forall_forall in F. destruct (F _ (nth_error_In _ _ Ni)) as [_ Nd]. cbn in Nd.
    unfold elems_ok; cbn [w_st w_elems]. conj; auto.
    + rewrite read_write_other by exact Nd. exact Rd.
    + apply Forall_forall. intros p I. destruct (F p I). split; auto.
      unfold in_heap. rewrite write_length. assumption.
  - destruct (nth_error (w_elems w) i) as [[m g]|] eqn:Ni; [|discriminate].
    apply bind_ok in H. destruct H as (s' & P & H). injection H as <-.
    destruct (perform_ok _ _ _ _ P) as (c & c' & Rc & Ap & ->).
    rewrite Forall_forall in F. destruct (F _ (nth_error_In _ _ Ni)) as [_ Nd]. cbn in Nd.
    unfold elems_ok; cbn [w_st w_elems]. conj; auto.
    + rewrite read_write_other by exact Nd. exact Rd.
    + apply Forall_forall. intros p I. destruct (F p I). split; auto.
      unfold in_heap. rewrite write_length. assumption.
Qed.

Lemma run_prog_ok dflt cs : forall w w', elems_ok dflt w ->
  fold_res (run_cmd draw dflt) cs w = Ok w' -> elems_ok dflt w'.
Proof.
  induction cs as [|c cs IH]; cbn; intros w w' K H; [now injection H as <-|].
  apply bind_ok in H. destruct H as (w1 & H1 & H2). eapply IH; [|exact H2].
  eapply run_cmd_ok; eauto.
Qed.

End Draw.
