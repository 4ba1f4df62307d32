(** Mining, filtering and storing logs together. *)
From Coq Require Import String NArith ZArith List Bool Permutation Lia.
From Verif Require Import Base.PyBase Base.PyVal Model.Attr Model.Log Model.Classify Model.Alpha Model.Examples Model.Registry
  Spec.AlphaNet Spec.Mining Spec.Transform Spec.Typing Spec.Xes Spec.Survive Spec.XmlNorm
  Proofs.BaseFacts Proofs.AlphaFacts Proofs.ExampleFacts Proofs.StatFacts Props.P_Alpha Props.P_Stats.
Import ListNotations.

(** ** Nets *)

Lemma pigeon {A B} (R : A -> B -> Prop) : forall (P : list A) (Q : list B), NoDup P ->
  (forall p, In p P -> exists q, In q Q /\ R p q) ->
  (forall p p' q, In p P -> In p' P -> R p q -> R p' q -> p = p') -> List.length P <= List.length Q.
Proof.
  induction P as [|p P IH]; intros Q N T I; cbn [List.length]; [lia|]. inversion N as [|? ? H N']; subst.
  destruct (T p (or_introl eq_refl)) as (q & q_in & r). apply in_split in q_in as (Q1 & Q2 & ->).
  rewrite app_length. cbn [List.length]. rewrite Nat.add_succ_r, <- app_length. apply le_n_S, (IH _ N').
  - intros p' p_in. destruct (T p' (or_intror p_in)) as (q' & q_in & r'). exists q'. split; [|easy].
    apply in_app_iff. apply in_app_iff in q_in as [?|[<-|?]]; auto. exfalso. apply H.
    now rewrite (I p p' q (or_introl eq_refl) (or_intror p_in) r r').
  - intros x y z X Y. apply I; now right.
Qed.

Definition twin (p q : list pystr * list pystr) : Prop := same_set (fst p) (fst q) /\ same_set (snd p) (snd q).

Lemma twin_sym p q : twin p q -> twin q p.
Proof. unfold twin, same_set. firstorder. Qed.
Lemma twin_trans p q r : twin p q -> twin q r -> twin p r.
Proof. unfold twin, same_set. intros [A B] [C D]. split; intros x; [rewrite A|rewrite B]; auto. Qed.

(** Lists of pairs in which no two are twins. *)
Definition apart (P : list (list pystr * list pystr)) : Prop := NoDup P /\ forall p q, In p P -> In q P -> twin p q -> p = q.

Lemma counterpart_pairs P Q : apart P -> apart Q -> counterpart P Q -> counterpart Q P -> same_pairs P Q.
Proof.
  intros [N I] [N' I'] C C'. split; [easy|]. split; [easy|].
  assert (L : forall P Q, NoDup P -> (forall p q, In p P -> In q P -> twin p q -> p = q) -> counterpart P Q -> List.length P <= List.length Q).
  { intros P0 Q0 N0 I0 C0. apply (pigeon twin); [easy| |].
    - intros [A B] H. destruct (C0 A B H) as (X & Y & K & E). exists (X, Y). auto.
    - intros p p' q H H' E E'. apply I0; auto. eapply twin_trans; [exact E|now apply twin_sym]. }
  apply Nat.le_antisymm; auto.
Qed.

Lemma pair_of_sets_same u v A B : (forall t, In t u <-> In t v) -> pair_of_sets u A B -> pair_of_sets v A B.
Proof.
  intros E. unfold pair_of_sets, causes. 
  assert (O : forall x, occurs u x <-> occurs v x) by (intros x; unfold occurs; split; intros (t & H & K); exists t; split; auto; now apply E).
  assert (F : forall x y, follows u x y <-> follows v x y) by (intros x y; unfold follows; split; intros (p & q & H); exists p, q; now apply E).
  intros (H1 & H2 & H3 & H4 & H5 & H6 & H7). repeat split; auto; intros.
  - apply O; auto.
  - apply O; auto.
  - rewrite <- F. auto.
  - rewrite <- F. auto.
  - apply F. now apply H7.
  - rewrite <- F. now apply H7.
Qed.

Lemma alpha_pairs SO SO' u v a b : (forall t, In t u <-> In t v) -> @alpha_of SO u = Ok a -> @alpha_of SO' v = Ok b ->
  counterpart (al_pairs a) (al_pairs b).
Proof.
  intros E H H' A B K. destruct (C62_pairs SO u a H) as (P & _). destruct (C62_pairs SO' v b H') as (_ & C & _).
  apply C. apply (pair_of_sets_same u); [easy|]. now apply P.
Qed.

Lemma alpha_apart SO u a : @alpha_of SO u = Ok a -> apart (al_pairs a).
Proof.
  intros H. destruct (C62_pairs SO u a H) as (_ & _ & U & N). split; [easy|].
  intros [A B] [C D] K L [X Y]. destruct (U A B C D K L X Y) as [-> ->]. reflexivity.
Qed.

Lemma alpha_places SO SO' u v a b : (forall t, In t u <-> In t v) -> @alpha_of SO u = Ok a -> @alpha_of SO' v = Ok b ->
  counterpart (al_places a) (al_places b).
Proof.
  intros E H H' A B K. destruct (C63_places SO u a H) as (P & _). destruct (C63_places SO' v b H') as (P' & _).
  apply P in K as [K M]. destruct (alpha_pairs SO SO' u v a b E H H' A B K) as (C & D & L & S1 & S2).
  exists C, D. split; [|auto]. apply P'. split; [easy|]. intros [X Y] Q [I1 I2]. cbn [fst snd] in *.
  assert (E' : forall t, In t v <-> In t u) by (intros t; now rewrite E).
  destruct (alpha_pairs SO' SO v u b a E' H' H X Y Q) as (V & W & Z & S3 & S4).
  assert (T : (V, W) = (A, B)).
  { apply M; [easy|]. split; cbn [fst snd]; intros x x_in; [apply S3, I1, S1|apply S4, I2, S2]; easy. }
  injection T as -> ->. destruct (alpha_apart SO' v b H') as [_ U]. apply U; auto. split; cbn [fst snd]; intros x.
  - now rewrite (S3 x), (S1 x).
  - now rewrite (S4 x), (S2 x).
Qed.

Lemma places_NoDup {SO : SetOrder} pairs : NoDup pairs -> NoDup (generate_places pairs).
Proof.
  assert (I : forall p l yl, NoDup yl -> NoDup (fold_left (fun yl q =>
      if negb (tuples_eqb p q) && issubset (fst p) (fst q) && issubset (snd p) (snd q)
      then discard tuples_eqb p yl else yl) l yl)).
  { intros p. induction l as [|q l IH]; intros yl N; cbn [fold_left]; [easy|]. apply IH.
    destruct (_ && _ && _); [|easy]. unfold discard. now apply NoDup_filter. }
  assert (J : forall f : list (list pystr * list pystr) -> list pystr * list pystr -> list (list pystr * list pystr),
    (forall p yl, NoDup yl -> NoDup (f yl p)) -> forall l yl, NoDup yl -> NoDup (fold_left f l yl)).
  { intros f F. induction l as [|p l IH]; intros yl N; cbn [fold_left]; auto. }
  unfold generate_places. apply J. intros p yl. apply I.
Qed.

Theorem same_variants_net SO SO' u v a : (forall t, In t u <-> In t v) -> @alpha_of SO u = Ok a ->
  exists b, @alpha_of SO' v = Ok b /\ same_net a b.
Proof.
  intros E H.
  assert (E' : forall t, In t v <-> In t u) by (intros t; now rewrite E).
  destruct (C61_events SO u) as [R G]. destruct (C61_events SO' v) as [R' G'].
  destruct G as (a' & K & S1 & S2 & S3 & _); [intros I; rewrite (R I) in H; discriminate|]. rewrite H in K. injection K as <-.
  destruct G' as (b & K & T1 & T2 & T3 & _); [intros I; apply E in I; rewrite (R I) in H; discriminate|].
  exists b. split; [easy|].
  assert (O : forall x, occurs u x <-> occurs v x) by (intros x; unfold occurs; split; intros (t & I & J); exists t; split; auto; now apply E).
  assert (F : forall x y, follows u x y <-> follows v x y) by (intros x y; unfold follows; split; intros (p & q & I); exists p, q; now apply E).
  pose proof (C61_relations SO u a H) as RA. pose proof (C61_relations SO' v b K) as RB.
  unfold same_net. repeat match goal with |- _ /\ _ => split end.
  - intros x. rewrite S1, T1. unfold starts. split; intros (t & I); exists t; now apply E.
  - intros x. rewrite S2, T2. unfold ends. split; intros (t & I); exists t; now apply E.
  - intros x. now rewrite S3, T3.
  - intros x y. destruct (RA x y) as (-> & _). destruct (RB x y) as (-> & _). apply F.
  - intros x y. destruct (RA x y) as (_ & -> & _). destruct (RB x y) as (_ & -> & _). now rewrite !F.
  - intros x y. destruct (RA x y) as (_ & _ & -> & _). destruct (RB x y) as (_ & _ & -> & _). now rewrite !F, !O.
  - intros x y. destruct (RA x y) as (_ & _ & _ & ->). destruct (RB x y) as (_ & _ & _ & ->). now rewrite !F.
  - apply counterpart_pairs; [exact (alpha_apart SO u a H)|exact (alpha_apart SO' v b K)|exact (alpha_pairs SO SO' u v a b E H K)|exact (alpha_pairs SO' SO v u b a E' K H)].
  - assert (AP : forall SO w c, @alpha_of SO w = Ok c -> apart (al_places c)).
    { intros SO0 w c C. destruct (alpha_apart SO0 w c C) as [N U]. destruct (C63_places SO0 w c C) as (P & _). split.
      - clear - C N. unfold alpha_of in C. destruct (extract_events w) as [[[s e] all]|]; [|discriminate]. injection C as <-.
        cbn [al_places al_pairs] in *. now apply places_NoDup.
      - intros p q I J. apply U; now apply P. }
    apply counterpart_pairs; [exact (AP SO u a H)|exact (AP SO' v b K)|exact (alpha_places SO SO' u v a b E H K)|exact (alpha_places SO' SO v u b a E' K H)].
Qed.

Theorem filtered_net (FIO : FloatIO) SO SO' c l vs f : map_res (variant c) (lg_traces l) = Ok vs -> filter_log c l = Ok f ->
  match @mine_log FIO SO c l, @mine_log FIO SO' c f with
  | Ok a, Ok b => same_net a b
  | Raise x, Raise y => x = y
  | _, _ => False
  end.
Proof.
  intros V F. destruct (filter_main c l vs V) as (ts & E & _ & ws & W & _ & I). rewrite E in F. injection F as <-.
  unfold mine_log. unfold variant in V, W. cbn [lg_traces]. rewrite V, W. cbn [bind].
  destruct (@alpha_of SO vs) as [a|x] eqn:A.
  - destruct (same_variants_net SO SO' vs ws a) as (b & -> & S); auto. intros t. now rewrite I.
  - destruct (C61_events SO vs) as [R G]. destruct (C61_events SO' ws) as [R' G'].
    assert (N : In [] vs).
    { destruct (in_dec (list_eq_dec (list_eq_dec N.eq_dec)) [] vs) as [Y|Y]; [easy|]. destruct (G Y) as (y & Z & _). rewrite Z in A. discriminate. }
    rewrite (R N) in A. injection A as <-. rewrite (R' (proj2 (I []) N)). reflexivity.
Qed.

(** ** Stored logs *)

Lemma kept_same (T : trace -> trace -> Prop) : forall vs ts us seen, Forall2 T ts us ->
  Forall2 T (map snd (kept seen (combine vs ts))) (map snd (kept seen (combine vs us))).
Proof.
  induction vs as [|v vs IH]; intros ts us seen F; [constructor|]. destruct F as [|t u ts us H F]; cbn [combine kept]; [constructor|].
  destruct (mem tuple_eqb v seen); [now apply IH|]. cbn [map snd]. constructor; auto.
Qed.

Theorem stored_mined (FIO : FloatIO) (SO : SetOrder) mgr urlparse draw l l' :
  readable_log l -> keyed_log l -> calm_log l -> stored mgr urlparse draw l l' -> forall c, zoned_for c l ->
  mine_log c l' = mine_log c l /\ log_vectors c l' = log_vectors c l.
Proof.
  intros R K C S c Z. destruct (C69_classes FIO mgr urlparse draw l l' R K C S c Z) as [V _].
  unfold mine_log, log_vectors. unfold variant in V. now rewrite V.
Qed.

Theorem stored_filtered (FIO : FloatIO) mgr urlparse draw l l' :
  readable_log l -> keyed_log l -> calm_log l -> stored mgr urlparse draw l l' -> forall c vs, zoned_for c l ->
  map_res (variant c) (lg_traces l) = Ok vs ->
  exists f f', filter_log c l = Ok f /\ filter_log c l' = Ok f'
    /\ same_map mgr (lg_attrs f) (lg_attrs f') /\ Forall2 (Xes.same_trace mgr) (lg_traces f) (lg_traces f').
Proof.
  intros R K C S c vs Z V. destruct (C69_classes FIO mgr urlparse draw l l' R K C S c Z) as [V' _]. rewrite V in V'.
  destruct (stored_content mgr urlparse draw l l' R K C S) as [A T].
  unfold filter_log, filter_traces.
  destruct (filter_gen c _ vs V [] [] eq_refl) as (r & -> & ->). destruct (filter_gen c _ vs V' [] [] eq_refl) as (r' & -> & ->).
  cbn [bind app]. do 2 eexists. split; [reflexivity|]. split; [reflexivity|]. cbn [lg_attrs lg_traces]. split; [easy|]. now apply kept_same.
Qed.

Lemma clusters_related (T : trace -> trace -> Prop) (G : xlog -> xlog -> Prop) f :
  (forall g g' t t', G g g' -> T t t' -> G (add_trace t g) (add_trace t' g')) ->
  forall vs ts us logs logs', Forall2 T ts us -> Forall2 G logs logs' ->
  match fold_res (fun logs '(v, t) => let k := f v in if Nat.ltb k (List.length logs) then Ok (update k (add_trace t) logs) else Raise KeyError)
          (combine vs ts) logs,
        fold_res (fun logs '(v, t) => let k := f v in if Nat.ltb k (List.length logs) then Ok (update k (add_trace t) logs) else Raise KeyError)
          (combine (vs : list (list nat)) us) logs' with
  | Ok r, Ok r' => Forall2 G r r'
  | Raise x, Raise y => x = y
  | _, _ => False
  end.
Proof.
  intros A. induction vs as [|v vs IH]; intros ts us logs logs' F H; [exact H|]. destruct F as [|t u ts us E F]; [exact H|].
  cbn [combine fold_res]. cbv zeta. assert (L : List.length logs = List.length logs') by (clear - H; induction H; cbn; auto).
  rewrite <- L. destruct (Nat.ltb (f v) (List.length logs)); [|reflexivity]. apply IH; [easy|].
  generalize (f v). clear - A H E. induction H as [|g g' r r' Q H IH]; intros [|n]; cbn [update]; try constructor; auto.
Qed.

Theorem stored_clustered (FIO : FloatIO) (SO : SetOrder) mgr urlparse draw l l' centres predict :
  readable_log l -> keyed_log l -> calm_log l -> stored mgr urlparse draw l l' -> forall c, zoned_for c l ->
  match cluster_log centres predict c l, cluster_log centres predict c l' with
  | Ok r, Ok r' => Forall2 (fun g g' => same_map mgr (lg_attrs g) (lg_attrs g') /\ Forall2 (Xes.same_trace mgr) (lg_traces g) (lg_traces g')) r r'
  | Raise x, Raise y => x = y
  | _, _ => False
  end.
Proof.
  intros R K C S c Z. destruct (stored_mined FIO SO mgr urlparse draw l l' R K C S c Z) as [_ V].
  destruct (stored_content mgr urlparse draw l l' R K C S) as [A T].
  unfold cluster_log. rewrite V. destruct (log_vectors c l) as [us|]; [|reflexivity]. cbn [bind].
  apply (clusters_related (Xes.same_trace mgr)); auto.
  - intros g g' t t' [H1 H2] H. cbn [add_trace lg_attrs lg_traces]. split; [easy|]. apply Forall2_app; auto.
  - induction (centres us); cbn [repeat]; constructor; auto. split; [exact A|constructor].
Qed.
