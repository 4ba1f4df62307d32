(** The token game of the nets the alpha algorithm makes. *)
From Coq Require Import String Arith NArith List Bool Lia Permutation.
From Verif Require Import Base.PyBase Model.Alpha Spec.AlphaNet Spec.Replay Proofs.BaseFacts Proofs.AlphaFacts
  Props.P_Alpha.
Import ListNotations.

Lemma is_in_In e l : is_in e l = true <-> In e l.
Proof.
  unfold is_in. rewrite existsb_exists. split.
  - intros (x & H & E). apply str_eqb_eq in E. now subst.
  - intros H. exists e. split; [exact H |]. now apply str_eqb_eq.
Qed.
Lemma is_in_not e l : is_in e l = false <-> ~ In e l.
Proof. rewrite <- is_in_In. destruct (is_in e l); split; congruence || intros []; auto. Qed.

Lemma among_app A u v : among A (u ++ v) = among A u + among A v.
Proof. unfold among. now rewrite filter_app, app_length. Qed.
Lemma among_cons A e t : among A (e :: t) = (if is_in e A then 1 else 0) + among A t.
Proof. unfold among. cbn. now destruct (is_in e A). Qed.
Lemma among_ext A B t : same_set A B -> among A t = among B t.
Proof.
  intros E. unfold among. f_equal. apply filter_ext. intros x.
  destruct (is_in x A) eqn:P, (is_in x B) eqn:Q; try reflexivity.
  - apply is_in_In in P. apply is_in_not in Q. now apply E in P.
  - apply is_in_In in Q. apply is_in_not in P. now apply E in Q.
Qed.

Section Net.
Variables (starting ending : list pystr) (order : list (list pystr * list pystr)) (events : list pystr).
Notation cons_of n := (nth n (consumers starting order) []).
Notation prod_of n := (nth n (producers ending order) []).
Notation runs := (runs starting ending order events).

(** The marking equation. *)
Lemma runs_iff t : forall M M', runs M t M' <->
  (forall e, In e t -> In e events) /\
  (forall n u e v, t = u ++ e :: v -> In e (cons_of n) -> among (cons_of n) u < M n + among (prod_of n) u) /\
  (forall n, M' n + among (cons_of n) t = M n + among (prod_of n) t).
Proof.
  induction t as [| e t IH]; intros M M'.
  - split.
    + intros H. inversion H; subst. repeat split.
      * intros e [].
      * intros n u x v E. destruct u; discriminate.
      * intros n. cbn. now rewrite H0.
    + intros (_ & _ & H). constructor. intros n. specialize (H n). cbn in H. lia.
  - split.
    + intros H. inversion H as [| M0 e0 t0 M0' En R]; subst. apply IH in R. destruct R as (R1 & R2 & R3).
      destruct En as [En1 En2].
      assert (V : forall n, M n + (if gives ending order e n then 1 else 0)
                       = fire starting ending order e M n + (if takes starting order e n then 1 else 0)).
      { intros n. unfold fire. destruct (takes starting order e n) eqn:T; [| lia].
        specialize (En2 n T). lia. }
      repeat split.
      * intros x [<- | Hx]; auto.
      * intros n u x v E Hx. destruct u as [| y u].
        { injection E as <- <-. cbn. apply is_in_In in Hx. specialize (En2 n Hx). lia. }
        injection E as <- E. specialize (R2 n u x v E Hx). rewrite !among_cons.
        specialize (V n). unfold gives, takes in V. lia.
      * intros n. rewrite !among_cons. specialize (R3 n). specialize (V n). unfold gives, takes in V. lia.
    + intros (H1 & H2 & H3).
      assert (En : enabled starting order events e M).
      { split; [apply H1; now left |]. intros n T.
        specialize (H2 n [] e t eq_refl (proj1 (is_in_In _ _) T)). cbn in H2. lia. }
      assert (V : forall n, M n + (if gives ending order e n then 1 else 0)
                       = fire starting ending order e M n + (if takes starting order e n then 1 else 0)).
      { intros n. unfold fire. destruct (takes starting order e n) eqn:T; [| lia].
        destruct En as [_ En]. specialize (En n T). lia. }
      constructor; [exact En |]. apply IH. repeat split.
      * intros x Hx. apply H1. now right.
      * intros n u x v E Hx. specialize (H2 n (e :: u) x v (f_equal _ E) Hx).
        rewrite !among_cons in H2. specialize (V n). unfold gives, takes in V. lia.
      * intros n. specialize (H3 n). rewrite !among_cons in H3. specialize (V n). unfold gives, takes in V. lia.
Qed.
End Net.

Lemma among_nil t : among [] t = 0.
Proof. unfold among. induction t; cbn; auto. Qed.

Lemma nth_fst n (l : list (list pystr * list pystr)) : nth n (map fst l) [] = fst (nth n l ([], [])).
Proof. exact (map_nth fst l ([], []) n). Qed.
Lemma nth_snd n (l : list (list pystr * list pystr)) : nth n (map snd l) [] = snd (nth n l ([], [])).
Proof. exact (map_nth snd l ([], []) n). Qed.

(** Every place. *)
Lemma nth_sides starting ending order n :
  (n = 0 /\ nth n (consumers starting order) [] = starting /\ nth n (producers ending order) [] = []) \/
  (n = 1 /\ nth n (consumers starting order) [] = [] /\ nth n (producers ending order) [] = ending) \/
  (exists p, In p order /\ nth n (consumers starting order) [] = snd p /\ nth n (producers ending order) [] = fst p) \/
  (nth n (consumers starting order) [] = [] /\ nth n (producers ending order) [] = [] /\ 2 <= n).
Proof.
  destruct n as [| [| n]]; [tauto | tauto |]. right. right. cbn.
  rewrite nth_fst, nth_snd.
  destruct (Nat.lt_ge_cases n (List.length order)) as [L | L].
  - left. exists (nth n order ([], [])). split; [now apply nth_In | auto].
  - right. rewrite nth_overflow by exact L. cbn. split; [reflexivity | split; [reflexivity | lia]].
Qed.

Lemma place_number starting ending order p : In p order -> exists n, 2 <= n /\
  nth n (consumers starting order) [] = snd p /\ nth n (producers ending order) [] = fst p.
Proof.
  intros H. apply (In_nth _ _ ([], [])) in H. destruct H as (n & L & E). exists (S (S n)). split; [lia |]. cbn.
  now rewrite nth_fst, nth_snd, E.
Qed.

Lemma once_among (P : pystr -> Prop) A t : (forall x, In x A <-> P x) -> (once P t <-> among A t = 1).
Proof.
  intros E. split.
  - intros (u & e & v & -> & Pe & N). rewrite among_app, among_cons.
    assert (Z : forall w, (forall x, In x w -> ~ P x) -> among A w = 0).
    { induction w as [| y w IH]; intros Hw; [reflexivity |]. rewrite among_cons, IH by (intros x Hx; apply Hw; now right).
      destruct (is_in y A) eqn:I; [| reflexivity]. apply is_in_In, E in I. exfalso. apply (Hw y); [now left | exact I]. }
    rewrite (Z u), (Z v) by (intros x Hx; apply N, in_app_iff; auto).
    apply E, is_in_In in Pe. now rewrite Pe.
  - assert (Z : forall w, among A w = 0 -> forall x, In x w -> ~ P x).
    { induction w as [| y w IH]; intros Hw x; [intros [] |]. rewrite among_cons in Hw.
      destruct (is_in y A) eqn:I; [discriminate |]. intros [<- | Hx].
      - rewrite <- E. now apply is_in_not.
      - now apply IH. }
    induction t as [| y t IH]; [discriminate |]. rewrite among_cons. destruct (is_in y A) eqn:I; intros H.
    + exists [], y, t. split; [reflexivity |]. split; [now apply E, is_in_In |]. cbn. apply Z. lia.
    + destruct (IH H) as (u & e & v & -> & Pe & N). exists (y :: u), e, v. split; [reflexivity |].
      split; [exact Pe |]. intros x [<- | Hx]; [| now apply N]. rewrite <- E. now apply is_in_not.
Qed.

Section Mined.
Context {SO : SetOrder}.
Variables (log : list (list pystr)) (al : alpha).
Hypothesis Run : alpha_of log = Ok al.

Lemma no_empty : ~ In [] log.
Proof. intros H. apply (C61_events SO log) in H. congruence. Qed.
Lemma sets_ok : (forall x, In x (al_starting al) <-> starts log x) /\
     (forall x, In x (al_ending al) <-> ends log x) /\
     (forall x, In x (al_all al) <-> occurs log x) /\ NoDup (al_all al).
Proof.
  destruct (proj2 (C61_events SO log) no_empty) as (al' & E & H). rewrite Run in E. now injection E as <-.
Qed.

(** The places are the maximal pairs. *)
Lemma place_maximal A B : In (A, B) (al_places al) -> maximal log A B.
Proof.
  intros H. destruct (C62_pairs SO log al Run) as (P1 & P2 & P3 & _). destruct (C63_places SO log al Run) as (Q & _).
  apply Q in H. destruct H as [H M]. split; [exact (proj1 (P1 A B H)) |].
  intros C D HCD IA IB. destruct (P2 C D HCD) as (C' & D' & I & EC & ED).
  assert (X : (C', D') = (A, B)).
  { apply M; [exact I |]. split; cbn; intros x Hx; [apply EC | apply ED]; auto. }
  injection X as -> ->. split; intros x Hx; [now apply EC | now apply ED].
Qed.
Lemma maximal_place A B : maximal log A B -> exists C D, In (C, D) (al_places al) /\ same_set A C /\ same_set B D.
Proof.
  intros [H M]. destruct (C62_pairs SO log al Run) as (P1 & P2 & P3 & _).
  destruct (C63_places SO log al Run) as (Q & U & _).
  destruct (P2 A B H) as (C & D & I & EC & ED). destruct (U (C, D) I) as ((C' & D') & I' & BC & BD). cbn in BC, BD.
  exists C', D'. split; [exact I' |]. pose proof (proj1 (proj1 (Q _) I')) as I2.
  destruct (M C' D' (proj1 (P1 _ _ I2))) as [M1 M2].
  - intros x Hx. apply BC, EC, Hx.
  - intros x Hx. apply BD, ED, Hx.
  - split; intros x; split; intros Hx; auto; [apply BC, EC, Hx | apply BD, ED, Hx].
Qed.

Lemma pair_disjoint A B x : pair_of_sets log A B -> In x A -> In x B -> False.
Proof. intros (_ & _ & _ & _ & _ & _ & H) Ha Hb. destruct (H x x Ha Hb). contradiction. Qed.

Section Order.
Variable order : list (list pystr * list pystr).
Hypothesis Ord : Permutation order (al_places al).
Notation replays := (replays (al_starting al) (al_ending al) order (al_all al)).

Lemma in_order p : In p order <-> In p (al_places al).
Proof. split; apply Permutation_in; [| symmetry]; exact Ord. Qed.

Lemma replays_iff t : replays t <->
  (forall e, In e t -> occurs log e) /\ once (starts log) t /\ once (ends log) t /\
  (forall A B, maximal log A B -> balanced A B t).
Proof.
  destruct sets_ok as (S1 & S2 & S3 & _). unfold Replay.replays. rewrite runs_iff.
  rewrite (once_among _ _ t S1), (once_among _ _ t S2). split.
  - intros (H1 & H2 & H3). split; [| split; [| split]].
    + intros e He. now apply S3, H1.
    + specialize (H3 0). cbn in H3. rewrite among_nil in H3. lia.
    + specialize (H3 1). cbn in H3. rewrite among_nil in H3. lia.
    + intros A B HM. destruct (maximal_place A B HM) as (C & D & I & EC & ED).
      pose proof (place_maximal C D I) as [PCD _].
      unfold balanced. rewrite (among_ext A C t EC), (among_ext B D t ED).
      apply in_order in I. destruct (place_number (al_starting al) (al_ending al) order (C, D) I) as (n & L & EN & EN').
      cbn [fst snd] in EN, EN'. split.
      * intros u v E. rewrite (among_ext A C u EC), (among_ext B D u ED).
        revert v E. induction u as [| x u IH] using rev_ind; intros v E; [reflexivity |].
        rewrite <- app_assoc in E. cbn in E. specialize (IH _ E). rewrite !among_app, !among_cons. cbn.
        destruct (is_in x D) eqn:XD; [| lia]. apply is_in_In in XD.
        specialize (H2 n u x v E). rewrite EN, EN' in H2. specialize (H2 XD).
        unfold one in H2. replace (Nat.eqb n 0) with false in H2 by (symmetry; apply Nat.eqb_neq; lia). lia.
      * specialize (H3 n). rewrite EN, EN' in H3. unfold one in H3.
        replace (Nat.eqb n 0) with false in H3 by (symmetry; apply Nat.eqb_neq; lia).
        replace (Nat.eqb n 1) with false in H3 by (symmetry; apply Nat.eqb_neq; lia). lia.
  - intros (H1 & H2 & H3 & H4). split; [| split].
    + intros e He. now apply S3, H1.
    + intros n u e v E.
      destruct (nth_sides (al_starting al) (al_ending al) order n) as [(-> & -> & ->) | [(-> & -> & ->) | [([A B] & I & EB & EA) | (-> & -> & L)]]]; try (intros []).
      * intros He. cbn. subst t. rewrite among_app, among_cons in H2. apply is_in_In in He. rewrite He in H2. rewrite among_nil. lia.
      * intros He. cbn [fst snd] in EA, EB. rewrite EB in He. rewrite EA, EB. apply in_order, place_maximal in I.
        pose proof (H4 A B I) as [Bu _]. specialize (Bu (u ++ [e]) v). rewrite <- app_assoc in Bu. specialize (Bu E).
        rewrite !among_app, !among_cons in Bu. pose proof (proj2 (is_in_In e B) He) as He'. rewrite He' in Bu.
        destruct (is_in e A) eqn:EA'; [| cbn in Bu; lia].
        apply is_in_In in EA'. destruct (pair_disjoint A B e (proj1 I) EA' He).
    + intros n.
      destruct (nth_sides (al_starting al) (al_ending al) order n) as [(-> & -> & ->) | [(-> & -> & ->) | [([A B] & I & EB & EA) | (EB & EA & L)]]].
      * rewrite among_nil. cbn. lia.
      * rewrite among_nil. cbn. lia.
      * rewrite EA, EB. cbn [fst snd]. apply in_order, place_maximal in I. destruct (H4 A B I) as [_ Eq]. rewrite Eq.
        assert (N : n <> 0 /\ n <> 1).
        { destruct I as [(NA & NB & _) _]. split; intros ->; cbn in EA, EB; subst; congruence. }
        unfold one. destruct N as [N0 N1]. apply Nat.eqb_neq in N0, N1. now rewrite N0, N1.
      * rewrite EA, EB, !among_nil. unfold one.
        replace (Nat.eqb n 0) with false by (symmetry; apply Nat.eqb_neq; lia).
        now replace (Nat.eqb n 1) with false by (symmetry; apply Nat.eqb_neq; lia).
Qed.

(** ** Sequential logs *)
Notation takes := (takes (al_starting al) order).
Notation gives := (gives (al_ending al) order).
Notation runs := (Replay.runs (al_starting al) (al_ending al) order (al_all al)).

Lemma runs_ext t M N M' : (forall n, M n = N n) -> runs M t M' -> runs N t M'.
Proof.
  intros E. rewrite !runs_iff. intros (H1 & H2 & H3). split; [exact H1 | split].
  - intros n u e v Et He. rewrite <- E. exact (H2 n u e v Et He).
  - intros n. rewrite <- E. apply H3.
Qed.

Lemma takes_iff x n : takes x n = true <->
  (n = 0 /\ starts log x) \/ (exists p, 2 <= n /\ nth_error order (n - 2) = Some p /\ In x (snd p)).
Proof.
  destruct sets_ok as (S1 & _). unfold Replay.takes. rewrite is_in_In. destruct n as [| [| n]]; cbn.
  - rewrite S1. split; [auto |]. intros [[_ H] | (p & L & _)]; [exact H | lia].
  - split; [intros [] |]. intros [[H _] | (p & L & _)]; lia.
  - rewrite Nat.sub_0_r, nth_snd. split.
    + intros H. right. destruct (nth_error order n) as [p |] eqn:E.
      * exists p. rewrite (nth_error_nth _ _ _ E) in H. split; [lia | auto].
      * apply nth_error_None in E. rewrite nth_overflow in H by exact E. destruct H.
    + intros [[H _] | (p & L & E & H)]; [lia |]. now rewrite (nth_error_nth _ _ _ E).
Qed.
Lemma gives_iff x n : gives x n = true <->
  (n = 1 /\ ends log x) \/ (exists p, 2 <= n /\ nth_error order (n - 2) = Some p /\ In x (fst p)).
Proof.
  destruct sets_ok as (_ & S2 & _). unfold Replay.gives. rewrite is_in_In. destruct n as [| [| n]]; cbn.
  - split; [intros [] |]. intros [[H _] | (p & L & _)]; lia.
  - rewrite S2. split; [auto |]. intros [[_ H] | (p & L & _)]; [exact H | lia].
  - rewrite Nat.sub_0_r, nth_fst. split.
    + intros H. right. destruct (nth_error order n) as [p |] eqn:E.
      * exists p. rewrite (nth_error_nth _ _ _ E) in H. split; [lia | auto].
      * apply nth_error_None in E. rewrite nth_overflow in H by exact E. destruct H.
    + intros [[H _] | (p & L & E & H)]; [lia |]. now rewrite (nth_error_nth _ _ _ E).
Qed.

Lemma order_pair n p : nth_error order n = Some p -> In p (al_places al) /\ pair_of_sets log (fst p) (snd p).
Proof.
  intros H. apply nth_error_In, in_order in H. split; [exact H |]. destruct p. exact (proj1 (place_maximal _ _ H)).
Qed.

Lemma order_NoDup : NoDup order.
Proof.
  apply (Permutation_NoDup (l := al_places al)); [symmetry; exact Ord |].
  exact (proj2 (proj2 (proj2 (proj2 (C63_places SO log al Run))))).
Qed.
Lemma order_one i j p : nth_error order i = Some p -> nth_error order j = Some p -> i = j.
Proof.
  intros Hi Hj. pose proof order_NoDup as N. rewrite NoDup_nth_error in N. apply N; [| congruence].
  apply nth_error_Some. congruence.
Qed.

Hypothesis Sq : sequential log.

Definition follow_b (a b : pystr) : bool := mem pair_eqb (a, b) (fp_direct log).
Lemma follow_b_ok a b : follow_b a b = true <-> follows log a b.
Proof. unfold follow_b. rewrite (mem_In _ pair_eqb_eq). apply direct_In. Qed.

(** The pair of all causes of [b] and all effects of [a]. *)
Definition pre (b : pystr) := filter (fun x => follow_b x b) (al_all al).
Definition post (a : pystr) := filter (fun y => follow_b a y) (al_all al).
Lemma pre_In b x : In x (pre b) <-> follows log x b.
Proof.
  destruct sets_ok as (_ & _ & S3 & _). unfold pre. rewrite filter_In, follow_b_ok, S3. split; [tauto |].
  intros H. split; [apply (follows_occurs log x b H) | exact H].
Qed.
Lemma post_In a y : In y (post a) <-> follows log a y.
Proof.
  destruct sets_ok as (_ & _ & S3 & _). unfold post. rewrite filter_In, follow_b_ok, S3. split; [tauto |].
  intros H. split; [apply (follows_occurs log a y H) | exact H].
Qed.

Lemma edge_pair a b : follows log a b -> pair_of_sets log (pre b) (post a).
Proof.
  destruct Sq as (_ & _ & Q3 & Q4 & Q5 & Q6). intros H.
  assert (Ne : forall l (x : pystr), In x l -> l <> []) by (intros l x I ->; destruct I).
  repeat split.
  - apply (Ne _ a). now apply pre_In.
  - apply (Ne _ b). now apply post_In.
  - intros x Hx. apply pre_In in Hx. apply (follows_occurs log _ _ Hx).
  - intros x Hx. apply post_In in Hx. apply (follows_occurs log _ _ Hx).
  - intros x y Hx Hy. apply pre_In in Hx, Hy. exact (Q6 x y b Hx Hy).
  - intros x y Hx Hy. apply post_In in Hx, Hy. exact (Q5 a x y Hx Hy).
  - apply pre_In in H0. apply post_In in H1. exact (Q4 a b y x H H1 H0).
  - apply pre_In in H0. apply post_In in H1. apply Q3. exact (Q4 a b y x H H1 H0).
Qed.

Lemma edge_above a b C D : follows log a b -> pair_of_sets log C D -> In a C \/ In b D ->
  incl C (pre b) /\ incl D (post a).
Proof.
  destruct Sq as (_ & _ & _ & Q4 & _). intros H (NC & ND & _ & _ & _ & _ & HC) [I | I].
  - assert (X : incl D (post a)) by (intros y Hy; apply post_In, (HC a y I Hy)). split; [| exact X].
    intros x Hx. apply pre_In. destruct D as [| d D]; [congruence |].
    destruct (HC x d Hx (or_introl eq_refl)) as [F _]. destruct (HC a d I (or_introl eq_refl)) as [G _].
    exact (Q4 a d b x G H F).
  - assert (X : incl C (pre b)) by (intros x Hx; apply pre_In, (HC x b Hx I)). split; [exact X |].
    intros y Hy. apply post_In. destruct C as [| c C]; [congruence |].
    destruct (HC c b (or_introl eq_refl) I) as [F _]. destruct (HC c y (or_introl eq_refl) Hy) as [G _].
    exact (Q4 c b y a F G H).
Qed.

Lemma edge_place a b C D : follows log a b -> In (C, D) (al_places al) -> In a C \/ In b D ->
  same_set C (pre b) /\ same_set D (post a).
Proof.
  intros H P I. destruct (place_maximal C D P) as [PC M].
  destruct (edge_above a b C D H PC I) as [I1 I2].
  destruct (M _ _ (edge_pair a b H) I1 I2) as [J1 J2]. split; intros x; split; auto.
Qed.

Lemma edge a b : follows log a b -> exists n, (forall m, gives a m = true <-> m = n) /\ (forall m, takes b m = true <-> m = n).
Proof.
  intros H. destruct Sq as (Q1 & Q2 & _).
  destruct (C62_pairs SO log al Run) as (_ & P2 & P3 & _). destruct (C63_places SO log al Run) as (Q & U & _).
  destruct (P2 _ _ (edge_pair a b H)) as (C & D & I & EC & ED). destruct (U (C, D) I) as (q & Iq & BC & BD). cbn in BC, BD.
  assert (Ia : In a (fst q)) by (apply BC, EC, pre_In, H).
  assert (Ib : In b (snd q)) by (apply BD, ED, post_In, H).
  assert (X : forall p, In p (al_places al) -> In a (fst p) \/ In b (snd p) -> p = q).
  { intros [A B] Ip Hp. destruct q as [A' B']. cbn in *.
    destruct (edge_place a b A B H Ip Hp) as [E1 E2]. destruct (edge_place a b A' B' H Iq (or_introl Ia)) as [F1 F2].
    destruct (P3 A B A' B') as [-> ->]; [apply Q, Ip | apply Q, Iq | | | reflexivity]; intros x.
    - now rewrite (E1 x), (F1 x).
    - now rewrite (E2 x), (F2 x). }
  pose proof (proj2 (in_order q) Iq) as Io. apply In_nth_error in Io. destruct Io as [k Ek].
  exists (S (S k)). split; intros m.
  - rewrite gives_iff. split.
    + intros [[_ E] | (p & L & Ep & Hp)]; [destruct (Q2 a b H E) |].
      destruct (order_pair _ _ Ep) as [Ip _]. specialize (X p Ip (or_introl Hp)). subst p.
      pose proof (order_one _ _ _ Ep Ek). lia.
    + intros ->. right. exists q. replace (S (S k) - 2) with k by lia. split; [lia | auto].
  - rewrite takes_iff. split.
    + intros [[_ E] | (p & L & Ep & Hp)]; [destruct (Q1 a b H E) |].
      destruct (order_pair _ _ Ep) as [Ip _]. specialize (X p Ip (or_intror Hp)). subst p.
      pose proof (order_one _ _ _ Ep Ek). lia.
    + intros ->. right. exists q. replace (S (S k) - 2) with k by lia. split; [lia | auto].
Qed.

Lemma out_one a : occurs log a -> exists o, forall m, gives a m = true <-> m = o.
Proof.
  intros (t & It & Ia). apply in_split in Ia. destruct Ia as (u & v & ->). destruct v as [| b v].
  - exists 1. assert (E : ends log a) by (exists u; exact It). destruct Sq as (_ & Q2 & _). intros m. rewrite gives_iff. split.
    + intros [[-> _] | (p & L & Ep & Hp)]; [reflexivity |]. destruct (order_pair _ _ Ep) as (_ & _ & NB & _ & _ & _ & _ & HC).
      destruct (snd p) as [| y B]; [congruence |]. destruct (HC a y Hp (or_introl eq_refl)) as [F _]. destruct (Q2 a y F E).
    + intros ->. auto.
  - destruct (edge a b) as (n & H & _); [now exists u, v |]. now exists n.
Qed.
Lemma in_one b : occurs log b -> exists i, forall m, takes b m = true <-> m = i.
Proof.
  intros (t & It & Ib). apply in_split in Ib. destruct Ib as (u & v & ->). destruct u as [| a u _] using rev_ind.
  - exists 0. assert (E : starts log b) by (exists v; exact It). destruct Sq as (Q1 & _). intros m. rewrite takes_iff. split.
    + intros [[-> _] | (p & L & Ep & Hp)]; [reflexivity |]. destruct (order_pair _ _ Ep) as (_ & NA & _ & _ & _ & _ & _ & HC).
      destruct (fst p) as [| x A]; [congruence |]. destruct (HC x b (or_introl eq_refl) Hp) as [F _]. destruct (Q1 x b F E).
    + intros ->. auto.
  - destruct (edge a b) as (n & _ & H); [exists u, v; now rewrite <- app_assoc in It |]. now exists n.
Qed.

Lemma fire_one b i o : (forall m, takes b m = true <-> m = i) -> (forall m, gives b m = true <-> m = o) ->
  forall n, fire (al_starting al) (al_ending al) order b (one i) n = one o n.
Proof.
  intros Hi Ho n. unfold fire, one.
  assert (Ti : takes b n = Nat.eqb n i).
  { destruct (Nat.eqb_spec n i) as [-> | N]; [now apply Hi |]. destruct (takes b n) eqn:T; [| reflexivity]. apply Hi in T. contradiction. }
  assert (To : gives b n = Nat.eqb n o).
  { destruct (Nat.eqb_spec n o) as [-> | N]; [now apply Ho |]. destruct (gives b n) eqn:T; [| reflexivity]. apply Ho in T. contradiction. }
  rewrite Ti, To. now destruct (Nat.eqb n i), (Nat.eqb n o).
Qed.

Fixpoint walk (a : pystr) (r : list pystr) : Prop :=
  match r with [] => ends log a | b :: r' => follows log a b /\ walk b r' end.

Lemma runs_walk r : forall a o, occurs log a -> (forall m, gives a m = true <-> m = o) ->
  (runs (one o) r (one 1) <-> walk a r).
Proof.
  destruct sets_ok as (_ & _ & S3 & _).
  induction r as [| b r IH]; intros a o Oa Ho; cbn [walk].
  - split.
    + intros H. inversion H as [M M' E |]; subst. specialize (E o). unfold one in E. rewrite Nat.eqb_refl in E.
      destruct (Nat.eqb_spec o 1) as [-> | N]; [| discriminate].
      pose proof (proj2 (Ho 1) eq_refl) as G. apply gives_iff in G. destruct G as [[_ G] | (p & L & _)]; [exact G | lia].
    + intros E. assert (G : gives a 1 = true) by (apply gives_iff; auto). apply Ho in G. subst o. now constructor.
  - split.
    + intros H. inversion H as [| M0 e0 t0 M0' [En1 En2] R]; subst. apply S3 in En1.
      destruct (in_one b En1) as [i Hi]. destruct (out_one b En1) as [o' Ho'].
      pose proof (En2 i (proj2 (Hi i) eq_refl)) as L. unfold one in L. destruct (Nat.eqb_spec i o) as [-> | N]; [| lia].
      assert (F : follows log a b).
      { pose proof (proj2 (Hi o) eq_refl) as T. pose proof (proj2 (Ho o) eq_refl) as G.
        apply takes_iff in T. apply gives_iff in G.
        destruct T as [[-> _] | (p & Lp & Ep & Hp)]; destruct G as [[G _] | (q & Lq & Eq & Hq)]; try lia.
        rewrite Ep in Eq. injection Eq as <-. destruct (order_pair _ _ Ep) as (_ & _ & _ & _ & _ & _ & _ & HC).
        exact (proj1 (HC a b Hq Hp)). }
      split; [exact F |]. apply (IH b o' En1 Ho'). revert R. apply runs_ext. now apply fire_one.
    + intros [F W]. destruct (edge a b F) as (n & Ha & Hb). pose proof (proj2 (follows_occurs log a b F)) as Ob.
      assert (n = o) as -> by now apply Ho, Ha.
      destruct (out_one b Ob) as [o' Ho']. constructor.
      * split; [now apply S3 |]. intros m T. apply Hb in T. subst m. unfold one. now rewrite Nat.eqb_refl.
      * apply (IH b o' Ob Ho') in W. revert W. apply runs_ext. intros m. symmetry. now apply fire_one.
Qed.

Lemma path_walk t : path log t <-> exists a r, t = a :: r /\ starts log a /\ walk a r.
Proof.
  split.
  - intros ((a & r & -> & Sa) & En & Ch). exists a, r. split; [reflexivity |]. split; [exact Sa |]. clear Sa.
    revert a En Ch. induction r as [| b r IH]; intros a (u & e & E & En) Ch; cbn [walk].
    + destruct u as [| x [| y u]]; [| discriminate | discriminate]. injection E as <-. exact En.
    + split; [exact (Ch [] a b r eq_refl) |]. apply IH.
      * destruct u as [| x u]; [discriminate |]. injection E as _ E. now exists u, e.
      * intros u' x y v E'. apply (Ch (a :: u') x y v). now rewrite E'.
  - intros (a & r & -> & Sa & W). split; [now exists a, r |]. clear Sa. revert a W.
    induction r as [| b r IH]; intros a W; cbn [walk] in W.
    + split; [now exists [], a |]. intros u x y v E. destruct u as [| z [| w u]]; discriminate.
    + destruct W as [F W]. destruct (IH b W) as [(u & e & E & En) Ch]. split.
      * exists (a :: u), e. split; [now rewrite E | exact En].
      * intros u' x y v E'. destruct u' as [| z u'].
        { injection E' as <- <- _. exact F. }
        injection E' as _ E'. exact (Ch u' x y v E').
Qed.

Lemma replays_path t : replays t <-> path log t.
Proof.
  destruct sets_ok as (S1 & _ & S3 & _). rewrite path_walk. unfold Replay.replays. split.
  - intros H. destruct t as [| a r].
    { inversion H as [M M' E |]; subst. specialize (E 0). discriminate. }
    inversion H as [| M0 e0 t0 M0' [En1 En2] R]; subst. apply S3 in En1.
    destruct (in_one a En1) as [i Hi]. destruct (out_one a En1) as [o Ho].
    pose proof (En2 i (proj2 (Hi i) eq_refl)) as L. unfold one in L. destruct (Nat.eqb_spec i 0) as [-> | N]; [| lia].
    exists a, r. split; [reflexivity |]. split.
    + pose proof (proj2 (Hi 0) eq_refl) as T. apply takes_iff in T. destruct T as [[_ T] | (p & Lp & _)]; [exact T | lia].
    + apply (runs_walk r a o En1 Ho). revert R. apply runs_ext. now apply fire_one.
  - intros (a & r & -> & Sa & W).
    assert (Oa : occurs log a) by (destruct Sa as [t It]; exists (a :: t); split; [exact It | now left]).
    destruct (in_one a Oa) as [i Hi]. destruct (out_one a Oa) as [o Ho].
    assert (T : takes a 0 = true) by (apply takes_iff; auto). apply Hi in T. subst i. constructor.
    + split; [now apply S3 |]. intros m Tm. apply Hi in Tm. subst m. unfold one. now rewrite Nat.eqb_refl.
    + apply (runs_walk r a o Oa Ho) in W. revert W. apply runs_ext. intros m. symmetry. now apply fire_one.
Qed.

Lemma traces_are_paths t : In t log -> path log t.
Proof.
  intros It. assert (N : t <> []) by (intros ->; exact (no_empty It)). repeat split.
  - destruct t as [| a r]; [congruence |]. exists a, r. split; [reflexivity |]. now exists r.
  - destruct (exists_last N) as (r & b & ->). exists r, b. split; [reflexivity |]. now exists r.
  - intros u a b v ->. now exists u, v.
Qed.
End Order.
End Mined.

(** ** Replaying by computation *)
Section Compute.
Variables (starting ending : list pystr) (order : list (list pystr * list pystr)) (events : list pystr).
Notation places := (2 + List.length order).

Fixpoint play (M : list nat) (t : list pystr) : option (list nat) :=
  match t with
  | [] => Some M
  | e :: r =>
      if is_in e events && forallb (fun n => implb (takes starting order e n) (1 <=? nth n M 0)) (seq 0 places)
      then play (map (fire starting ending order e (fun k => nth k M 0)) (seq 0 places)) r
      else None
  end.

Lemma beyond e n : places <= n -> takes starting order e n = false /\ gives ending order e n = false.
Proof.
  intros L. unfold takes, gives, consumers, producers.
  rewrite !nth_overflow by (cbn; rewrite map_length; lia). split; reflexivity.
Qed.

Lemma play_runs t : forall M M', List.length M = places -> play M t = Some M' ->
  runs starting ending order events (fun n => nth n M 0) t (fun n => nth n M' 0).
Proof.
  induction t as [| e t IH]; intros M M' L H.
  - injection H as <-. now constructor.
  - cbn [play] in H. destruct (is_in e events) eqn:E; [| discriminate]. cbn [andb] in H.
    destruct (forallb _ _) eqn:F in H; [| discriminate]. rewrite forallb_forall in F.
    apply is_in_In in E. constructor.
    + split; [exact E |]. intros n T. destruct (Nat.lt_ge_cases n places) as [Ln | Ln].
      * assert (I : In n (seq 0 places)) by (apply in_seq; lia). specialize (F n I). rewrite T in F. unfold implb in F.
        now apply Nat.leb_le in F.
      * destruct (beyond e n Ln) as [X _]. congruence.
    + apply IH in H; [| now rewrite map_length, seq_length]. apply runs_iff in H. apply runs_iff.
      assert (X : forall n, nth n (map (fire starting ending order e (fun k => nth k M 0)) (seq 0 places)) 0
                 = fire starting ending order e (fun k => nth k M 0) n).
      { intros n. destruct (Nat.lt_ge_cases n places) as [Ln | Ln].
        - rewrite (nth_indep _ 0 (fire starting ending order e (fun k => nth k M 0) 0)) by (rewrite map_length, seq_length; lia).
          rewrite map_nth, seq_nth by lia. reflexivity.
        - rewrite nth_overflow by (rewrite map_length, seq_length; lia). unfold fire.
          destruct (beyond e n Ln) as [-> ->]. rewrite nth_overflow by lia. reflexivity. }
      destruct H as (H1 & H2 & H3). split; [exact H1 |]. split; intros n.
      * intros u x v Et I. rewrite <- X. exact (H2 n u x v Et I).
      * rewrite <- X. apply H3.
Qed.

Lemma play_replays t : play (1 :: repeat 0 (S (List.length order))) t = Some (0 :: 1 :: repeat 0 (List.length order)) ->
  replays starting ending order events t.
Proof.
  intros H. apply play_runs in H; [| cbn; now rewrite repeat_length].
  assert (R : forall k n, nth n (repeat 0 k) 0 = 0) by (intros k; induction k; intros [|]; cbn; auto).
  unfold replays. apply runs_iff in H. apply runs_iff. destruct H as (H1 & H2 & H3).
  assert (X : forall n, nth n (1 :: repeat 0 (S (List.length order))) 0 = one 0 n).
  { intros [| n]; [reflexivity |]. change (nth n (repeat 0 (S (List.length order))) 0 = 0). apply R. }
  assert (Y : forall n, nth n (0 :: 1 :: repeat 0 (List.length order)) 0 = one 1 n).
  { intros [| [| n]]; [reflexivity | reflexivity |]. change (nth n (repeat 0 (List.length order)) 0 = 0). apply R. }
  split; [exact H1 |]. split; intros n.
  - intros u x v Et I. rewrite <- X. exact (H2 n u x v Et I).
  - rewrite <- X, <- Y. apply H3.
Qed.
End Compute.
