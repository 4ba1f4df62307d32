(** The alpha algorithm of the example computes what the literature says. *)
From Coq Require Import String NArith ZArith List Bool Permutation Lia Arith.
From Verif Require Import Base.PyBase Proofs.BaseFacts Model.Alpha Spec.AlphaNet.
Import ListNotations.

Section Sets.
Context {A : Type} (eqb : A -> A -> bool) (eqb_ok : forall x y, eqb x y = true <-> x = y).

Lemma mem_In x s : mem eqb x s = true <-> In x s.
Proof.
  unfold mem. rewrite existsb_exists. split.
  - intros (y & H & E). apply eqb_ok in E. now subst.
  - intros H. exists x. split; [exact H | now apply eqb_ok].
Qed.

Lemma mem_not x s : mem eqb x s = false <-> ~ In x s.
Proof.
  rewrite <- mem_In. destruct (mem eqb x s); intuition congruence.
Qed.

Lemma set_add_In x y s : In x (set_add eqb y s) <-> x = y \/ In x s.
Proof.
  unfold set_add. destruct (existsb (eqb y) s) eqn:E.
  - split; [now right |]. intros [-> | H]; [| exact H]. now apply mem_In.
  - rewrite in_app_iff. cbn. intuition congruence.
Qed.

Lemma set_add_NoDup y s : NoDup s -> NoDup (set_add eqb y s).
Proof.
  intros H. unfold set_add. destruct (existsb (eqb y) s) eqn:E; [exact H |].
  apply (Permutation_NoDup (l := y :: s)); [apply Permutation_cons_append |].
  constructor; [| exact H]. now apply mem_not in E.
Qed.

Lemma fold_add_In l : forall s x,
  In x (fold_left (fun s x => set_add eqb x s) l s) <-> In x l \/ In x s.
Proof.
  induction l as [| y l IH]; intros s x; cbn; [tauto |].
  rewrite IH, set_add_In. intuition congruence.
Qed.

Lemma fold_add_NoDup l : forall s, NoDup s ->
  NoDup (fold_left (fun s x => set_add eqb x s) l s).
Proof.
  induction l as [| y l IH]; intros s H; cbn; [exact H |].
  apply IH. now apply set_add_NoDup.
Qed.

Lemma set_of_In l x : In x (set_of eqb l) <-> In x l.
Proof. unfold set_of. rewrite fold_add_In. cbn. tauto. Qed.

Lemma set_of_NoDup l : NoDup (set_of eqb l).
Proof. apply fold_add_NoDup. constructor. Qed.

Lemma discard_In x y s : In x (discard eqb y s) <-> In x s /\ x <> y.
Proof.
  unfold discard. rewrite filter_In, negb_true_iff. split; intros [H K]; split; auto.
  - intros ->. rewrite (proj2 (eqb_ok y y) eq_refl) in K. discriminate.
  - destruct (eqb y x) eqn:E; [| reflexivity]. apply eqb_ok in E. congruence.
Qed.
End Sets.

Lemma tuple_eqb_eq a : forall b, tuple_eqb a b = true <-> a = b.
Proof.
  induction a as [| x a IH]; intros [| y b]; cbn; try easy.
  rewrite andb_true_iff, IH, str_eqb_eq. split; [intros [-> ->] | intros [= -> ->]]; auto.
Qed.

Lemma pair_eqb_eq p q : pair_eqb p q = true <-> p = q.
Proof.
  destruct p as [a b], q as [c d]. unfold pair_eqb. cbn.
  rewrite andb_true_iff, !str_eqb_eq. split; [intros [-> ->] | intros [= -> ->]]; auto.
Qed.

Lemma tuples_eqb_eq p q : tuples_eqb p q = true <-> p = q.
Proof.
  destruct p as [a b], q as [c d]. unfold tuples_eqb. cbn.
  rewrite andb_true_iff, !tuple_eqb_eq. split; [intros [-> ->] | intros [= -> ->]]; auto.
Qed.

Section WithOrder.
Context `{SO : SetOrder}.

Lemma iter_In {A} (l : list A) x : In x (iter l) <-> In x l.
Proof.
  split; apply Permutation_in; [| apply Permutation_sym]; apply iter_perm.
Qed.

Lemma iter_NoDup {A} (l : list A) : NoDup l -> NoDup (iter l).
Proof. apply Permutation_NoDup, Permutation_sym, iter_perm. Qed.

Lemma iter_length {A} (l : list A) : List.length (iter l) = List.length l.
Proof. apply Permutation_length, iter_perm. Qed.

(** ** Relations *)

Lemma neighbours_In t a b :
  In (a, b) (neighbours t) <-> exists pre post, t = pre ++ a :: b :: post.
Proof.
  induction t as [| x t IH]; cbn.
  - split; [easy |]. intros ([| ? ?] & ? & H); discriminate.
  - destruct t as [| y t].
    + split; [easy |]. intros ([| ? [| ? ?]] & ? & H); discriminate.
    + cbn [In]. rewrite IH. split.
      * intros [[= <- <-] | (pre & post & H)].
        -- now exists [], t.
        -- exists (x :: pre), post. now rewrite H.
      * intros ([| z pre] & post & H).
        -- injection H as <- <- <-. now left.
        -- injection H as <- H. right. now exists pre, post.
Qed.

Lemma direct_In log a b : In (a, b) (fp_direct log) <-> follows log a b.
Proof.
  unfold fp_direct, follows. rewrite iter_In, (set_of_In _ pair_eqb_eq), in_flat_map.
  split.
  - intros (t & Ht & H). apply neighbours_In in H. destruct H as (pre & post & ->).
    now exists pre, post.
  - intros (pre & post & H). eexists. split; [exact H |]. apply neighbours_In. eauto.
Qed.

Lemma causal_In log a b : In (a, b) (fp_causal (fp_direct log)) <-> causes log a b.
Proof.
  unfold fp_causal, causes.
  rewrite iter_In, (set_of_In _ pair_eqb_eq), filter_In, negb_true_iff,
    (mem_not _ pair_eqb_eq). unfold swap. cbn [fst snd]. now rewrite !direct_In.
Qed.

Lemma choice_In all log a b :
  In (a, b) (fp_choice all (fp_direct log))
  <-> (In a all /\ In b all) /\ unrelated log a b.
Proof.
  unfold fp_choice, unrelated.
  rewrite iter_In, (set_of_In _ pair_eqb_eq), filter_In, andb_true_iff, !negb_true_iff,
    !(mem_not _ pair_eqb_eq). unfold swap. cbn [fst snd].
  rewrite in_prod_iff, !direct_In, !iter_In. tauto.
Qed.

Lemma parallel_In all log a b :
  In (a, b) (fp_parallel all (fp_direct log))
  <-> (In a all /\ In b all) /\ concurrent log a b.
Proof.
  unfold fp_parallel, concurrent.
  rewrite iter_In, (set_of_In _ pair_eqb_eq), filter_In, andb_true_iff,
    !(mem_In _ pair_eqb_eq). unfold swap. cbn [fst snd].
  rewrite in_prod_iff, !direct_In, !iter_In. tauto.
Qed.

Lemma follows_occurs log a b : follows log a b -> occurs log a /\ occurs log b.
Proof.
  intros (pre & post & H). split; eexists; (split; [exact H |]); rewrite in_app_iff; cbn; auto.
Qed.

(** ** Events *)

Lemma last_ends t (x : pystr) : exists pre, x :: t = pre ++ [last (x :: t) x].
Proof.
  exists (removelast (x :: t)). apply app_removelast_last. discriminate.
Qed.

Lemma extract_gen log : forall s e a s' e' a',
  fold_res (fun '(s, e, a) t =>
    match t with
    | [] => Raise IndexError
    | x :: _ => Ok (set_add str_eqb x s, set_add str_eqb (last t x) e,
                    fold_left (fun a y => set_add str_eqb y a) t a)
    end) log (s, e, a) = Ok (s', e', a') ->
  (forall x, In x s' <-> starts log x \/ In x s) /\
  (forall x, In x e' <-> ends log x \/ In x e) /\
  (forall x, In x a' <-> occurs log x \/ In x a) /\
  (NoDup a -> NoDup a') /\ ~ In [] log.
Proof.
  induction log as [| t log IH]; intros s e a s' e' a' H.
  - injection H as <- <- <-. unfold starts, ends, occurs. cbn. firstorder.
  - cbn [fold_res] in H. destruct t as [| x t]; [discriminate |].
    apply IH in H. destruct H as (Hs & He & Ha & Hn & Hx). repeat split.
    + intros K. apply Hs in K. rewrite (set_add_In _ str_eqb_eq) in K.
      unfold starts. destruct K as [(u & K) | [-> | K]]; [left; exists u | left; exists t | right];
        cbn; auto.
    + intros K. apply Hs. rewrite (set_add_In _ str_eqb_eq). unfold starts in *.
      destruct K as [(u & [K | K]) | K]; [injection K as <- <- | |]; eauto.
    + intros K. apply He in K. rewrite (set_add_In _ str_eqb_eq) in K.
      unfold ends. destruct K as [(u & K) | [-> | K]].
      * left. exists u. cbn. auto.
      * left. destruct (last_ends t x) as [pre E]. exists pre. left. exact E.
      * now right.
    + intros K. apply He. rewrite (set_add_In _ str_eqb_eq). unfold ends in *.
      destruct K as [(u & [K | K]) | K]; eauto.
      right. left. rewrite K, last_last. reflexivity.
    + intros K. apply Ha in K. rewrite (fold_add_In _ str_eqb_eq) in K. unfold occurs.
      destruct K as [(u & K & L) | [K | K]].
      * left. exists u. cbn. auto.
      * left. exists (x :: t). cbn in *. auto.
      * now right.
    + intros K. apply Ha. rewrite (fold_add_In _ str_eqb_eq). unfold occurs in *.
      destruct K as [(u & [<- | K] & L) | K]; eauto.
    + intros K. apply Hn. now apply (fold_add_NoDup _ str_eqb_eq).
    + intros [K | K]; [discriminate | auto].
Qed.

Lemma extract_ok log s e a :
  extract_events log = Ok (s, e, a) ->
  (forall x, In x s <-> starts log x) /\ (forall x, In x e <-> ends log x) /\
  (forall x, In x a <-> occurs log x) /\ NoDup a /\ ~ In [] log.
Proof.
  intros H. apply extract_gen in H. destruct H as (Hs & He & Ha & Hn & Hx).
  repeat split; try (intros K; (apply Hs in K || apply He in K || apply Ha in K); cbn in K; tauto).
  - intros K. apply Hs. tauto.
  - intros K. apply He. tauto.
  - intros K. apply Ha. tauto.
  - apply Hn. constructor.
  - exact Hx.
Qed.

Lemma extract_raise log :
  (In [] log -> extract_events log = Raise IndexError) /\
  (~ In [] log -> exists x, extract_events log = Ok x).
Proof.
  unfold extract_events. generalize ([] : list pystr, [] : list pystr, [] : list pystr) as acc.
  induction log as [| t log IH]; intros [[s e] a]; split.
  - easy.
  - eexists. reflexivity.
  - intros [-> | H]; [reflexivity |]. destruct t; [reflexivity |]. cbn [fold_res].
    now apply IH.
  - intros H. destruct t as [| x t]; [exfalso; apply H; now left |]. cbn [fold_res].
    apply IH. intros K. apply H. now right.
Qed.

(** ** Combinations *)

Lemma combinations_incl {A} (l : list A) : forall n c,
  In c (combinations n l) -> incl c l /\ List.length c = n /\ (NoDup l -> NoDup c).
Proof.
  induction l as [| x l IH]; intros [| n] c H; cbn in H.
  - destruct H as [<- | []]. repeat split; auto using incl_nil_l.
  - easy.
  - destruct H as [<- | []]. repeat split; [apply incl_nil_l | constructor].
  - rewrite in_app_iff, in_map_iff in H. destruct H as [(d & <- & H) | H].
    + apply IH in H. destruct H as (Hi & Hl & Hn). repeat split.
      * intros y [-> | K]; [now left |]. right. now apply Hi.
      * cbn. now rewrite Hl.
      * intros N. inversion_clear N. constructor; [| auto]. intros K. now apply Hi in K.
    + apply IH in H. destruct H as (Hi & Hl & Hn). repeat split; auto.
      * now apply incl_tl.
      * intros N. inversion_clear N. auto.
Qed.

Lemma combinations_filter {A} (p : A -> bool) (l : list A) :
  In (filter p l) (combinations (List.length (filter p l)) l).
Proof.
  induction l as [| x l IH]; cbn; [now left |].
  destruct (p x); cbn.
  - rewrite in_app_iff. left. now apply in_map.
  - destruct (List.length (filter p l)) eqn:E.
    + left. apply length_zero_iff_nil in E. now rewrite E.
    + rewrite in_app_iff. now right.
Qed.

(** A combination is determined by its set of elements. *)
Lemma combinations_set {A} (l : list A) : NoDup l -> forall n m c d,
  In c (combinations n l) -> In d (combinations m l) ->
  (forall x, In x c <-> In x d) -> c = d.
Proof.
  intros N. induction N as [| x l Hx N IH]; intros n m c d Hc Hd E.
  - destruct n; cbn in Hc; [| easy]. destruct m; cbn in Hd; [| easy].
    destruct Hc as [<- | []], Hd as [<- | []]. reflexivity.
  - assert (S1 : forall k f, In f (combinations k (x :: l)) ->
      (exists j g, f = x :: g /\ In g (combinations j l)) \/
      (~ In x f /\ exists j, In f (combinations j l))).
    { intros k f H. destruct k; cbn in H.
      - destruct H as [<- | []]. right. split; [easy |]. exists 0. destruct l; now left.
      - rewrite in_app_iff, in_map_iff in H. destruct H as [(g & <- & H) | H].
        + left. eauto.
        + right. split; [| eauto]. intros K. apply combinations_incl in H.
          destruct H as [Hi _]. now apply Hi in K. }
    destruct (S1 _ _ Hc) as [(j & g & -> & Hg) | [Nc (j & Hg)]];
    destruct (S1 _ _ Hd) as [(k & h & -> & Hh) | [Nd (k & Hh)]].
    + f_equal. apply (IH _ _ _ _ Hg Hh). intros y. split; intros K.
      * assert (In y (x :: h)) as [-> | L] by (apply E; now right); [| exact L].
        apply combinations_incl in Hg. destruct Hg as [Hi _]. now apply Hi in K.
      * assert (In y (x :: g)) as [-> | L] by (apply E; now right); [| exact L].
        apply combinations_incl in Hh. destruct Hh as [Hi _]. now apply Hi in K.
    + exfalso. apply Nd, E. now left.
    + exfalso. apply Nc, E. now left.
    + now apply (IH _ _ _ _ Hg Hh).
Qed.

(** ** Pairs *)

Definition sub_sets (all : list pystr) : list (list pystr) :=
  flat_map (fun i => combinations i (iter all)) (seq 1 (List.length all - 1)).

Lemma sub_sets_In all c : In c (sub_sets all) <->
  exists i, 1 <= i < List.length all /\ In c (combinations i (iter all)).
Proof.
  unfold sub_sets. rewrite in_flat_map. split.
  - intros (i & H & K). apply in_seq in H. exists i. split; [lia | exact K].
  - intros (i & H & K). exists i. split; [apply in_seq; lia | exact K].
Qed.

Lemma check_one log all c :
  check_one_set c (fp_choice all (fp_direct log)) = true <->
  (forall x, In x c -> In x all) /\ (forall x y, In x c -> In y c -> ~ follows log x y).
Proof.
  unfold check_one_set. rewrite forallb_forall. split.
  - intros H. assert (K : forall x y, In x c -> In y c -> In (x, y) (fp_choice all (fp_direct log))).
    { intros x y Hx Hy. apply (mem_In _ pair_eqb_eq), H, in_prod; assumption. }
    split; intros.
    + specialize (K x x H0 H0). apply choice_In in K. tauto.
    + specialize (K x y H0 H1). apply choice_In in K. unfold unrelated in K. tauto.
  - intros [H K] [x y] P. apply in_prod_iff in P. apply (mem_In _ pair_eqb_eq), choice_In.
    destruct P as [Px Py]. unfold unrelated. auto 10.
Qed.

Lemma check_two log a b :
  check_two_set a b (fp_causal (fp_direct log)) = true <->
  (forall x y, In x a -> In y b -> causes log x y).
Proof.
  unfold check_two_set. rewrite forallb_forall. split.
  - intros H x y Hx Hy. apply causal_In, (mem_In _ pair_eqb_eq), H, in_prod; assumption.
  - intros K [x y] P. apply in_prod_iff in P. apply (mem_In _ pair_eqb_eq), causal_In.
    now apply K.
Qed.

Section Pairs.
Variables (log : list (list pystr)) (all : list pystr).
Hypothesis all_ok : forall x, In x all <-> occurs log x.
Hypothesis all_nd : NoDup all.

Let pairs := build_pairs all (footprint_of all log).

Lemma pairs_In a b : In (a, b) pairs <->
  In a (sub_sets all) /\ In b (sub_sets all) /\ pair_of_sets log a b.
Proof.
  unfold pairs, build_pairs. rewrite (set_of_In _ tuples_eqb_eq), in_flat_map.
  cbn [f_choice f_causal footprint_of].
  assert (NE : forall c, In c (sub_sets all) -> c <> []).
  { intros c H. apply sub_sets_In in H. destruct H as (i & Hi & H).
    apply combinations_incl in H. destruct H as (_ & H & _). intros ->. cbn in H. lia. }
  split.
  - intros (a' & Ha & H). rewrite iter_In, (set_of_In _ tuple_eqb_eq) in Ha.
    destruct (check_one_set a' _) eqn:C; [| easy]. apply in_map_iff in H.
    destruct H as (b' & [= -> ->] & H). apply filter_In in H.
    rewrite iter_In, (set_of_In _ tuple_eqb_eq), andb_true_iff in H.
    destruct H as (Hb & C' & C2). apply check_one in C, C'.
    pose proof (proj1 (check_two _ _ _) C2) as C3. clear C2.
    fold (sub_sets all) in *. split; [exact Ha |]. split; [exact Hb |].
    unfold pair_of_sets. destruct C as [O1 U1], C' as [O2 U2].
    repeat split; auto; try (intros; now apply all_ok; auto); try now apply C3.
  - intros (Ha & Hb & P). destruct P as (_ & _ & O1 & O2 & U1 & U2 & C).
    exists a. rewrite iter_In, (set_of_In _ tuple_eqb_eq). split; [exact Ha |].
    assert (C1 : check_one_set a (fp_choice all (fp_direct log)) = true).
    { apply check_one. split; [| exact U1]. intros. now apply all_ok, O1. }
    rewrite C1. apply in_map, filter_In.
    rewrite iter_In, (set_of_In _ tuple_eqb_eq), andb_true_iff. split; [exact Hb |]. split.
    + apply check_one. split; [| exact U2]. intros. now apply all_ok, O2.
    + now apply check_two.
Qed.

Lemma sub_set_nodup c : In c (sub_sets all) -> NoDup c.
Proof.
  intros H. apply sub_sets_In in H. destruct H as (i & _ & H).
  apply combinations_incl in H. now apply H, iter_NoDup.
Qed.

Lemma sub_set_eq c d : In c (sub_sets all) -> In d (sub_sets all) -> same_set c d -> c = d.
Proof.
  intros H K E. apply sub_sets_In in H, K. destruct H as (i & _ & H), K as (j & _ & K).
  exact (combinations_set _ (iter_NoDup _ all_nd) _ _ _ _ H K E).
Qed.

(** A set of occurring activities that is neither empty nor everything is one of the
    combinations. *)
Lemma canonical (c : list pystr) (x y : pystr) :
  In x c -> (forall z, In z c -> occurs log z) -> occurs log y -> ~ In y c ->
  exists d, In d (sub_sets all) /\ same_set c d.
Proof.
  intros Hx Hc Hy Ny. set (p := fun z => mem str_eqb z c).
  exists (filter p (iter all)). split.
  - apply sub_sets_In. exists (List.length (filter p (iter all))).
    split; [| apply combinations_filter].
    assert (In x (filter p (iter all))).
    { apply filter_In. rewrite iter_In. split; [now apply all_ok, Hc |].
      now apply (mem_In _ str_eqb_eq). }
    split; [destruct (filter p (iter all)); [easy | cbn; lia] |].
    assert (NoDup (y :: filter p (iter all))).
    { constructor; [| now apply NoDup_filter, iter_NoDup]. rewrite filter_In.
      intros [_ K]. now apply (mem_In _ str_eqb_eq) in K. }
    assert (L : incl (y :: filter p (iter all)) all).
    { intros z [<- | K]; [now apply all_ok |]. apply filter_In in K. now apply iter_In. }
    apply (NoDup_incl_length H0) in L. cbn in L. lia.
  - intros z. rewrite filter_In, iter_In. unfold p. rewrite (mem_In _ str_eqb_eq).
    split; [| tauto]. intros K. split; [now apply all_ok, Hc | exact K].
Qed.

Lemma pair_of_sets_ext a b c d :
  same_set a c -> same_set b d -> pair_of_sets log a b -> pair_of_sets log c d.
Proof.
  intros E F (N1 & N2 & O1 & O2 & U1 & U2 & C).
  assert (NE : forall l m, same_set l m -> l <> [] -> m <> []).
  { intros [| x l] m S N; [easy |]. intros ->. assert (In x []) by (apply S; now left). easy. }
  unfold pair_of_sets. repeat split; eauto; intros.
  - now apply O1, E.
  - now apply O2, F.
  - apply U1; now apply E.
  - apply U2; now apply F.
  - apply C; [now apply E | now apply F].
  - apply C; [now apply E | now apply F].
Qed.

Lemma pairs_complete a b : pair_of_sets log a b ->
  exists c d, In (c, d) pairs /\ same_set a c /\ same_set b d.
Proof.
  intros P. pose proof P as (N1 & N2 & O1 & O2 & U1 & U2 & C).
  destruct a as [| x a]; [easy |]. destruct b as [| y b]; [easy |].
  assert (X : In x (x :: a)) by now left. assert (Y : In y (y :: b)) by now left.
  destruct (C x y X Y) as [F _].
  destruct (canonical (x :: a) x y X O1 (O2 y Y)) as (c & Hc & Ec).
  { intros K. now apply (U1 x y X K). }
  destruct (canonical (y :: b) y x Y O2 (O1 x X)) as (d & Hd & Ed).
  { intros K. now apply (U2 x y K Y). }
  exists c, d. split; [| auto]. apply pairs_In. split; [exact Hc |]. split; [exact Hd |].
  now apply (pair_of_sets_ext (x :: a) (y :: b)).
Qed.

(** ** Maximal pairs *)

Lemma inner_spec p l : forall yl x,
  In x (fold_left (fun yl q =>
      if negb (tuples_eqb p q) && issubset (fst p) (fst q) && issubset (snd p) (snd q)
      then discard tuples_eqb p yl else yl) l yl)
  <-> In x yl /\ (x = p -> forall q, In q l -> q <> p -> ~ below p q).
Proof.
  induction l as [| q l IH]; intros yl x; cbn [fold_left].
  - firstorder.
  - rewrite IH. clear IH.
    assert (T : negb (tuples_eqb p q) && issubset (fst p) (fst q) && issubset (snd p) (snd q) = true
                <-> q <> p /\ below p q).
    { rewrite !andb_true_iff, negb_true_iff. unfold issubset, below, incl.
      rewrite !forallb_forall.
      assert (Q : tuples_eqb p q = false <-> q <> p).
      { destruct (tuples_eqb p q) eqn:E.
        - apply tuples_eqb_eq in E. subst. now split.
        - split; [| reflexivity]. intros _ ->.
          rewrite (proj2 (tuples_eqb_eq p p) eq_refl) in E. discriminate. }
      rewrite Q. split.
      - intros [[H1 H2] H3]. repeat split; auto; intros z Hz;
          [specialize (H2 z Hz) | specialize (H3 z Hz)]; now apply (mem_In _ str_eqb_eq).
      - intros (H1 & H2 & H3). repeat split; auto; intros z Hz;
          apply (mem_In _ str_eqb_eq); auto. }
    destruct (negb (tuples_eqb p q) && issubset (fst p) (fst q) && issubset (snd p) (snd q)).
    + rewrite (discard_In _ tuples_eqb_eq). assert (B : q <> p /\ below p q) by now apply T.
      split.
      * intros [[H N] K]. split; [exact H |]. intros ->. congruence.
      * intros [H K]. repeat split; auto.
        -- intros ->. apply (K eq_refl q); [now left | tauto | tauto].
        -- intros E q' Hq. apply K; [exact E | now right].
    + assert (B : ~ (q <> p /\ below p q)) by (intros B; apply T in B; discriminate).
      split; intros [H K]; (split; [exact H |]).
      * intros E q' [<- | Hq] N L; [tauto |]. now apply (K E q' Hq).
      * intros E q' Hq. apply K; [exact E | now right].
Qed.

Lemma outer_spec m l : forall yl x,
  In x (fold_left (fun yl p =>
    fold_left (fun yl q =>
      if negb (tuples_eqb p q) && issubset (fst p) (fst q) && issubset (snd p) (snd q)
      then discard tuples_eqb p yl else yl) m yl) l yl)
  <-> In x yl /\ (In x l -> forall q, In q m -> q <> x -> ~ below x q).
Proof.
  induction l as [| p l IH]; intros yl x; cbn [fold_left].
  - cbn. tauto.
  - rewrite IH, inner_spec. cbn [In]. split.
    + intros [[H K] L]. split; [exact H |]. intros [-> | M]; [now apply K | now apply L].
    + intros [H K]. split; [split; [exact H |] |]; auto. intros ->. auto.
Qed.

Lemma places_In p : In p (generate_places pairs) <->
  In p pairs /\ (forall q, In q pairs -> q <> p -> ~ below p q).
Proof.
  unfold generate_places. rewrite outer_spec, iter_In. split; intros [H K]; (split; [exact H |]).
  - intros q Hq. apply K; [exact H |]. now apply iter_In.
  - intros _ q Hq. apply (proj1 (iter_In _ _)) in Hq. exact (K q Hq).
Qed.

Lemma discard_NoDup {A} (eqb : A -> A -> bool) x l : NoDup l -> NoDup (discard eqb x l).
Proof. intros H. unfold discard. now apply NoDup_filter. Qed.
Lemma fold_NoDup {A B} (f : list A -> B -> list A) l : (forall x y, NoDup y -> NoDup (f y x)) ->
  forall y, NoDup y -> NoDup (fold_left f l y).
Proof. intros H. induction l as [| x l IH]; intros y N; cbn; auto. Qed.
Lemma places_NoDup : NoDup pairs -> NoDup (generate_places pairs).
Proof.
  unfold generate_places. apply fold_NoDup. intros p yl. apply fold_NoDup. intros q yl' N.
  destruct (negb _ && _ && _); [now apply discard_NoDup | exact N].
Qed.

Definition weight (p : list pystr * list pystr) : nat :=
  List.length (fst p) + List.length (snd p).

Lemma pair_weight p : In p pairs -> weight p <= 2 * List.length all.
Proof.
  destruct p as [a b]. intros H. apply pairs_In in H. destruct H as (Ha & Hb & _).
  apply sub_sets_In in Ha, Hb. destruct Ha as (i & Hi & Ha), Hb as (j & Hj & Hb).
  apply combinations_incl in Ha, Hb. unfold weight. cbn. lia.
Qed.

Lemma below_weight p q : In p pairs -> In q pairs -> q <> p -> below p q -> weight p < weight q.
Proof.
  destruct p as [a b], q as [c d]. intros Hp Hq N [B1 B2]. cbn in B1, B2.
  apply pairs_In in Hp, Hq. destruct Hp as (Ha & Hb & _), Hq as (Hc & Hd & _).
  unfold weight. cbn.
  pose proof (NoDup_incl_length (sub_set_nodup _ Ha) B1) as L1.
  pose proof (NoDup_incl_length (sub_set_nodup _ Hb) B2) as L2.
  destruct (Nat.eq_dec (List.length a) (List.length c)) as [E1 | E1]; [| lia].
  destruct (Nat.eq_dec (List.length b) (List.length d)) as [E2 | E2]; [| lia].
  exfalso. apply N. f_equal.
  - apply sub_set_eq; auto. intros x. split; [| apply B1].
    apply (NoDup_length_incl (sub_set_nodup _ Ha)); [lia | exact B1].
  - apply sub_set_eq; auto. intros x. split; [| apply B2].
    apply (NoDup_length_incl (sub_set_nodup _ Hb)); [lia | exact B2].
Qed.

Lemma pair_dec (p : list pystr * list pystr) l :
  (exists q, In q l /\ q <> p /\ below p q) \/ (forall q, In q l -> q <> p -> ~ below p q).
Proof.
  induction l as [| q l [(r & H & N & B) | IH]].
  - right. easy.
  - left. exists r. cbn. auto.
  - destruct (issubset (fst p) (fst q) && issubset (snd p) (snd q) && negb (tuples_eqb q p)) eqn:E.
    + left. exists q. rewrite !andb_true_iff, negb_true_iff in E. destruct E as [[E1 E2] E3].
      unfold issubset in E1, E2. rewrite forallb_forall in E1, E2.
      repeat split; [now left | | |].
      * intros ->. rewrite (proj2 (tuples_eqb_eq p p) eq_refl) in E3. discriminate.
      * intros z Hz. now apply (mem_In _ str_eqb_eq), E1.
      * intros z Hz. now apply (mem_In _ str_eqb_eq), E2.
    + right. intros r [<- | H] N B; [| now apply (IH r)].
      destruct B as [B1 B2]. rewrite !andb_false_iff, negb_false_iff in E.
      destruct E as [[E | E] | E].
      * unfold issubset in E. apply not_true_iff_false in E. apply E, forallb_forall.
        intros z Hz. now apply (mem_In _ str_eqb_eq), B1.
      * unfold issubset in E. apply not_true_iff_false in E. apply E, forallb_forall.
        intros z Hz. now apply (mem_In _ str_eqb_eq), B2.
      * apply N. now apply tuples_eqb_eq.
Qed.

Lemma place_above p : In p pairs -> exists q, In q (generate_places pairs) /\ below p q.
Proof.
  remember (2 * List.length all - weight p) as k eqn:K. revert p K.
  induction k as [k IH] using lt_wf_ind. intros p K H.
  destruct (pair_dec p pairs) as [(q & Hq & N & B) | M].
  - pose proof (below_weight p q H Hq N B). pose proof (pair_weight q Hq).
    destruct (IH (2 * List.length all - weight q)) with (p := q) as (r & Hr & B'); auto; [lia |].
    exists r. split; [exact Hr |]. destruct B, B'. split; eapply incl_tran; eauto.
  - exists p. split; [now apply places_In | split; apply incl_refl].
Qed.

Lemma covered a b : causes log a b -> ~ follows log a a -> ~ follows log b b ->
  exists p, In p (generate_places pairs) /\ In a (fst p) /\ In b (snd p).
Proof.
  intros C Na Nb. pose proof (follows_occurs _ _ _ (proj1 C)) as [Oa Ob].
  destruct (pairs_complete [a] [b]) as (c & d & H & Ec & Ed).
  { assert (E : forall (x y : pystr), In x [y] -> x = y) by (intros x y [<- | []]; reflexivity).
    unfold pair_of_sets. split; [discriminate |]. split; [discriminate |].
    split; [| split; [| split; [| split]]]; intros x; [| | intros y | intros y | intros y].
    - intros K. apply E in K. now subst.
    - intros K. apply E in K. now subst.
    - intros K L. apply E in K, L. now subst.
    - intros K L. apply E in K, L. now subst.
    - intros K L. apply E in K, L. now subst. }
  destruct (place_above _ H) as (q & Hq & B1 & B2). exists q. split; [exact Hq |].
  split; [apply B1, Ec | apply B2, Ed]; now left.
Qed.
End Pairs.

(** ** Text *)

Lemma number_seq {A} (l : list A) : forall n, map fst (number n l) = seq n (List.length l).
Proof. induction l as [| x l IH]; intros n; cbn; [reflexivity |]. now rewrite IH. Qed.

Lemma number_length {A} (l : list A) : forall n, List.length (number n l) = List.length l.
Proof. induction l as [| x l IH]; intros n; cbn; [reflexivity |]. now rewrite IH. Qed.

Definition side (s : option (list pystr)) : list pystr :=
  match s with Some l => l | None => [] end.

Lemma in_side_ok e s : in_side e s = is_in e (side s).
Proof. destruct s as [[| x l] |]; reflexivity. Qed.

Definition arc_step (e : pystr) := fun '((s, t) : list nat * list nat) '((n, p) : nat * place) =>
  if in_side e (pl_end p) then (s ++ [n], t)
  else if in_side e (pl_start p) then (s, t ++ [n])
  else (s, t).

Lemma arcs_gen e (l : list place) :
  (forall p, In p l -> is_in e (side (pl_start p)) = true ->
                       is_in e (side (pl_end p)) = false) ->
  forall k s t,
  fold_left (arc_step e) (number k l) (s, t) =
  (s ++ filter (fun n => is_in e (nth (n - k) (map (fun p => side (pl_end p)) l) []))
               (seq k (List.length l)),
   t ++ filter (fun n => is_in e (nth (n - k) (map (fun p => side (pl_start p)) l) []))
               (seq k (List.length l))).
Proof.
  induction l as [| p l IH]; intros H k s t; cbn [number fold_left List.length seq filter map].
  - now rewrite !app_nil_r.
  - assert (F : forall f : place -> list pystr,
      filter (fun n => is_in e (nth (n - k) (f p :: map f l) [])) (seq (S k) (List.length l))
      = filter (fun n => is_in e (nth (n - S k) (map f l) [])) (seq (S k) (List.length l))).
    { intros f. apply filter_ext_in. intros n Hn. apply in_seq in Hn.
      replace (n - k) with (S (n - S k)) by lia. reflexivity. }
    rewrite !(F (fun p => side (_ p))), Nat.sub_diag. cbn [nth].
    assert (H' : forall p, In p l -> is_in e (side (pl_start p)) = true ->
                       is_in e (side (pl_end p)) = false) by (intros; apply H; [now right | auto]).
    unfold arc_step at 2. rewrite !in_side_ok.
    specialize (H p (or_introl eq_refl)).
    destruct (is_in e (side (pl_end p))) eqn:E1; destruct (is_in e (side (pl_start p))) eqn:E2;
      try (specialize (H eq_refl); discriminate); rewrite IH by exact H';
      rewrite <- ?app_assoc; reflexivity.
Qed.

Lemma split_semi n : split (py ";") (py "Place """ ++ place_name n ++ py """;")
  = [py "Place """ ++ place_name n ++ py """"; []].
Proof.
  assert (G : forall s acc, ~ In 59%N s -> split_aux (py ";") 0 acc (s ++ py ";")
             = [rev acc ++ s; []]).
  { induction s as [| c s IH]; intros acc N.
    - cbn. now rewrite app_nil_r.
    - cbn [app split_aux].
      change (starts_with (py ";") (c :: s ++ py ";")) with (N.eqb 59 c && true).
      destruct (N.eqb 59 c) eqn:E.
      + apply N.eqb_eq in E. exfalso. apply N. now left.
      + cbn [andb]. rewrite IH by (intros K; apply N; now right).
        cbn [rev]. now rewrite <- app_assoc. }
  unfold split. replace (py """;") with (py """" ++ py ";") by reflexivity.
  rewrite !app_assoc, G; [reflexivity |].
  intros K. rewrite !in_app_iff in K. unfold place_name in K. rewrite in_app_iff in K.
  assert (D : forall m : N, ~ In 59%N (print_N m)).
  { intros m H. unfold print_N, print_base in H. apply in_map_iff in H.
    destruct H as (d & E & H). unfold digit_char in E. destruct (d <? 10)%N eqn:L.
    - apply N.ltb_lt in L. lia.
    - lia. }
  destruct K as [[K | [K | K]] | K]; [| | now apply (D _ K) |]; cbn in K; intuition discriminate.
Qed.

Lemma quoted_ok l : quoted l = names l.
Proof. reflexivity. Qed.

Lemma text_ok s e all pl :
  (forall p, In p pl -> forall x, In x (fst p) -> ~ In x (snd p)) ->
  generate_text s e all pl = net_text s e (iter pl) (iter all).
Proof.
  intros H. unfold generate_text, net_text. f_equal. f_equal.
  - unfold net_places, all_places.
    replace (seq 0 (2 + List.length (iter pl)))
      with (map fst (number 0 (all_places s e pl))).
    2:{ rewrite number_seq. unfold all_places. cbn [List.length]. now rewrite map_length. }
    rewrite map_map. apply map_ext_in. intros [n p] K. cbn [fst].
    unfold place_line.
    assert (Z : pl_start p = None <-> n = 0).
    { unfold all_places in K. cbn in K. destruct K as [[= <- <-] | [[= <- <-] | K]].
      - now split.
      - now split.
      - assert (G : forall (l : list (list pystr * list pystr)) k,
          In (n, p) (number k (map (fun p => mk_place (Some (fst p)) (Some (snd p))) l)) ->
          pl_start p <> None /\ k <= n).
        { induction l as [| q l IH]; intros k M; cbn in M; [easy |].
          destruct M as [[= <- <-] | M]; [split; [easy | lia] |].
          apply IH in M. split; [tauto | lia]. }
        apply G in K. split; [tauto | lia]. }
    destruct (pl_start p) eqn:P.
    + destruct (Nat.eqb_spec n 0) as [-> | N].
      * assert (Some l = None) by now apply Z. discriminate.
      * cbn [app]. now rewrite <- ?app_assoc.
    + assert (n = 0) by now apply Z. subst n. unfold replace. rewrite split_semi.
      cbn [join Nat.eqb]. rewrite app_nil_r, <- !app_assoc. reflexivity.
  - rewrite number_length.
    replace (S (List.length (all_places s e pl))) with (3 + List.length (iter pl)).
    2:{ unfold all_places. cbn [List.length]. now rewrite map_length. }
    generalize (3 + List.length (iter pl)) as k. generalize (iter all) as ev.
    induction ev as [| x ev IH]; intros k; cbn [number map net_transitions]; [reflexivity |].
    f_equal; [| apply IH].
    unfold trans_line, arcs. fold (arc_step x).
    rewrite arcs_gen.
    + cbn [app]. rewrite !quoted_ok. unfold net_transition, places_with.
      assert (E1 : map (fun p => side (pl_end p)) (all_places s e pl) = consumers s (iter pl)).
      { unfold all_places, consumers. cbn [map side pl_end]. now rewrite map_map. }
      assert (E2 : map (fun p => side (pl_start p)) (all_places s e pl) = producers e (iter pl)).
      { unfold all_places, producers. cbn [map side pl_start]. now rewrite map_map. }
      rewrite E1, E2, <- E1, map_length, E1, <- E2, map_length, E2.
      assert (S0 : forall sides l, filter (fun n => is_in x (nth (n - 0) sides [])) l
                   = filter (fun n => is_in x (nth n sides [])) l).
      { intros. apply filter_ext. intros n. now rewrite Nat.sub_0_r. }
      rewrite !S0. reflexivity.
    + intros p Hp E. unfold all_places in Hp. cbn in Hp.
      destruct Hp as [<- | [<- | Hp]]; [discriminate | reflexivity |].
      apply in_map_iff in Hp. destruct Hp as (q & <- & Hq). cbn in *. apply (proj1 (iter_In _ _)) in Hq.
      apply not_true_iff_false. intros F. unfold is_in in *.
      apply (mem_In _ str_eqb_eq) in E, F. exact (H q Hq x E F).
Qed.
End WithOrder.
