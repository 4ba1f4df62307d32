(** Lemmas about lower-casing: white space is not touched or produced, and lower-casing twice
    is lower-casing once. *)
From Coq Require Import String NArith ZArith List Bool Lia.
From Verif Require Import Base.Unicode Base.PyBase Proofs.BaseFacts.
Import ListNotations.
Local Open Scope N_scope.

Definition run_points (r : N * N * N * Z) : list N :=
  match r with (a, b, st, _) => map (fun i => a + st * N.of_nat i) (seq 0 (S (N.to_nat ((b - a) / st)))) end.

Lemma in_run_points c a b st d : st <> 0 -> in_run c (a, b, st, d) = true -> In c (run_points (a, b, st, d)).
Proof.
  intros S0 H. unfold in_run in H. apply andb_prop in H. destruct H as [H M]. apply andb_prop in H.
  destruct H as [H1 H2]. apply N.leb_le in H1, H2. apply N.eqb_eq in M.
  unfold run_points. apply in_map_iff. exists (N.to_nat ((c - a) / st)). split.
  - rewrite N2Nat.id. rewrite <- (N.mul_comm ((c-a)/st)).
    pose proof (N.div_mod (c - a) st S0) as D. rewrite M in D. nia.
  - apply in_seq. split; [apply Nat.le_0_l|]. cbn [Nat.add].
    assert ((c - a) / st <= (b - a) / st) by (apply N.div_le_mono; lia). lia.
Qed.

Definition fixed_char (x : N) : bool :=
  negb (x =? 304) && match find (in_run x) lower_runs with None => true | Some _ => false end.

Definition char_checked (d : Z) (c : N) : bool :=
  negb (is_space (Z.to_N (Z.of_N c + d))) && fixed_char (Z.to_N (Z.of_N c + d)).
Definition run_checked (r : N * N * N * Z) : bool :=
  match r with (_, _, st, d) => negb (st =? 0) && forallb (char_checked d) (run_points r) end.
Lemma runs_ok : forallb run_checked lower_runs = true. Proof. vm_compute. reflexivity. Qed.
Lemma run_ok a b st d : In (a, b, st, d) lower_runs ->
  st <> 0 /\ forall c, In c (run_points (a, b, st, d)) -> char_checked d c = true.
Proof.
  intros I1. pose proof (proj1 (forallb_forall run_checked lower_runs) runs_ok _ I1) as K.
  unfold run_checked in K. apply andb_prop in K. destruct K as [S0 K]. split; [now apply N.eqb_neq, negb_true_iff|].
  exact (proj1 (forallb_forall _ _) K).
Qed.

Lemma fixed_char_spec x : fixed_char x = true -> lower_char x = [x].
Proof.
  unfold fixed_char, lower_char. intros H. apply andb_prop in H. destruct H as [H1 H2].
  destruct (x =? 304); [discriminate|]. destruct (find (in_run x) lower_runs); [discriminate|reflexivity].
Qed.

(** Every character either becomes two fixed ones, or one fixed non-blank one, or stays. *)
Lemma lower_char_cases c :
  (c = 304 /\ lower_char c = [105; 775])
  \/ (exists x, lower_char c = [x] /\ is_space x = false /\ fixed_char x = true)
  \/ (lower_char c = [c] /\ fixed_char c = true).
Proof.
  unfold lower_char. destruct (c =? 304) eqn:E; [left; split; [now apply N.eqb_eq|reflexivity]|right].
  destruct (find (in_run c) lower_runs) as [[[[a b] st] d]|] eqn:F.
  - left. exists (Z.to_N (Z.of_N c + d)). split; [reflexivity|].
    apply find_some in F. destruct F as [I1 R].
    destruct (run_ok a b st d I1) as [S0 K0]. pose proof (K0 c (in_run_points c a b st d S0 R)) as K.
    unfold char_checked in K.
    apply andb_prop in K. destruct K as [K1 K2]. split; [now apply negb_true_iff|exact K2].
  - right. split; [reflexivity|]. unfold fixed_char. now rewrite E, F.
Qed.

Definition spaces : list N :=
  [9; 10; 11; 12; 13; 28; 29; 30; 31; 32; 133; 160; 5760; 8192; 8193; 8194; 8195; 8196; 8197; 8198; 8199; 8200; 8201;
   8202; 8232; 8233; 8239; 8287; 12288].
Lemma between_in a c n : a <= c -> c <= a + N.of_nat n -> In c (map (fun i => a + N.of_nat i) (seq 0 (S n))).
Proof.
  intros H1 H2. apply in_map_iff. exists (N.to_nat (c - a)). split; [lia|]. apply in_seq. lia.
Qed.
Lemma spaces_spec c : is_space c = true -> In c spaces.
Proof.
  unfold is_space. rewrite !orb_true_iff, !andb_true_iff, !N.leb_le, !N.eqb_eq. intros H.
  repeat match goal with H : _ \/ _ |- _ => destruct H end;
    try (subst; vm_compute; tauto).
  - assert (I1 := between_in 9 c 4 ltac:(lia) ltac:(lia)). vm_compute in I1. unfold spaces. cbn [In]. tauto.
  - assert (I1 := between_in 28 c 4 ltac:(lia) ltac:(lia)). vm_compute in I1. unfold spaces. cbn [In]. tauto.
  - assert (I1 := between_in 8192 c 10 ltac:(lia) ltac:(lia)). vm_compute in I1. unfold spaces. cbn [In]. tauto.
Qed.
Lemma spaces_fixed : forallb fixed_char spaces = true. Proof. vm_compute. reflexivity. Qed.
Lemma space_lower c : is_space c = true -> lower_char c = [c].
Proof.
  intros H. apply fixed_char_spec. pose proof spaces_fixed as K. rewrite forallb_forall in K. apply K. now apply spaces_spec.
Qed.
Lemma nonspace_lower c : is_space c = false -> Forall (fun x => is_space x = false) (lower_char c).
Proof.
  intros H. destruct (lower_char_cases c) as [[-> ->]|[(x & -> & S0 & _)|[-> _]]]; repeat constructor; auto.
Qed.
Lemma lower_char_nonnil c : lower_char c <> [].
Proof. destruct (lower_char_cases c) as [[-> ->]|[(x & -> & _)|[-> _]]]; discriminate. Qed.

(** The same for a character in its place. *)
Lemma low_cases p c q :
  (c = 304 /\ low p c q = [105; 775])
  \/ (exists x, low p c q = [x] /\ is_space x = false /\ fixed_char x = true)
  \/ (low p c q = [c] /\ fixed_char c = true).
Proof.
  unfold low. destruct ((c =? 931) && next_cased p && negb (next_cased q)); [|apply lower_char_cases].
  right. left. exists 962. split; [reflexivity|]. split; reflexivity.
Qed.
Lemma low_nonnil p c q : low p c q <> [].
Proof. destruct (low_cases p c q) as [[-> ->]|[(x & -> & _)|[-> _]]]; discriminate. Qed.
Lemma low_nonspace p c q : is_space c = false -> Forall (fun x => is_space x = false) (low p c q).
Proof.
  intros H. destruct (low_cases p c q) as [[-> ->]|[(x & -> & S0 & _)|[-> _]]]; repeat constructor; auto.
Qed.
Lemma low_other p c q : c <> 931 -> low p c q = lower_char c.
Proof. intros H. apply N.eqb_neq in H. unfold low. now rewrite H. Qed.

(** Text of characters that stay. *)
Definition fixed_text (s : pystr) : Prop := Forall (fun c => lower_char c = [c]) s.
Lemma low_fixed p c q : lower_char c = [c] -> low p c q = [c].
Proof. intros H. rewrite low_other; [exact H|]. intros ->. discriminate. Qed.
Lemma lower_from_fixed s : forall p, fixed_text s -> lower_from p s = s.
Proof.
  induction s as [|c t IH]; intros p H; [reflexivity|]. inversion H as [|? ? E F]; subst. cbn.
  rewrite (low_fixed p c t E). cbn. f_equal. now apply IH.
Qed.
Lemma fixed_text_lower s : fixed_text s -> lower s = s.
Proof. apply lower_from_fixed. Qed.
Lemma lower_from_is_fixed s : forall p, fixed_text (lower_from p s).
Proof.
  induction s as [|c t IH]; intros p; [constructor|]. cbn. apply Forall_app. split; [|apply IH].
  destruct (low_cases p c t) as [[-> ->]|[(x & -> & _ & F)|[-> F]]]; repeat constructor; now apply fixed_char_spec.
Qed.
Lemma lower_fixed s : fixed_text (lower s).
Proof. apply lower_from_is_fixed. Qed.

Lemma lower_nil_iff s : lower s = [] <-> s = [].
Proof.
  split; [|now intros ->]. destruct s as [|c t]; [auto|]. unfold lower. cbn. intros H. apply app_eq_nil in H.
  destruct H as [H _]. now apply low_nonnil in H.
Qed.
Lemma lower_idem s : lower (lower s) = lower s.
Proof. apply fixed_text_lower, lower_fixed. Qed.
Lemma lower_from_in s : forall p c, In c s -> exists q r, incl (low q c r) (lower_from p s).
Proof.
  induction s as [|c t IH]; intros p x []; cbn.
  - subst. exists p, t. apply incl_appl, incl_refl.
  - destruct (IH (c :: p) x H) as (q & r & I). exists q, r. now apply incl_appr.
Qed.
Lemma lower_nonspace s c : In c s -> is_space c = false -> exists x, In x (lower s) /\ is_space x = false.
Proof.
  intros I S0. destruct (lower_from_in s [] c I) as (q & r & J). pose proof (low_nonspace q c r S0) as F.
  destruct (low q c r) as [|x t] eqn:E; [now apply low_nonnil in E|]. exists x. split; [apply J; now left|now inversion F].
Qed.

(** White space ends words. *)
Definition ends_word (c : N) : bool := negb (in_ranges c ignored_ranges) && negb (in_ranges c cased_ranges).
Lemma spaces_end : forallb ends_word spaces = true. Proof. vm_compute. reflexivity. Qed.
Lemma space_ends c : is_space c = true -> ends_word c = true.
Proof. intros H. pose proof spaces_end as K. rewrite forallb_forall in K. apply K. now apply spaces_spec. Qed.
Lemma next_cased_end s : forall c t, ends_word c = true -> next_cased (s ++ c :: t) = next_cased s.
Proof.
  induction s as [|d s IH]; intros c t H; cbn [app next_cased]; [|destruct (in_ranges d ignored_ranges); auto].
  unfold ends_word in H. apply andb_prop in H. destruct H as [H1 H2].
  apply negb_true_iff in H1, H2. now rewrite H1, H2.
Qed.
Lemma low_after p c q d r : ends_word d = true -> low p c (q ++ d :: r) = low p c q.
Proof. intros H. unfold low. now rewrite (next_cased_end q d r H). Qed.
Lemma lower_from_before s : forall p d r, ends_word d = true -> lower_from (p ++ d :: r) s = lower_from p s.
Proof.
  induction s as [|c t IH]; intros p d r H; [reflexivity|]. cbn. unfold low. rewrite (next_cased_end p d r H).
  f_equal. exact (IH (c :: p) d r H).
Qed.
Lemma lower_from_word s : forall p d t, ends_word d = true -> lower_char d = [d] ->
  lower_from p (s ++ d :: t) = lower_from p s ++ d :: lower t.
Proof.
  induction s as [|c s IH]; intros p d t H E; cbn.
  - rewrite (low_fixed p d t E). cbn. f_equal. exact (lower_from_before t [] d p H).
  - rewrite (low_after p c s d t H), (IH (c :: p) d t H E). now rewrite app_assoc.
Qed.
Lemma lower_word s d t : ends_word d = true -> lower_char d = [d] -> lower (s ++ d :: t) = lower s ++ d :: lower t.
Proof. apply lower_from_word. Qed.

(** A character that its lower-case form starts with is its own lower-case form. *)
Lemma low_first p c q t u : low p c q ++ t = c :: u -> low p c q = [c].
Proof.
  destruct (low_cases p c q) as [[-> ->]|[(x & -> & _ & F)|[-> F]]]; auto; intros H; injection H; intros; subst; auto;
  try discriminate.
Qed.

(** ** Lower-casing and stripping commute *)
Lemma lower_spaces_front a s : Forall (fun c => is_space c = true) a -> lower (a ++ s) = a ++ lower s.
Proof.
  induction 1 as [|c t S0 _ IH]; [reflexivity|].
  change ((c :: t) ++ s) with ([] ++ c :: (t ++ s)). rewrite lower_word; [|now apply space_ends|now apply space_lower].
  cbn. f_equal. exact IH.
Qed.
Lemma lower_spaces_back a s : Forall (fun c => is_space c = true) a -> lower (s ++ a) = lower s ++ a.
Proof.
  intros H. destruct H as [|c t S0 H]; [now rewrite !app_nil_r|].
  rewrite lower_word; [|now apply space_ends|now apply space_lower]. f_equal. f_equal.
  rewrite <- (app_nil_r t). rewrite lower_spaces_front by exact H. reflexivity.
Qed.

Lemma strip_around a s b : Forall (fun c => is_space c = true) a -> Forall (fun c => is_space c = true) b ->
  strip (a ++ s ++ b) = strip s.
Proof.
  intros A B. unfold strip, strip_by.
  assert (D : forall u v, Forall (fun c => is_space c = true) u -> dropwhile is_space (u ++ v) = dropwhile is_space v).
  { clear. induction 1 as [|c u S0 _ IH]; [reflexivity|]. cbn. now rewrite S0. }
  rewrite (D a (s ++ b) A).
  assert (Q : forall v, dropwhile is_space (v ++ b) = dropwhile is_space v ++ b \/
              (dropwhile is_space v = [] /\ Forall (fun c => is_space c = true) (dropwhile is_space (v ++ b)))).
  { clear - B. induction v as [|c t IH]; cbn.
    - right. split; [reflexivity|]. assert (E : dropwhile is_space b = []) by now apply dropwhile_nil_iff. rewrite E. constructor.
    - destruct (is_space c); [exact IH|]. now left. }
  destruct (Q s) as [->|[E F]].
  - rewrite rev_app_distr. rewrite (D (rev b)); [reflexivity|]. now apply Forall_rev.
  - rewrite E. cbn. apply Forall_rev in F. apply dropwhile_nil_iff in F. rewrite F. reflexivity.
Qed.

Lemma strip_lower s : strip (lower s) = lower (strip s).
Proof.
  destruct (strip_by_decomp is_space s) as (a & b & D & A & B).
  fold (strip s) in D. pose proof (strip_by_trimmed is_space s) as [T1 T2]. fold (strip s) in T1, T2.
  assert (E : lower s = a ++ lower (strip s) ++ b).
  { rewrite D at 1. now rewrite (lower_spaces_front a _ A), (lower_spaces_back b _ B). }
  rewrite E, (strip_around _ _ _ A B). apply strip_by_id. split.
  - intros c t H. destruct (strip s) as [|x u] eqn:S0; [discriminate|].
    pose proof (low_nonspace [] x u (T1 x u eq_refl)) as F. unfold lower in H. cbn in H.
    destruct (low [] x u) as [|y w] eqn:L; [now apply low_nonnil in L|].
    injection H as -> _. now inversion F.
  - intros c t H. destruct (strip s) as [|x0 u0] eqn:S0 using rev_ind.
    + cbn in H. destruct t; discriminate.
    + clear IHu0 || idtac. clear - T2 H. specialize (T2 x0 u0 eq_refl). unfold lower in H. revert H. generalize (@nil N) at 1.
      revert t. induction u0 as [|y u IH]; intros t p H; cbn in H.
      * rewrite app_nil_r in H. pose proof (low_nonspace p x0 [] T2) as F. rewrite H in F.
        apply Forall_app in F. destruct F as [_ F]. now inversion F.
      * destruct (lower_from (y :: p) (u ++ [x0])) as [|z w _] eqn:L using rev_ind.
        { destruct u; cbn in L; apply app_eq_nil in L; destruct L as [L _]; now apply low_nonnil in L. }
        rewrite app_assoc in H. apply app_inj_tail in H. destruct H as [_ <-].
        exact (IH w (y :: p) L).
Qed.
