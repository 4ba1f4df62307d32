From Coq Require Import String NArith ZArith List Bool Lia Sorting.Sorted Sorting.Permutation.
From Verif Require Import Base.PyBase Base.PyVal Model.Attr Model.Log Model.Classify Spec.Orders Spec.Classes
  Proofs.BaseFacts Proofs.StrFacts Proofs.OrderFacts Proofs.TraceFacts.
Import ListNotations.
Local Open Scope Z_scope.

(** ** Sorted lists of texts *)

Lemma lex_lt_irrefl a : ~ lex_lt a a.
Proof. rewrite lex_lt_cmp, str_cmp_refl. discriminate. Qed.

Lemma lex_lt_asym a b : lex_lt a b -> ~ lex_lt b a.
Proof. intros H G. apply (lex_lt_irrefl a). eapply lex_lt_trans; eauto. Qed.

Lemma lex_total a b : lex_lt a b \/ a = b \/ lex_lt b a.
Proof.
  destruct (str_cmp a b) eqn:E.
  - right. left. now apply str_cmp_eq.
  - left. now apply lex_lt_cmp.
  - right. right. apply lex_lt_cmp. now apply str_cmp_gt_lt.
Qed.

Lemma sorted_lex_nodup l : StronglySorted lex_lt l -> NoDup l.
Proof.
  induction 1 as [|a l S IH F]; constructor; auto.
  intros I. rewrite Forall_forall in F. apply (lex_lt_irrefl a). auto.
Qed.

Lemma sorted_lex_unique l1 : forall l2, StronglySorted lex_lt l1 -> StronglySorted lex_lt l2 ->
  (forall x, In x l1 <-> In x l2) -> l1 = l2.
Proof.
  induction l1 as [|a l1 IH]; intros [|b l2] S1 S2 H.
  - auto.
  - exfalso. destruct (proj2 (H b)). simpl; auto.
  - exfalso. destruct (proj1 (H a)). simpl; auto.
  - inversion S1 as [|? ? S1' F1]; subst. inversion S2 as [|? ? S2' F2]; subst.
    rewrite Forall_forall in F1, F2.
    assert (E : a = b).
    { destruct (proj1 (H a) (or_introl eq_refl)) as [E|I]; auto.
      destruct (proj2 (H b) (or_introl eq_refl)) as [E|J]; auto.
      exfalso. apply (lex_lt_asym a b); auto. }
    subst b. f_equal. apply IH; auto. intros x. split; intros I.
    + destruct (proj1 (H x) (or_intror I)) as [<-|J]; auto. exfalso. apply (lex_lt_irrefl a). auto.
    + destruct (proj2 (H x) (or_intror I)) as [<-|J]; auto. exfalso. apply (lex_lt_irrefl a). auto.
Qed.

(** Insertion into a list sorted by a text [f]. *)
Section Sort.
Context {A : Type} (f : A -> pystr).
Fixpoint insert_by (x : A) (l : list A) : list A :=
  match l with
  | [] => [x]
  | y :: t => match str_cmp (f x) (f y) with Gt => y :: insert_by x t | _ => x :: l end
  end.

Lemma insert_by_perm x l : Permutation (x :: l) (insert_by x l).
Proof.
  induction l as [|y l IH]; simpl; auto. destruct (str_cmp (f x) (f y)); auto.
  etransitivity; [apply perm_swap|]. now constructor.
Qed.

Lemma insert_by_sorted x l : StronglySorted lex_lt (map f l) -> ~ In (f x) (map f l) ->
  StronglySorted lex_lt (map f (insert_by x l)).
Proof.
  induction l as [|y l IH]; simpl; intros S N; [repeat constructor|].
  inversion S as [|? ? S' F]; subst. destruct (str_cmp (f x) (f y)) eqn:E.
  - apply str_cmp_eq in E. exfalso. auto.
  - apply lex_lt_cmp in E. simpl. constructor; auto. constructor; auto.
    eapply Forall_impl; [|exact F]. intros z Hz. eapply lex_lt_trans; eauto.
  - simpl. constructor; [apply IH; auto|].
    apply str_cmp_gt_lt, lex_lt_cmp in E.
    apply Forall_forall. intros z Hz. rewrite Forall_forall in F.
    apply in_map_iff in Hz as (w & <- & Hw). apply (Permutation_in _ (Permutation_sym (insert_by_perm x l))) in Hw.
    destruct Hw as [<-|Hw]; auto. apply F. now apply in_map.
Qed.

Definition sort_by (l : list A) : list A := fold_right insert_by [] l.

Lemma sort_by_perm l : Permutation l (sort_by l).
Proof.
  induction l as [|x l IH]; simpl; auto. etransitivity; [|apply insert_by_perm]. now constructor.
Qed.

Lemma sort_by_sorted l : NoDup (map f l) -> StronglySorted lex_lt (map f (sort_by l)).
Proof.
  induction l as [|x l IH]; simpl; intros H; [constructor|]. inversion H; subst.
  apply insert_by_sorted; auto. intros I. apply H2.
  apply (Permutation_in _ (Permutation_map f (Permutation_sym (sort_by_perm l)))). exact I.
Qed.
End Sort.

Lemma sorted_strs_eq l : sorted_strs l = sort_by (fun x => x) l.
Proof. reflexivity. Qed.

Lemma sorted_classes_eq l : sorted_classes l = sort_by ec_id l.
Proof. reflexivity. Qed.

Lemma sorted_strs_in l k : In k (sorted_strs l) <-> In k l.
Proof.
  rewrite sorted_strs_eq. assert (P := sort_by_perm (fun x : pystr => x) l).
  split; apply Permutation_in; auto. now symmetry.
Qed.

Lemma sorted_strs_sorted l : NoDup l -> StronglySorted lex_lt (sorted_strs l).
Proof.
  intros H. rewrite sorted_strs_eq. rewrite <- (map_id (sort_by _ l)). apply sort_by_sorted.
  now rewrite map_id.
Qed.

Section WithFloatIO.
Context `{FIO : FloatIO}.

(** ** C12: what the identity depends on *)

Lemma shown_present keys a b : (forall k, In k keys -> shown a k = shown b k) ->
  present_texts keys (ev_attrs a) = present_texts keys (ev_attrs b).
Proof.
  induction keys as [|k ks IH]; simpl; intros H; auto.
  assert (E := H k (or_introl eq_refl)). unfold shown in E.
  rewrite IH by (intros; apply H; auto).
  destruct (sget k (ev_attrs a)), (sget k (ev_attrs b)); try discriminate; auto.
  injection E as ->. reflexivity.
Qed.

Theorem identity_depends c a b : (forall k, In k (cl_keys c) -> shown a k = shown b k) ->
  class_identity c a = class_identity c b.
Proof.
  intros H. unfold class_identity. destruct (cl_keys c) as [|k1 [|k2 [|k3 ks]]].
  - reflexivity.
  - assert (E := H k1 (or_introl eq_refl)). unfold shown in E.
    destruct (sget k1 (ev_attrs a)), (sget k1 (ev_attrs b)); congruence.
  - assert (E1 := H k1 (or_introl eq_refl)). assert (E2 := H k2 (or_intror (or_introl eq_refl))).
    unfold shown in E1, E2.
    destruct (sget k1 (ev_attrs a)), (sget k1 (ev_attrs b)); try discriminate;
    destruct (sget k2 (ev_attrs a)), (sget k2 (ev_attrs b)); try discriminate;
    try injection E1 as ->; try injection E2 as ->; reflexivity.
  - now rewrite (shown_present _ a b H).
Qed.

Lemma same_class_spec c a b r : same_event_class c a b = Ok r <->
  exists x y, class_identity c a = Ok x /\ class_identity c b = Ok y /\ r = str_eqb x y.
Proof.
  unfold same_event_class. destruct (class_identity c a) as [x|], (class_identity c b) as [y|]; simpl; split;
    try (intros; discriminate); try (intros (? & ? & ? & ? & _); discriminate).
  - intros [= <-]. eauto.
  - intros (? & ? & [= <-] & [= <-] & ->). reflexivity.
Qed.

Theorem same_class_equivalence c :
  (forall a x, class_identity c a = Ok x -> same_event_class c a a = Ok true)
  /\ (forall a b r, same_event_class c a b = Ok r -> same_event_class c b a = Ok r)
  /\ (forall a b d, same_event_class c a b = Ok true -> same_event_class c b d = Ok true ->
      same_event_class c a d = Ok true).
Proof.
  split; [|split].
  - intros a x E. apply same_class_spec. exists x, x. repeat split; auto. now rewrite str_eqb_refl.
  - intros a b r H. apply same_class_spec in H as (x & y & A & B & ->). apply same_class_spec.
    exists y, x. repeat split; auto. apply str_eqb_sym.
  - intros a b d H G. apply same_class_spec in H as (x & y & A & B & E).
    apply same_class_spec in G as (y' & z & B' & D & F). apply same_class_spec.
    exists x, z. repeat split; auto. symmetry in E, F. apply str_eqb_eq in E, F. symmetry.
    apply str_eqb_eq. congruence.
Qed.

(** ** C13: what equal identities mean *)

Lemma identity_one c k a s : cl_keys c = [k] -> shows_or_empty a k s -> class_identity c a = Ok s.
Proof.
  intros K H. unfold class_identity. rewrite K. unfold shows_or_empty, shown in H.
  destruct (sget k (ev_attrs a)).
  - destruct H as [H|[H _]]; [congruence|discriminate].
  - destruct H as [H|[_ ->]]; [discriminate|reflexivity].
Qed.

Theorem same_class_one c k a b s t : cl_keys c = [k] -> shows_or_empty a k s -> shows_or_empty b k t ->
  same_event_class c a b = Ok (str_eqb s t).
Proof.
  intros K A B. apply same_class_spec. exists s, t.
  rewrite (identity_one c k a s), (identity_one c k b t); auto.
Qed.

Lemma identity_two c k1 k2 a s1 s2 : cl_keys c = [k1; k2] ->
  shows_or_empty a k1 s1 -> shows_or_empty a k2 s2 -> class_identity c a = Ok (s1 ++ py "&&" ++ s2).
Proof.
  intros K H1 H2. unfold class_identity. rewrite K. unfold shows_or_empty, shown in *.
  destruct (sget k1 (ev_attrs a)), (sget k2 (ev_attrs a));
    destruct H1 as [H1|[H1 ->]]; try discriminate; destruct H2 as [H2|[H2 ->]]; try discriminate;
    try (injection H1 as H1; rewrite H1); try (injection H2 as H2; rewrite H2); reflexivity.
Qed.

Lemma amp_split (a b : pystr) : forall x y, ~ In 38%N a -> ~ In 38%N b ->
  a ++ 38%N :: x = b ++ 38%N :: y -> a = b /\ x = y.
Proof.
  revert b. induction a as [|c a IH]; intros [|d b] x y A B E; simpl in *.
  - injection E as ->. auto.
  - injection E as E _. exfalso. apply B. left. congruence.
  - injection E as E _. exfalso. apply A. left. congruence.
  - injection E as E1 E. destruct (IH b x y) as [-> ->]; auto. now subst.
Qed.

Theorem same_class_two c k1 k2 a b s1 s2 t1 t2 : cl_keys c = [k1; k2] ->
  shows_or_empty a k1 s1 -> shows_or_empty a k2 s2 -> shows_or_empty b k1 t1 -> shows_or_empty b k2 t2 ->
  ~ In 38%N s1 -> ~ In 38%N t1 ->
  same_event_class c a b = Ok (str_eqb s1 t1 && str_eqb s2 t2).
Proof.
  intros K A1 A2 B1 B2 N1 N2. apply same_class_spec.
  exists (s1 ++ py "&&" ++ s2), (t1 ++ py "&&" ++ t2).
  rewrite (identity_two c k1 k2 a s1 s2), (identity_two c k1 k2 b t1 t2); auto. repeat split.
  destruct (str_eqb_spec (s1 ++ py "&&" ++ s2) (t1 ++ py "&&" ++ t2)) as [E|E].
  - change (py "&&" ++ s2) with (38%N :: 38%N :: s2) in E. change (py "&&" ++ t2) with (38%N :: 38%N :: t2) in E.
    apply amp_split in E as [-> E]; auto. injection E as ->. now rewrite !str_eqb_refl.
  - destruct (str_eqb_spec s1 t1) as [->|]; auto. destruct (str_eqb_spec s2 t2) as [->|]; auto. congruence.
Qed.

Lemma present_all keys a ss : Forall2 (shows a) keys ss -> present_texts keys (ev_attrs a) = Ok ss.
Proof.
  induction 1 as [|k s ks ss H F IH]; simpl; auto. unfold shows, shown in H.
  destruct (sget k (ev_attrs a)); [|discriminate]. injection H as ->. simpl. rewrite IH. reflexivity.
Qed.

Lemma identity_all c a ss : Forall2 (shows a) (cl_keys c) ss ->
  class_identity c a = Ok (join (py "&&") ss).
Proof.
  intros F. assert (P := present_all _ _ _ F). unfold class_identity.
  destruct (cl_keys c) as [|k1 [|k2 [|k3 ks]]].
  - inversion F; subst. reflexivity.
  - inversion F as [|? s ? ? H F']; subst. inversion F'; subst. unfold shows, shown in H.
    destruct (sget k1 (ev_attrs a)); [|discriminate]. injection H as ->. reflexivity.
  - inversion F as [|? s1 ? ? H1 F']; subst. inversion F' as [|? s2 ? ? H2 F'']; subst. inversion F''; subst.
    unfold shows, shown in H1, H2.
    destruct (sget k1 (ev_attrs a)); [|discriminate]. injection H1 as ->.
    destruct (sget k2 (ev_attrs a)); [|discriminate]. injection H2 as ->. reflexivity.
  - now rewrite P.
Qed.

Lemma join_cons2 sep x y l : join sep (x :: y :: l) = x ++ sep ++ join sep (y :: l).
Proof. reflexivity. Qed.

Lemma join_amp_inj ss : forall ts, length ss = length ts ->
  Forall (fun s => ~ In 38%N s) ss -> Forall (fun s => ~ In 38%N s) ts ->
  join (py "&&") ss = join (py "&&") ts -> ss = ts.
Proof.
  induction ss as [|s ss IH]; intros [|t ts] L F G E; try discriminate; auto.
  inversion F; subst. inversion G; subst. destruct ss as [|s' ss], ts as [|t' ts]; try discriminate.
  - simpl in E. congruence.
  - rewrite !join_cons2 in E.
    change (py "&&" ++ join (py "&&") (s' :: ss)) with (38%N :: 38%N :: join (py "&&") (s' :: ss)) in E.
    change (py "&&" ++ join (py "&&") (t' :: ts)) with (38%N :: 38%N :: join (py "&&") (t' :: ts)) in E.
    apply amp_split in E as [-> E]; auto. injection E as E. f_equal. apply IH; auto.
Qed.

Theorem same_class_all c a b ss ts : Forall2 (shows a) (cl_keys c) ss -> Forall2 (shows b) (cl_keys c) ts ->
  Forall (fun s => ~ In 38%N s) ss -> Forall (fun s => ~ In 38%N s) ts ->
  exists r, same_event_class c a b = Ok r /\ (r = true <-> ss = ts).
Proof.
  intros A B F G. exists (str_eqb (join (py "&&") ss) (join (py "&&") ts)). split.
  - apply same_class_spec. eexists _, _. rewrite (identity_all c a ss), (identity_all c b ts); auto.
  - rewrite str_eqb_eq. split; [|congruence]. apply join_amp_inj; auto.
    assert (LA : length (cl_keys c) = length ss) by (clear - A; induction A; simpl; auto).
    assert (LB : length (cl_keys c) = length ts) by (clear - B; induction B; simpl; auto).
    exact (eq_trans (eq_sym LA) LB).
Qed.

(** ** C14: order of classifiers *)

Lemma keys_before_trans a b c : keys_before a b -> keys_before b c -> keys_before a c.
Proof.
  intros H. revert c. induction H as [x y a b L|x a b H IH]; intros c G; inversion G; subst.
  - constructor. eapply lex_lt_trans; eauto.
  - now constructor.
  - now constructor.
  - apply kb_later. auto.
Qed.

Theorem cl_before_trans a b c : cl_before a b -> cl_before b c -> cl_before a c.
Proof.
  unfold cl_before. intros [H|[[E H]|(E & L & H)]] [G|[[E' G]|(E' & L' & G)]].
  - left. eapply lex_lt_trans; eauto.
  - left. congruence.
  - left. congruence.
  - left. congruence.
  - right. left. split; [congruence|lia].
  - right. left. split; [congruence|lia].
  - left. congruence.
  - right. left. split; [congruence|lia].
  - right. right. split; [congruence|]. split; [congruence|]. eapply keys_before_trans; eauto.
Qed.

Lemma str_compare_to_spec a b : (str_compare_to a b < 0 <-> lex_lt a b) /\ (0 < str_compare_to a b <-> lex_lt b a)
  /\ (str_compare_to a b = 0 <-> a = b).
Proof.
  unfold str_compare_to. rewrite !lex_lt_cmp. rewrite <- str_cmp_eq. rewrite <- (str_cmp_gt_lt a b).
  destruct (str_cmp a b); repeat split; intros; try discriminate; try lia; auto.
Qed.

Lemma keys_before_irrefl a : ~ keys_before a a.
Proof.
  induction a as [|x a IH]; intros H; inversion H; subst; auto. now apply (lex_lt_irrefl x).
Qed.

Lemma keys_compare_spec a : forall b, length a = length b ->
  (keys_compare a b < 0 <-> keys_before a b) /\ (0 < keys_compare a b <-> keys_before b a)
  /\ (keys_compare a b = 0 <-> a = b).
Proof.
  induction a as [|x a IH]; intros [|y b] L; try discriminate.
  - repeat split; intros H; try (simpl in H; lia); try (inversion H); auto.
  - simpl. destruct (str_eqb_spec x y) as [->|N].
    + destruct (IH b) as (P & Q & R); [now injection L|]. rewrite P, Q, R. repeat split; intros H.
      * now apply kb_later.
      * inversion H; subst; auto. exfalso. now apply (lex_lt_irrefl y).
      * now apply kb_later.
      * inversion H; subst; auto. exfalso. now apply (lex_lt_irrefl y).
      * congruence.
      * congruence.
    + destruct (str_compare_to_spec x y) as (P & Q & R). rewrite P, Q, R. repeat split; intros H.
      * now constructor.
      * inversion H; subst; auto. congruence.
      * now constructor.
      * inversion H; subst; auto. congruence.
      * congruence.
      * congruence.
Qed.

Lemma cl_before_irrefl a : ~ cl_before a a.
Proof.
  intros [H|[[_ H]|(_ & _ & H)]].
  - now apply (lex_lt_irrefl (cl_name a)).
  - lia.
  - now apply (keys_before_irrefl (cl_keys a)).
Qed.

Lemma cl_compare_trichotomy a b :
  (cl_compare a b < 0 /\ cl_before a b) \/ (cl_compare a b = 0 /\ a = b) \/ (0 < cl_compare a b /\ cl_before b a).
Proof.
  unfold cl_compare, cl_before. destruct a as [na ka], b as [nb kb]. cbn [cl_name cl_keys].
  destruct (str_eqb_spec na nb) as [->|N]; cbn [negb].
  - destruct (Nat.eqb_spec (length ka) (length kb)) as [L|L]; cbn [negb].
    + destruct (keys_compare_spec ka kb L) as (P & Q & R).
      destruct (Z.lt_trichotomy (keys_compare ka kb) 0) as [H|[H|H]].
      * left. split; auto. right. right. repeat split; auto. now apply P.
      * right. left. split; auto. apply R in H. congruence.
      * right. right. split; auto. right. right. repeat split; auto. now apply Q.
    + destruct (Nat.lt_total (length ka) (length kb)) as [H|[H|H]]; [|contradiction|].
      * left. split; [lia|]. auto.
      * right. right. split; [lia|]. auto.
  - destruct (str_compare_to_spec na nb) as (P & Q & R).
    destruct (Z.lt_trichotomy (str_compare_to na nb) 0) as [H|[H|H]].
    + left. split; auto. left. now apply P.
    + apply R in H. contradiction.
    + right. right. split; auto. left. now apply Q.
Qed.

Lemma cl_before_asym a b : cl_before a b -> ~ cl_before b a.
Proof. intros H G. apply (cl_before_irrefl a). eapply cl_before_trans; eauto. Qed.

Theorem cl_compare_spec a b :
  (cl_compare a b < 0 <-> cl_before a b) /\ (0 < cl_compare a b <-> cl_before b a) /\ (cl_compare a b = 0 <-> a = b).
Proof.
  destruct (cl_compare_trichotomy a b) as [[H B]|[[H E]|[H B]]].
  - assert (N := cl_before_asym _ _ B). repeat split; intros; auto; try lia; try contradiction.
    subst. exfalso. now apply (cl_before_irrefl b).
  - subst b. repeat split; intros; auto; try lia; try (exfalso; now apply (cl_before_irrefl a)).
  - assert (N := cl_before_asym _ _ B). repeat split; intros; auto; try lia; try contradiction.
    subst. exfalso. now apply (cl_before_irrefl b).
Qed.

Lemma cl_eqb_eq a b : cl_eqb a b = true <-> a = b.
Proof. unfold cl_eqb. rewrite Z.eqb_eq. apply cl_compare_spec. Qed.

(** ** C15: AND classifiers *)

Lemma add_keys_spec ks : forall acc, NoDup acc ->
  NoDup (add_keys acc ks) /\ forall k, In k (add_keys acc ks) <-> In k acc \/ In k ks.
Proof.
  unfold add_keys. induction ks as [|x ks IH]; intros acc N; simpl.
  - split; auto. intros; tauto.
  - destruct (existsb (str_eqb x) acc) eqn:E.
    + destruct (IH acc N) as [N' H]. split; auto. intros k. rewrite H.
      apply existsb_exists in E as (y & I & Y). apply str_eqb_eq in Y. subst y.
      split; [tauto|]. intros [?|[->|?]]; auto.
    + assert (NI : ~ In x acc).
      { intros I. assert (T : existsb (str_eqb x) acc = true) by (apply existsb_exists; exists x; split; auto; apply str_eqb_refl).
        congruence. }
      destruct (IH (acc ++ [x])) as [N' H].
      { apply (Permutation_NoDup (l := x :: acc)); [|now constructor].
        apply Permutation_cons_append. }
      split; auto. intros k. rewrite H, in_app_iff. simpl. tauto.
Qed.

Lemma fold_keys_spec cs : forall acc, NoDup acc ->
  let r := fold_left (fun acc d => add_keys acc (cl_keys d)) cs acc in
  NoDup r /\ forall k, In k r <-> In k acc \/ exists d, In d cs /\ In k (cl_keys d).
Proof.
  induction cs as [|c cs IH]; intros acc N; simpl.
  - split; auto. intros k. split; auto. intros [?|(? & [] & _)]; auto.
  - destruct (add_keys_spec (cl_keys c) acc N) as [N1 H1]. destruct (IH _ N1) as [N2 H2].
    split; auto. intros k. rewrite H2, H1. split.
    + intros [[?|?]|(d & I & K)]; auto; right; eauto.
    + intros [?|(d & [->|I] & K)]; auto. right. eauto.
Qed.

Lemma fold_names cs : forall sb, fold_left (fun sb d => sb ++ py " AND " ++ cl_name d) cs sb
  = sb ++ flat_map (fun d => py " AND " ++ cl_name d) cs.
Proof.
  induction cs as [|c cs IH]; intros sb; simpl.
  - now rewrite app_nil_r.
  - rewrite IH. now rewrite <- !app_assoc.
Qed.

Lemma join_flat sep x l : join sep (x :: l) = x ++ flat_map (fun d => sep ++ d) l.
Proof.
  revert x. induction l as [|y l IH]; intros x; simpl flat_map.
  - simpl. now rewrite app_nil_r.
  - rewrite join_cons2, IH. now rewrite <- app_assoc.
Qed.

Lemma flat_map_map {A B C} (f : A -> B) (g : B -> list C) l : flat_map g (map f l) = flat_map (fun x => g (f x)) l.
Proof. induction l; simpl; congruence. Qed.

Theorem and_classifier_spec cs : cs <> [] -> exists c, and_classifier cs = Ok c
  /\ (forall k, In k (cl_keys c) <-> exists d, In d cs /\ In k (cl_keys d))
  /\ StronglySorted lex_lt (cl_keys c)
  /\ cl_name c = py "(" ++ join (py " AND ") (map cl_name cs) ++ py ")".
Proof.
  intros N. destruct cs as [|c0 cs]; [contradiction|]. unfold and_classifier.
  eexists. split; [reflexivity|]. cbn [cl_keys cl_name].
  destruct (add_keys_spec (cl_keys c0) [] (NoDup_nil _)) as [N1 H1].
  destruct (fold_keys_spec cs _ N1) as [N2 H2]. split; [|split].
  - intros k. rewrite sorted_strs_in, H2, H1. simpl. split.
    + intros [[[]|?]|(d & I & K)]; [exists c0|exists d]; auto.
    + intros (d & [<-|I] & K); eauto.
  - now apply sorted_strs_sorted.
  - rewrite fold_names. cbn [map]. rewrite join_flat, flat_map_map. now rewrite <- !app_assoc.
Qed.

Theorem and_classifier_raises cs x : and_classifier cs = Raise x <-> cs = [] /\ x = ValueError.
Proof.
  split.
  - destruct cs as [|c cs]; simpl; [intros [= <-]; auto|discriminate].
  - intros [-> ->]. reflexivity.
Qed.

Theorem and_classifier_order cs ds c d : Permutation cs ds -> and_classifier cs = Ok c -> and_classifier ds = Ok d ->
  cl_keys c = cl_keys d.
Proof.
  intros P C D.
  assert (Nc : cs <> []) by (intros ->; discriminate). assert (Nd : ds <> []) by (intros ->; discriminate).
  destruct (and_classifier_spec cs Nc) as (c' & C' & Hc & Sc & _).
  destruct (and_classifier_spec ds Nd) as (d' & D' & Hd & Sd & _).
  assert (c' = c) by congruence. assert (d' = d) by congruence. subst c' d'.
  apply sorted_lex_unique; auto. intros k. rewrite Hc, Hd. split; intros (x & I & K); exists x; split; auto.
  - eapply Permutation_in; eauto.
  - eapply Permutation_in; [symmetry|]; eauto.
Qed.

Theorem and_same_class cs c a b : and_classifier cs = Ok c ->
  (forall d k, In d cs -> In k (cl_keys d) -> shown a k = shown b k) ->
  class_identity c a = class_identity c b.
Proof.
  intros C H. assert (Nc : cs <> []) by (intros ->; discriminate).
  destruct (and_classifier_spec cs Nc) as (c' & C' & Hc & _). assert (c' = c) by congruence. subst c'.
  apply identity_depends. intros k K. apply Hc in K as (d & I & K). eauto.
Qed.

Lemma complete_list a ks : (forall k, In k ks -> complete a k) ->
  exists ss, Forall2 (shows a) ks ss /\ Forall (fun s => ~ In 38%N s) ss.
Proof.
  induction ks as [|k ks IH]; intros H; [exists []; split; constructor|].
  destruct (H k (or_introl eq_refl)) as (s & S & N). destruct IH as (ss & F & G); [intros; apply H; simpl; auto|].
  exists (s :: ss). split; constructor; auto.
Qed.

Lemma same_class_agree c a b : (forall k, In k (cl_keys c) -> complete a k) ->
  (forall k, In k (cl_keys c) -> complete b k) ->
  exists r, same_event_class c a b = Ok r /\ (r = true <-> forall k, In k (cl_keys c) -> shown a k = shown b k).
Proof.
  intros A B. destruct (complete_list a _ A) as (ss & FA & NA). destruct (complete_list b _ B) as (ts & FB & NB).
  destruct (same_class_all c a b ss ts FA FB NA NB) as (r & E & H). exists r. split; auto. rewrite H.
  clear - FA FB. revert ts FB. induction FA as [|k s ks ss S FA IH]; intros ts FB; inversion FB as [|? t ? ts' T FB']; subst.
  - split; [intros _ ? []|auto].
  - specialize (IH ts' FB'). unfold shows in S, T. split.
    + intros [= -> ->] k' [<-|I]; [congruence|]. apply IH; auto.
    + intros G. assert (E : s = t) by (assert (E := G k (or_introl eq_refl)); congruence). subst. f_equal.
      apply IH. intros; apply G; simpl; auto.
Qed.

Theorem and_logic cs c a b : and_classifier cs = Ok c ->
  (forall k, In k (cl_keys c) -> complete a k) -> (forall k, In k (cl_keys c) -> complete b k) ->
  exists r, same_event_class c a b = Ok r
  /\ (r = true <-> forall d, In d cs -> same_event_class d a b = Ok true).
Proof.
  intros C A B. assert (Nc : cs <> []) by (intros ->; discriminate).
  destruct (and_classifier_spec cs Nc) as (c' & C' & Hc & _). assert (c' = c) by congruence. subst c'.
  destruct (same_class_agree c a b A B) as (r & E & H). exists r. split; auto. rewrite H. split.
  - intros G d I. destruct (same_class_agree d a b) as (q & Q & HQ).
    + intros k K. apply A. apply Hc. eauto.
    + intros k K. apply B. apply Hc. eauto.
    + rewrite Q. f_equal. apply HQ. intros k K. apply G. apply Hc. eauto.
  - intros G k K. apply Hc in K as (d & I & K). destruct (same_class_agree d a b) as (q & Q & HQ).
    + intros k' K'. apply A. apply Hc. eauto.
    + intros k' K'. apply B. apply Hc. eauto.
    + apply HQ; auto. specialize (G d I). congruence.
Qed.

(** ** C16-C18: sets of event classes *)

Definition cm_ok (m : cmap) : Prop := dict_wf m /\ Forall (fun kv => ec_id (snd kv) = fst kv) m.

Lemma cm_ok_nil : cm_ok [].
Proof. split; constructor. Qed.

Lemma sset_forall {V} (P : pystr * V -> Prop) k v m : Forall P m -> P (k, v) -> Forall P (sset k v m).
Proof.
  intros F H. unfold sset. induction m as [|[k' v'] m IH]; simpl; auto.
  inversion F; subst. destruct (str_eqb_spec k k') as [->|]; auto.
Qed.

Lemma sset_length_le {V} k (v : V) m : (length m <= length (sset k v m))%nat.
Proof.
  unfold sset. induction m as [|[k' v'] m IH]; simpl; [lia|]. destruct (str_eqb k k'); simpl; lia.
Qed.

Lemma cm_ok_get m k c : cm_ok m -> sget k m = Some c -> ec_id c = k.
Proof. intros [_ F] H. apply sget_in in H. rewrite Forall_forall in F. apply (F _ H). Qed.

Lemma register_id_ok m id : cm_ok m -> cm_ok (register_id m id).
Proof.
  intros H. unfold register_id. destruct (sget id m) as [c|] eqn:E.
  - assert (I := cm_ok_get _ _ _ H E). destruct H as [W F]. split; [now apply sset_wf|].
    apply sset_forall; auto.
  - destruct H as [W F]. split; [now apply sset_wf|]. apply sset_forall; auto.
Qed.

Lemma register_id_get m id k : sget k (register_id m id)
  = if str_eqb k id then
      match sget id m with
      | Some c => Some (mk_ec (ec_id c) (ec_index c) (S (ec_size c)))
      | None => Some (mk_ec id (length m) 1)
      end
    else sget k m.
Proof.
  unfold register_id. destruct (str_eqb_spec k id) as [->|N].
  - destruct (sget id m); now rewrite sget_sset_same.
  - destruct (sget id m); rewrite sget_sset_other; auto.
Qed.

Lemma occurrences_cons id x l : occurrences id (x :: l) = ((if str_eqb id x then 1 else 0) + occurrences id l)%nat.
Proof. unfold occurrences. simpl. destruct (str_eqb id x); reflexivity. Qed.

Lemma fold_register_get ids : forall m k, cm_ok m ->
  match sget k m with
  | Some c => sget k (fold_left register_id ids m) = Some (mk_ec (ec_id c) (ec_index c) (ec_size c + occurrences k ids))
  | None => if Nat.eqb (occurrences k ids) 0 then sget k (fold_left register_id ids m) = None
            else exists i, sget k (fold_left register_id ids m) = Some (mk_ec k i (occurrences k ids))
                 /\ (length m <= i)%nat
  end.
Proof.
  induction ids as [|x ids IH]; intros m k O; simpl fold_left.
  - simpl occurrences. destruct (sget k m) as [[a b c]|] eqn:E.
    + cbn. apply f_equal. apply (f_equal (mk_ec _ _)). unfold occurrences. simpl. lia.
    + reflexivity.
  - assert (G := IH (register_id m x) k (register_id_ok m x O)). rewrite register_id_get in G.
    rewrite occurrences_cons. destruct (str_eqb_spec k x) as [->|N].
    + destruct (sget x m) as [c|] eqn:E.
      * cbn [ec_id ec_index ec_size] in G. rewrite G. apply f_equal. apply (f_equal (mk_ec _ _)). lia.
      * cbn [ec_id ec_index ec_size] in G. simpl Nat.add. simpl Nat.eqb. cbv iota. exists (length m). auto.
    + simpl Nat.add. destruct (sget k m) as [c|] eqn:E; [exact G|].
      destruct (Nat.eqb (occurrences k ids) 0); auto. destruct G as (i & G & L). exists i. split; auto.
      assert (LL : (length m <= length (register_id m x))%nat).
      { unfold register_id. destruct (sget x m); apply sset_length_le. }
      lia.
Qed.

Lemma fold_register_ok ids : forall m, cm_ok m -> cm_ok (fold_left register_id ids m).
Proof. induction ids; simpl; intros; auto. apply IHids. now apply register_id_ok. Qed.

(** The numbered list that [harmonize] builds. *)
Fixpoint numbered (i : nat) (l : list eclass) : cmap :=
  match l with
  | [] => []
  | c :: t => (ec_id c, mk_ec (ec_id c) i (ec_size c)) :: numbered (S i) t
  end.

Lemma harmonize_from_numbered l : forall i m, NoDup (map fst m ++ map ec_id l) ->
  harmonize_from i l m = m ++ numbered i l.
Proof.
  induction l as [|c l IH]; intros i m N; simpl.
  - now rewrite app_nil_r.
  - assert (NI : ~ In (ec_id c) (map fst m)).
    { intros I. simpl in N. apply NoDup_remove_2 in N. apply N. apply in_or_app. auto. }
    rewrite sset_new by auto. rewrite IH.
    + now rewrite <- app_assoc.
    + rewrite map_app. simpl. rewrite <- app_assoc. exact N.
Qed.

Lemma cm_ok_ids m : cm_ok m -> map ec_id (map snd m) = map fst m.
Proof.
  intros [_ F]. rewrite map_map. apply map_ext_in. intros kv I. rewrite Forall_forall in F. auto.
Qed.

Lemma harmonize_numbered m : cm_ok m -> harmonize m = numbered 0 (sort_by ec_id (map snd m)).
Proof.
  intros O. unfold harmonize. rewrite sorted_classes_eq. rewrite harmonize_from_numbered; [reflexivity|].
  simpl. assert (N : NoDup (map ec_id (map snd m))) by (rewrite cm_ok_ids by auto; apply O).
  apply (Permutation_NoDup (Permutation_map ec_id (sort_by_perm ec_id (map snd m)))). exact N.
Qed.

Lemma numbered_keys l : forall i, map fst (numbered i l) = map ec_id l.
Proof. induction l; simpl; intros; f_equal; auto. Qed.
Lemma numbered_index l : forall i, map ec_index (map snd (numbered i l)) = seq i (length l).
Proof. induction l; simpl; intros; f_equal; auto. Qed.
Lemma numbered_length l : forall i, length (numbered i l) = length l.
Proof. induction l; simpl; intros; f_equal; auto. Qed.
Lemma numbered_sizes l : forall i, map ec_size (map snd (numbered i l)) = map ec_size l.
Proof. induction l; simpl; intros; f_equal; auto. Qed.

Lemma numbered_ids_ok l : forall i, Forall (fun kv => ec_id (snd kv) = fst kv) (numbered i l).
Proof. induction l; simpl; intros; constructor; auto. Qed.

Lemma harmonize_ok m : cm_ok m -> cm_ok (harmonize m).
Proof.
  intros O. rewrite harmonize_numbered by auto. split; [|apply numbered_ids_ok].
  unfold dict_wf. rewrite numbered_keys.
  apply (Permutation_NoDup (Permutation_map ec_id (sort_by_perm ec_id (map snd m)))).
  rewrite cm_ok_ids by auto. apply O.
Qed.

Lemma harmonize_sorted m : cm_ok m -> StronglySorted lex_lt (map fst (harmonize m)).
Proof.
  intros O. rewrite harmonize_numbered by auto. rewrite numbered_keys. apply sort_by_sorted.
  rewrite cm_ok_ids by auto. apply O.
Qed.

Lemma harmonize_length m : cm_ok m -> length (harmonize m) = length m.
Proof.
  intros O. rewrite harmonize_numbered by auto. rewrite numbered_length.
  rewrite <- (Permutation_length (sort_by_perm ec_id (map snd m))). apply map_length.
Qed.

Lemma harmonize_index m : cm_ok m -> map ec_index (map snd (harmonize m)) = seq 0 (length m).
Proof.
  intros O. rewrite harmonize_numbered by auto. rewrite numbered_index. f_equal.
  rewrite <- (Permutation_length (sort_by_perm ec_id (map snd m))). apply map_length.
Qed.

Lemma harmonize_keys m k : cm_ok m -> In k (map fst (harmonize m)) <-> In k (map fst m).
Proof.
  intros O. rewrite harmonize_numbered by auto. rewrite numbered_keys. rewrite <- (cm_ok_ids m O).
  assert (P := Permutation_map ec_id (sort_by_perm ec_id (map snd m))).
  split; apply Permutation_in; auto. now symmetry.
Qed.

Lemma numbered_in l c : In c l -> forall i, exists j, In (ec_id c, mk_ec (ec_id c) j (ec_size c)) (numbered i l).
Proof.
  induction l as [|x l IH]; simpl; intros H i; [contradiction|]. destruct H as [->|H].
  - exists i. auto.
  - destruct (IH H (S i)) as [j J]. eauto.
Qed.

Lemma harmonize_get m k : cm_ok m ->
  match sget k m with
  | Some c => exists i, sget k (harmonize m) = Some (mk_ec k i (ec_size c))
  | None => sget k (harmonize m) = None
  end.
Proof.
  intros O. destruct (sget k m) as [c|] eqn:E.
  - assert (I := cm_ok_get _ _ _ O E). apply sget_in in E.
    assert (In c (sort_by ec_id (map snd m))).
    { apply (Permutation_in _ (sort_by_perm ec_id (map snd m))). now apply (in_map snd) in E. }
    destruct (numbered_in _ _ H 0) as [j J]. exists j. subst k. apply sin_get.
    + apply harmonize_ok. auto.
    + rewrite harmonize_numbered by auto. exact J.
  - apply sget_none. intros I. rewrite harmonize_keys in I by auto. exact (proj1 (sget_none _ _) E I).
Qed.

(** The result depends only on the sizes. *)
Fixpoint numbered_by (size : pystr -> nat) (i : nat) (l : list pystr) : cmap :=
  match l with
  | [] => []
  | k :: t => (k, mk_ec k i (size k)) :: numbered_by size (S i) t
  end.

Lemma numbered_by_eq size l : Forall (fun c => ec_size c = size (ec_id c)) l -> forall i,
  numbered i l = numbered_by size i (map ec_id l).
Proof. induction 1; simpl; intros; auto. rewrite H, IHForall. reflexivity. Qed.

Lemma numbered_by_ext s1 s2 l : Forall (fun k => s1 k = s2 k) l -> forall i, numbered_by s1 i l = numbered_by s2 i l.
Proof. induction 1; simpl; intros; auto. now rewrite H, IHForall. Qed.

Definition size_in (m : cmap) (k : pystr) : nat := match sget k m with Some c => ec_size c | None => 0%nat end.

Lemma harmonize_by m : cm_ok m -> harmonize m = numbered_by (size_in m) 0 (map fst (harmonize m)).
Proof.
  intros O. assert (K : map fst (harmonize m) = map ec_id (sort_by ec_id (map snd m))).
  { rewrite harmonize_numbered by auto. apply numbered_keys. }
  rewrite K. rewrite harmonize_numbered by auto. apply numbered_by_eq.
  apply Forall_forall. intros c I. apply (Permutation_in _ (Permutation_sym (sort_by_perm ec_id (map snd m)))) in I.
  apply in_map_iff in I as ([k c'] & <- & I). cbn [snd]. unfold size_in.
  assert (E := sin_get k c' m (proj1 O) I). rewrite (cm_ok_get m k c' O E), E. reflexivity.
Qed.

Lemma harmonize_determined m1 m2 : cm_ok m1 -> cm_ok m2 ->
  (forall k, In k (map fst m1) <-> In k (map fst m2)) -> (forall k, size_in m1 k = size_in m2 k) ->
  harmonize m1 = harmonize m2.
Proof.
  intros O1 O2 K S. rewrite (harmonize_by m1), (harmonize_by m2) by auto.
  assert (E : map fst (harmonize m1) = map fst (harmonize m2)).
  { apply sorted_lex_unique; try (apply harmonize_sorted; auto). intros k. rewrite !harmonize_keys by auto. auto. }
  rewrite E. apply numbered_by_ext. apply Forall_forall. auto.
Qed.

(** Registration of a whole log. *)
Lemma fold_register_event cl es : forall m,
  fold_res (register_event cl) es m = let! ids := identities cl es in Ok (fold_left register_id ids m).
Proof.
  unfold identities, register_event. induction es as [|e es IH]; intros m; simpl; auto.
  destruct (class_identity cl e) as [id|]; simpl; auto. rewrite IH.
  destruct (map_res (class_identity cl) es); reflexivity.
Qed.

Lemma fold_res_flat {A B S} (f : S -> B -> res S) (g : A -> list B) l : forall s,
  fold_res (fun s a => fold_res f (g a) s) l s = fold_res f (flat_map g l) s.
Proof.
  induction l as [|a l IH]; intros s; simpl; auto. rewrite fold_res_app.
  destruct (fold_res f (g a) s); simpl; auto.
Qed.

Lemma register_log_spec cl m l :
  register_log cl m l = let! ids := identities cl (log_events l) in Ok (fold_left register_id ids m).
Proof. unfold register_log, register_trace. rewrite fold_res_flat. apply fold_register_event. Qed.

Lemma derive_spec cl l : derive_event_classes cl l
  = let! ids := identities cl (log_events l) in Ok (harmonize (fold_left register_id ids [])).
Proof.
  unfold derive_event_classes. rewrite register_log_spec. destruct (identities cl (log_events l)); reflexivity.
Qed.

Lemma occurrences_pos k ids : occurrences k ids <> 0%nat <-> In k ids.
Proof.
  unfold occurrences. induction ids as [|x ids IH]; simpl; [tauto|].
  destruct (str_eqb_spec k x) as [->|N]; simpl.
  - split; auto.
  - rewrite IH. split; auto. intros [->|]; auto. contradiction.
Qed.

Lemma registered_size ids k : size_in (fold_left register_id ids []) k = occurrences k ids.
Proof.
  unfold size_in. assert (G := fold_register_get ids [] k cm_ok_nil). simpl in G.
  destruct (Nat.eqb_spec (occurrences k ids) 0) as [E|E].
  - rewrite G. auto.
  - destruct G as (i & -> & _). reflexivity.
Qed.

Lemma registered_keys ids k : In k (map fst (fold_left register_id ids [])) <-> In k ids.
Proof.
  assert (G := fold_register_get ids [] k cm_ok_nil). simpl in G.
  destruct (Nat.eqb_spec (occurrences k ids) 0) as [E|E].
  - apply sget_none in G. split; [contradiction|]. intros I. apply occurrences_pos in I. contradiction.
  - destruct G as (i & G & _). apply occurrences_pos in E. split; auto. intros _.
    apply sget_in in G. now apply (in_map fst) in G.
Qed.

Lemma sum_sizes_register ids : forall m, cm_ok m ->
  list_sum (map ec_size (map snd (fold_left register_id ids m)))
  = (list_sum (map ec_size (map snd m)) + length ids)%nat.
Proof.
  induction ids as [|x ids IH]; intros m O; simpl; [lia|]. rewrite IH by now apply register_id_ok.
  assert (E : list_sum (map ec_size (map snd (register_id m x))) = S (list_sum (map ec_size (map snd m)))); [|lia].
  unfold register_id. destruct (sget x m) as [c|] eqn:G.
  - assert (W := proj1 O). clear O IH. unfold sset, sget in *. unfold dict_wf in W. induction m as [|[k v] m IHm]; simpl in *; [discriminate|].
    destruct (str_eqb x k) eqn:E.
    + injection G as ->. simpl. lia.
    + inversion W; subst. cbn [map snd list_sum fold_right]. specialize (IHm G). unfold list_sum in *. rewrite IHm by auto. lia.
  - rewrite sset_new by (apply sget_none; auto). rewrite !map_app, list_sum_app. simpl. lia.
Qed.

Lemma list_sum_perm l1 l2 : Permutation l1 l2 -> list_sum l1 = list_sum l2.
Proof. induction 1; simpl; lia. Qed.

Lemma sum_sizes_harmonize m : cm_ok m ->
  list_sum (map ec_size (map snd (harmonize m))) = list_sum (map ec_size (map snd m)).
Proof.
  intros O. rewrite harmonize_numbered by auto. rewrite numbered_sizes. apply list_sum_perm.
  symmetry. apply Permutation_map, sort_by_perm.
Qed.

Lemma map_res_length {A B} (f : A -> res B) l bs : map_res f l = Ok bs -> length bs = length l.
Proof.
  revert bs. induction l as [|a l IH]; simpl; intros bs H.
  - injection H as <-. auto.
  - destruct (f a); [|discriminate]. destruct (map_res f l); [|discriminate]. injection H as <-. simpl. f_equal. auto.
Qed.

Lemma map_res_in {A B} (f : A -> res B) l bs a : map_res f l = Ok bs -> In a l -> exists b, f a = Ok b /\ In b bs.
Proof.
  revert bs. induction l as [|x l IH]; simpl; intros bs H I; [contradiction|].
  destruct (f x) as [b|] eqn:E; [|discriminate]. destruct (map_res f l) as [bs'|]; [|discriminate].
  injection H as <-. destruct I as [->|I].
  - exists b. simpl. auto.
  - destruct (IH bs' eq_refl I) as (b' & ? & ?). exists b'. simpl. auto.
Qed.

Theorem derive_partition cl l m ids : derive_event_classes cl l = Ok m ->
  identities cl (log_events l) = Ok ids ->
  NoDup (map fst m)
  /\ (forall id, In id (map fst m) <-> In id ids)
  /\ (forall id c, sget id m = Some c -> ec_id c = id /\ ec_size c = occurrences id ids)
  /\ list_sum (map ec_size (map snd m)) = length (log_events l)
  /\ (forall e, In e (log_events l) -> exists id c, class_identity cl e = Ok id /\ In id ids
        /\ get_class_of cl m e = Ok (Some c) /\ ec_id c = id).
Proof.
  rewrite derive_spec. intros D I. rewrite I in D. simpl in D. injection D as <-.
  set (m0 := fold_left register_id ids []). assert (O : cm_ok m0) by (apply fold_register_ok, cm_ok_nil).
  assert (OH := harmonize_ok m0 O).
  assert (K : forall id, In id (map fst (harmonize m0)) <-> In id ids).
  { intros id. rewrite harmonize_keys by auto. apply registered_keys. }
  assert (C : forall id c, sget id (harmonize m0) = Some c -> ec_id c = id /\ ec_size c = occurrences id ids).
  { intros id c E. assert (H := harmonize_get m0 id O). assert (S := registered_size ids id).
    unfold size_in in S. fold m0 in S. destruct (sget id m0) as [c0|].
    - destruct H as [i H]. rewrite H in E. injection E as <-. cbn. auto.
    - rewrite H in E. discriminate. }
  repeat split; auto; try (apply (C _ _ H)).
  - apply OH.
  - apply K.
  - apply K.
  - rewrite sum_sizes_harmonize by auto. unfold m0. rewrite sum_sizes_register by apply cm_ok_nil. simpl.
    unfold identities in I. now apply map_res_length in I.
  - intros e IE. destruct (map_res_in _ _ _ e I IE) as (id & E & II).
    assert (G : exists c, sget id (harmonize m0) = Some c).
    { destruct (sget id (harmonize m0)) eqn:G; eauto. apply sget_none in G. rewrite K in G. contradiction. }
    destruct G as [c G]. exists id, c. unfold get_class_of. rewrite E. simpl. rewrite G.
    repeat split; auto. apply (C _ _ G).
Qed.

Theorem derive_fails cl l x : derive_event_classes cl l = Raise x ->
  exists e, In e (log_events l) /\ class_identity cl e = Raise x.
Proof.
  rewrite derive_spec. unfold identities. induction (log_events l) as [|e es IH]; simpl; [discriminate|].
  destruct (class_identity cl e) as [id|y] eqn:E.
  - destruct (map_res (class_identity cl) es); simpl in *; [discriminate|].
    intros H. destruct (IH H) as (e' & I & E'). eauto.
  - simpl. intros [= ->]. eauto.
Qed.

Theorem derive_succeeds cl l : (forall e, In e (log_events l) -> exists id, class_identity cl e = Ok id) ->
  exists m ids, derive_event_classes cl l = Ok m /\ identities cl (log_events l) = Ok ids.
Proof.
  rewrite derive_spec. unfold identities. intros H.
  assert (G : exists ids, map_res (class_identity cl) (log_events l) = Ok ids).
  { induction (log_events l) as [|e es IH]; simpl; eauto.
    destruct (H e (or_introl eq_refl)) as [id ->]. destruct IH as [ids ->]; eauto. intros; apply H; simpl; auto. }
  destruct G as [ids ->]. simpl. eauto.
Qed.

Lemma find_by_index (m : cmap) : forall i, map ec_index (map snd m) = seq i (length m) -> forall j,
  find (fun c => Nat.eqb (ec_index c) j) (map snd m)
  = if Nat.ltb j i then None else option_map snd (nth_error m (j - i)).
Proof.
  induction m as [|[k c] m IH]; simpl; intros i H j.
  - destruct (Nat.ltb j i); auto. now destruct (j - i)%nat.
  - injection H as Hi H. rewrite Hi. rewrite (IH (S i) H j).
    destruct (Nat.eqb_spec i j) as [->|N].
    + rewrite Nat.ltb_irrefl, Nat.sub_diag. reflexivity.
    + destruct (Nat.ltb_spec j i) as [L|L].
      * destruct (Nat.ltb_spec j (S i)); [reflexivity|lia].
      * destruct (Nat.ltb_spec j (S i)); [lia|]. replace (j - i)%nat with (S (j - S i)) by lia. reflexivity.
Qed.

Lemma sorted_nth {A} (R : A -> A -> Prop) l : StronglySorted R l -> forall i j x y, (i < j)%nat ->
  nth_error l i = Some x -> nth_error l j = Some y -> R x y.
Proof.
  induction 1 as [|a l S IH F]; intros i j x y L X Y; [now destruct i|].
  destruct i as [|i], j as [|j]; simpl in *; try lia.
  - injection X as <-. rewrite Forall_forall in F. apply F. eapply nth_error_In; eauto.
  - apply (IH i j); auto. lia.
Qed.

Theorem derive_indices cl l m : derive_event_classes cl l = Ok m ->
  map ec_index (map snd m) = seq 0 (length m)
  /\ (forall i, (i < length m)%nat -> exists c, get_by_index m i = Some c /\ ec_index c = i /\ get_by_identity m (ec_id c) = Some c)
  /\ (forall i, (length m <= i)%nat -> get_by_index m i = None)
  /\ (forall id c, get_by_identity m id = Some c -> get_by_index m (ec_index c) = Some c)
  /\ (forall i j c d, get_by_index m i = Some c -> get_by_index m j = Some d -> ((i < j)%nat <-> lex_lt (ec_id c) (ec_id d))).
Proof.
  rewrite derive_spec. destruct (identities cl (log_events l)) as [ids|]; [|discriminate].
  cbn [bind]. intros [= <-].
  set (m0 := fold_left register_id ids []). assert (O : cm_ok m0) by (apply fold_register_ok, cm_ok_nil).
  assert (OH := harmonize_ok m0 O). assert (S := harmonize_sorted m0 O).
  assert (X := harmonize_index m0 O). rewrite <- (harmonize_length m0 O) in X. set (h := harmonize m0) in *.
  assert (F : forall j, get_by_index h j = option_map snd (nth_error h j)).
  { intros j. unfold get_by_index. rewrite (find_by_index h 0 X j). simpl. now rewrite Nat.sub_0_r. }
  assert (Nth : forall j k c, nth_error h j = Some (k, c) -> ec_index c = j /\ ec_id c = k /\ sget k h = Some c).
  { intros j k c E. split; [|split].
    - assert (E1 : nth_error (map ec_index (map snd h)) j = Some (ec_index c)).
      { rewrite map_map. rewrite nth_error_map, E. reflexivity. }
      assert (E3 : (j < length h)%nat) by (apply nth_error_Some; congruence).
      rewrite X, (nth_error_nth' _ 0%nat) in E1 by now rewrite seq_length.
      rewrite seq_nth in E1 by auto. simpl in E1; congruence.
    - destruct OH as [_ G]. rewrite Forall_forall in G. apply (G (k, c)). eapply nth_error_In; eauto.
    - apply sin_get; [apply OH|]. eapply nth_error_In; eauto. }
  split; auto. split; [|split; [|split]].
  - intros i L. destruct (nth_error h i) as [[k c]|] eqn:E.
    + exists c. rewrite F, E. destruct (Nth i k c E) as (A & B & C). unfold get_by_identity. rewrite B. auto.
    + apply nth_error_None in E. lia.
  - intros i L. rewrite F. apply nth_error_None in L. now rewrite L.
  - intros id c E. unfold get_by_identity in E. apply sget_in in E as I. apply In_nth_error in I as [j J].
    destruct (Nth j id c J) as (A & B & C). rewrite A, F, J. reflexivity.
  - intros i j c d Ci Dj. rewrite F in Ci, Dj.
    destruct (nth_error h i) as [[k c']|] eqn:Ei; [|discriminate]. injection Ci as ->.
    destruct (nth_error h j) as [[k' d']|] eqn:Ej; [|discriminate]. injection Dj as ->.
    destruct (Nth i k c Ei) as (_ & -> & _). destruct (Nth j k' d Ej) as (_ & -> & _).
    assert (Ki : nth_error (map fst h) i = Some k) by (rewrite nth_error_map, Ei; reflexivity).
    assert (Kj : nth_error (map fst h) j = Some k') by (rewrite nth_error_map, Ej; reflexivity).
    split; intros L.
    + eapply (sorted_nth lex_lt); eauto.
    + destruct (Nat.lt_total i j) as [?|[->|G]]; auto.
      * exfalso. assert (k = k') by congruence. subst. now apply (lex_lt_irrefl k').
      * exfalso. apply (lex_lt_asym k k'); auto. eapply (sorted_nth lex_lt); eauto.
Qed.

Lemma map_res_perm {A B} (f : A -> res B) l1 l2 : Permutation l1 l2 -> forall b1, map_res f l1 = Ok b1 ->
  exists b2, map_res f l2 = Ok b2 /\ Permutation b1 b2.
Proof.
  induction 1; intros b1 H1; simpl in *.
  - injection H1 as <-. eauto.
  - destruct (f x); [|discriminate]. destruct (map_res f l) as [bs|]; [|discriminate].
    injection H1 as <-. destruct (IHPermutation bs eq_refl) as (b2 & -> & P). eauto.
  - destruct (f y); [|discriminate]. destruct (f x); [|discriminate].
    destruct (map_res f l); [|discriminate]. injection H1 as <-. eexists. split; [reflexivity|]. constructor.
  - destruct (IHPermutation1 b1 H1) as (b2 & E2 & P2). destruct (IHPermutation2 b2 E2) as (b3 & E3 & P3).
    exists b3. split; auto. etransitivity; eauto.
Qed.

Lemma occurrences_perm k l1 l2 : Permutation l1 l2 -> occurrences k l1 = occurrences k l2.
Proof.
  induction 1; auto; rewrite ?occurrences_cons; try lia.
Qed.

Theorem derive_order_independent cl l1 l2 m : Permutation (log_events l1) (log_events l2) ->
  derive_event_classes cl l1 = Ok m -> derive_event_classes cl l2 = Ok m.
Proof.
  intros P. rewrite !derive_spec. unfold identities.
  destruct (map_res (class_identity cl) (log_events l1)) as [b1|] eqn:E1; [|discriminate]. simpl. intros [= <-].
  destruct (map_res_perm _ _ _ P b1 E1) as (b2 & -> & Q). simpl. f_equal.
  apply harmonize_determined; try (apply fold_register_ok, cm_ok_nil).
  - intros k. rewrite !registered_keys. split; apply Permutation_in; auto. now symmetry.
  - intros k. rewrite !registered_size. symmetry. now apply occurrences_perm.
Qed.

(** Histories. *)
Lemma run_ops_ok os : cm_ok (run_ops os).
Proof.
  unfold run_ops. assert (G : forall m, cm_ok m -> cm_ok (fold_left run_op os m)); [|apply G, cm_ok_nil].
  induction os as [|o os IH]; simpl; intros m O; auto. apply IH. destruct o; simpl.
  - now apply register_id_ok.
  - now apply harmonize_ok.
Qed.

Lemma sset_known {V} k (v w : V) m : sget k m = Some v -> forall f : V -> nat, f v = f w ->
  map f (map snd (sset k w m)) = map f (map snd m) /\ length (sset k w m) = length m.
Proof.
  unfold sget, sset. induction m as [|[k' v'] m IH]; simpl; intros E f F; [discriminate|].
  destruct (str_eqb k k').
  - injection E as ->. simpl. split; congruence.
  - simpl. destruct (IH E f F) as [-> ->]. auto.
Qed.

Lemma run_op_dense m o : cm_ok m -> map ec_index (map snd m) = seq 0 (length m) ->
  map ec_index (map snd (run_op m o)) = seq 0 (length (run_op m o)).
Proof.
  intros O X. destruct o as [id|]; simpl.
  - unfold register_id. destruct (sget id m) as [c|] eqn:E.
    + destruct (sset_known id c (mk_ec (ec_id c) (ec_index c) (S (ec_size c))) m E ec_index eq_refl) as [-> ->]. exact X.
    + rewrite sset_new by (apply sget_none; auto). rewrite !map_app, X, app_length, seq_app. reflexivity.
  - rewrite harmonize_length by auto. now apply harmonize_index.
Qed.

Theorem run_ops_dense os : map ec_index (map snd (run_ops os)) = seq 0 (length (run_ops os)).
Proof.
  unfold run_ops. assert (G : forall m, cm_ok m -> map ec_index (map snd m) = seq 0 (length m) ->
    map ec_index (map snd (fold_left run_op os m)) = seq 0 (length (fold_left run_op os m))).
  - induction os as [|o os IH]; simpl; intros m O X; auto. apply IH.
    + destruct o; [now apply register_id_ok|now apply harmonize_ok].
    + now apply run_op_dense.
  - apply G; [apply cm_ok_nil|reflexivity].
Qed.

Theorem register_keeps os id k c : sget k (run_ops os) = Some c ->
  sget k (register_id (run_ops os) id)
  = Some (mk_ec k (ec_index c) (ec_size c + if str_eqb k id then 1 else 0)).
Proof.
  intros E. rewrite register_id_get. assert (I := cm_ok_get _ _ _ (run_ops_ok os) E).
  destruct (str_eqb_spec k id) as [->|N].
  - rewrite E, I. f_equal. f_equal. lia.
  - rewrite E. destruct c as [a b n]. cbn in *. subst. f_equal. f_equal. lia.
Qed.

Theorem register_new os id : sget id (run_ops os) = None ->
  sget id (register_id (run_ops os) id) = Some (mk_ec id (length (run_ops os)) 1)
  /\ length (register_id (run_ops os) id) = S (length (run_ops os)).
Proof.
  intros E. rewrite register_id_get, str_eqb_refl, E. split; auto.
  unfold register_id. rewrite E, sset_new by (apply sget_none; auto). rewrite app_length. simpl. lia.
Qed.

Theorem register_others os id k : k <> id -> sget k (register_id (run_ops os) id) = sget k (run_ops os).
Proof.
  intros N. rewrite register_id_get. destruct (str_eqb_spec k id); [contradiction|reflexivity].
Qed.
Theorem register_new_full os id : sget id (run_ops os) = None ->
  sget id (register_id (run_ops os) id) = Some (mk_ec id (length (run_ops os)) 1)
  /\ length (register_id (run_ops os) id) = S (length (run_ops os))
  /\ forall k, k <> id -> sget k (register_id (run_ops os) id) = sget k (run_ops os).
Proof.
  intros E. destruct (register_new os id E). repeat split; auto. intros. now apply register_others.
Qed.

Theorem cl_compare_fields a b :
  (cl_compare a b < 0 <-> cl_before a b) /\ (0 < cl_compare a b <-> cl_before b a)
  /\ (cl_compare a b = 0 <-> cl_name a = cl_name b /\ cl_keys a = cl_keys b).
Proof.
  destruct (cl_compare_spec a b) as (P & Q & R). split; [exact P|]. split; [exact Q|]. rewrite R.
  destruct a, b. simpl. split; [intros E; injection E; auto|intros [-> ->]; auto].
Qed.

Theorem cl_total_order :
  (forall a b c, cl_before a b -> cl_before b c -> cl_before a c)
  /\ (forall a b, cl_before a b -> ~ cl_before b a)
  /\ (forall a b, cl_before a b \/ a = b \/ cl_before b a).
Proof.
  split; [apply cl_before_trans|]. split; [apply cl_before_asym|].
  intros a b. destruct (cl_compare_trichotomy a b) as [[_ H]|[[_ H]|[_ H]]]; auto.
Qed.

Theorem cl_operators a b :
  (cl_lt a b = true <-> cl_before a b) /\ (cl_gt a b = true <-> cl_before b a)
  /\ (cl_eqb a b = true <-> a = b)
  /\ (cl_le a b = true <-> cl_before a b \/ a = b) /\ (cl_ge a b = true <-> cl_before b a \/ a = b).
Proof.
  destruct (cl_compare_spec a b) as (P & Q & R). unfold cl_lt, cl_gt, cl_eqb, cl_le, cl_ge.
  rewrite !Z.ltb_lt, !Z.leb_le, Z.eqb_eq, P, Q, R. rewrite <- P, <- Q, <- R. repeat split; intros; lia.
Qed.

Theorem cl_hash_equal hk hs a b : cl_eqb a b = true -> cl_hash hk hs a = cl_hash hk hs b.
Proof. intros H. apply cl_eqb_eq in H. now subst. Qed.
End WithFloatIO.
