From Coq Require Import String NArith ZArith List Bool Lia Sorting.Sorted Sorting.Permutation.
From Verif Require Import Base.PyBase Base.PyDate Base.PyVal Model.Attr Model.Trace Model.TimeBounds Spec.Time
  Proofs.BaseFacts.
Import ListNotations.
Local Open Scope Z_scope.

(** ** insert_ordered *)


Lemma inserted_split t e i : (i <= length t)%nat -> inserted t (firstn i t ++ e :: skipn i t) e i.
Proof.
  intros L. exists (firstn i t), (skipn i t). rewrite firstn_skipn. repeat split.
  now rewrite firstn_length, Nat.min_l.
Qed.

Lemma inserted_end t e : inserted t (t ++ [e]) e (length t).
Proof. exists t, []. rewrite app_nil_r. auto. Qed.

Lemma insert_scan_ok t e ins k t' i : (k <= length t)%nat ->
  insert_scan t e ins k = (t', Ok i) -> inserted t t' e i.
Proof.
  revert t' i. induction k as [|k IH]; intros t' i L; cbn [insert_scan].
  - intros [= <- <-]. exists [], t. auto.
  - destruct (nth_error t k) as [ev|]; [|discriminate].
    destruct (sget _ (ev_attrs ev)) as [a|].
    + destruct (get_value a) as [ref|]; [|discriminate].
      destruct (py_ge ins ref) as [[|]|]; [| |discriminate].
      * intros [= <- <-]. apply (inserted_split t e (S k) L).
      * apply IH. lia.
    + intros [= <- <-]. apply inserted_end.
Qed.

Theorem insert_ordered_ok t e t' i : insert_ordered t e = (t', Ok i) -> inserted t t' e i.
Proof.
  unfold insert_ordered. destruct t as [|x t].
  - intros [= <- <-]. exists [], []. auto.
  - destruct (sget _ (ev_attrs e)) as [a|].
    + destruct (get_value a); [|discriminate]. apply insert_scan_ok. auto.
    + intros [= <- <-]. exact (inserted_end (x :: t) e).
Qed.

Lemma insert_scan_raise t e ins k t' x : (k <= length t)%nat ->
  insert_scan t e ins k = (t', Raise x) ->
  t' = t /\ exists ev a, In ev t /\ sget (py "time:timestamp") (ev_attrs ev) = Some a
  /\ (get_value a = Raise x \/ exists ref, get_value a = Ok ref /\ py_ge ins ref = Raise x).
Proof.
  revert t'. induction k as [|k IH]; intros t' L; cbn [insert_scan]; [discriminate|].
  destruct (nth_error t k) as [ev|] eqn:E.
  - assert (I : In ev t) by (eapply nth_error_In; eauto).
    destruct (sget _ (ev_attrs ev)) as [a|] eqn:A; [|discriminate].
    destruct (get_value a) as [ref|y] eqn:G.
    + destruct (py_ge ins ref) as [[|]|y] eqn:P; [discriminate| |].
      * apply IH. lia.
      * intros [= <- ->]. split; auto. exists ev, a. repeat split; auto. right. eauto.
    + intros [= <- ->]. split; auto. exists ev, a. auto.
  - apply nth_error_None in E. lia.
Qed.

Theorem insert_ordered_raise t e t' x : insert_ordered t e = (t', Raise x) ->
  t' = t /\ exists a, sget (py "time:timestamp") (ev_attrs e) = Some a
  /\ (get_value a = Raise x
      \/ exists ins ev b, get_value a = Ok ins /\ In ev t
         /\ sget (py "time:timestamp") (ev_attrs ev) = Some b
         /\ (get_value b = Raise x \/ exists ref, get_value b = Ok ref /\ py_ge ins ref = Raise x)).
Proof.
  unfold insert_ordered. destruct t as [|y t]; [discriminate|].
  destruct (sget _ (ev_attrs e)) as [a|] eqn:A; [|discriminate].
  destruct (get_value a) as [ins|y'] eqn:G.
  - intros H. apply insert_scan_raise in H; auto. destruct H as (-> & ev & b & I & B & H).
    split; auto. exists a. split; auto. right. exists ins, ev, b. auto.
  - intros [= <- ->]. split; auto. exists a. auto.
Qed.


Lemma get_value_plain a : is_collection (a_cls a) = false -> get_value a = Ok (a_val a).
Proof. intros H. unfold get_value. now rewrite H. Qed.

Theorem insert_ordered_raise_dates t e t' x : Forall dates_only (e :: t) ->
  insert_ordered t e = (t', Raise x) ->
  t' = t /\ x = TypeError /\ exists ev d1 d2, In ev t /\ timed e d1 /\ timed ev d2 /\ is_aware d1 <> is_aware d2.
Proof.
  intros F H. inversion F as [|? ? Fe Ft]; subst. apply insert_ordered_raise in H as (-> & a & A & H).
  split; auto. destruct (Fe a A) as [Ca [d1 D1]]. rewrite (get_value_plain a Ca) in H.
  destruct H as [H|(ins & ev & b & G & I & B & H)]; [discriminate|]. injection G as <-.
  rewrite Forall_forall in Ft. destruct (Ft ev I b B) as [Cb [d2 D2]]. rewrite (get_value_plain b Cb) in H.
  destruct H as [H|(ref & G & H)]; [discriminate|]. injection G as <-.
  rewrite D1, D2 in H. cbn in H. unfold dt_cmp in H.
  destruct (Bool.eqb (is_aware d1) (is_aware d2)) eqn:E; [discriminate|]. injection H as <-.
  split; auto. exists ev, d1, d2. repeat split; auto.
  - exists a. auto.
  - exists b. auto.
  - intros Q. rewrite Q, Bool.eqb_reflx in E. discriminate.
Qed.

(** ** Chronological order *)

Lemma time_of_timed ev d : timed ev d -> time_of ev = instant d.
Proof. intros (a & A & _ & V). unfold time_of. now rewrite A, V. Qed.

Lemma py_ge_dates d1 d2 : is_aware d1 = is_aware d2 ->
  py_ge (PDate d1) (PDate d2) = Ok (instant d2 <=? instant d1).
Proof.
  intros H. cbn. unfold dt_cmp. rewrite H, Bool.eqb_reflx. unfold Z.leb.
  rewrite (Z.compare_antisym (instant d1) (instant d2)).
  destruct (instant d1 ?= instant d2); reflexivity.
Qed.

Lemma firstn_S_snoc {A} (l : list A) k x : nth_error l k = Some x -> firstn (S k) l = firstn k l ++ [x].
Proof.
  revert k. induction l as [|y l IH]; intros [|k]; simpl; try discriminate.
  - intros [= ->]. reflexivity.
  - intros H. f_equal. apply IH. exact H.
Qed.

Lemma skipn_nth {A} (l : list A) k x : nth_error l k = Some x -> skipn k l = x :: skipn (S k) l.
Proof.
  revert k. induction l as [|y l IH]; intros [|k]; simpl; try discriminate.
  - intros [= ->]. reflexivity.
  - intros H. apply IH. exact H.
Qed.

Lemma insert_scan_dates aw t e d k : all_timed aw t -> is_aware d = aw -> (k <= length t)%nat ->
  Forall (fun ev => instant d < time_of ev) (skipn k t) ->
  exists l1 l2, t = l1 ++ l2 /\ insert_scan t e (PDate d) k = (l1 ++ e :: l2, Ok (length l1))
  /\ Forall (fun ev => instant d < time_of ev) l2
  /\ (l1 = [] \/ exists l0 x, l1 = l0 ++ [x] /\ time_of x <= instant d).
Proof.
  intros T W. induction k as [|k IH]; intros L F; cbn [insert_scan].
  - exists [], t. cbn in *. auto.
  - destruct (nth_error t k) as [ev|] eqn:E; [|apply nth_error_None in E; lia].
    assert (I : In ev t) by (eapply nth_error_In; eauto).
    unfold all_timed in T. rewrite Forall_forall in T. destruct (T ev I) as (d2 & TM & W2).
    assert (TO := time_of_timed ev d2 TM). destruct TM as (a & A & C & V).
    rewrite A, (get_value_plain a C), V, py_ge_dates by congruence.
    destruct (Z.leb_spec (instant d2) (instant d)) as [G|G].
    + exists (firstn (S k) t), (skipn (S k) t). rewrite firstn_skipn. split; auto.
      split; [|split]; auto.
      * f_equal. f_equal. rewrite firstn_length. lia.
      * right. exists (firstn k t), ev. split; [now apply firstn_S_snoc|lia].
    + apply IH; [lia|]. rewrite (skipn_nth _ _ _ E). constructor; auto. lia.
Qed.

Lemma insert_ordered_dates aw t e d : all_timed aw t -> timed e d -> is_aware d = aw ->
  exists l1 l2, t = l1 ++ l2 /\ insert_ordered t e = (l1 ++ e :: l2, Ok (length l1))
  /\ Forall (fun ev => time_of e < time_of ev) l2
  /\ (l1 = [] \/ exists l0 x, l1 = l0 ++ [x] /\ time_of x <= time_of e).
Proof.
  intros T TM W. rewrite (time_of_timed e d TM). destruct TM as (a & A & C & V).
  unfold insert_ordered. destruct t as [|y t].
  - exists [], []. auto.
  - rewrite A, (get_value_plain a C), V.
    apply (insert_scan_dates aw); auto. rewrite skipn_all. constructor.
Qed.

Lemma sorted_app_inv {A} (R : A -> A -> Prop) l1 l2 : StronglySorted R (l1 ++ l2) ->
  StronglySorted R l1 /\ StronglySorted R l2 /\ Forall (fun x => Forall (R x) l2) l1.
Proof.
  induction l1 as [|x l1 IH]; simpl; intros H.
  - repeat split; auto. constructor.
  - inversion H; subst. apply IH in H2 as (S1 & S2 & F). apply Forall_app in H3 as [F1 F2].
    repeat split; auto; constructor; auto.
Qed.

Lemma sorted_app {A} (R : A -> A -> Prop) l1 l2 : StronglySorted R l1 -> StronglySorted R l2 ->
  Forall (fun x => Forall (R x) l2) l1 -> StronglySorted R (l1 ++ l2).
Proof.
  intros S1 S2 F. induction l1 as [|x l1 IH]; simpl; auto.
  inversion S1; subst. inversion F; subst. constructor; auto. apply Forall_app. auto.
Qed.

Theorem insert_ordered_sorted aw t e d : all_timed aw t -> chronological t -> timed e d -> is_aware d = aw ->
  exists l1 l2, t = l1 ++ l2 /\ insert_ordered t e = (l1 ++ e :: l2, Ok (length l1))
  /\ Forall (fun ev => time_of ev <= time_of e) l1 /\ Forall (fun ev => time_of e < time_of ev) l2
  /\ chronological (l1 ++ e :: l2).
Proof.
  intros T S TM W. destruct (insert_ordered_dates aw t e d T TM W) as (l1 & l2 & -> & E & F2 & F1).
  exists l1, l2. split; auto. split; auto.
  assert (G : Forall (fun ev => time_of ev <= time_of e) l1).
  { destruct F1 as [->|(l0 & x & -> & X)]; [constructor|].
    rewrite <- app_assoc in S. apply sorted_app_inv in S as (_ & _ & S).
    apply Forall_app. split; [|auto]. rewrite Forall_forall in *. intros y Hy.
    specialize (S y Hy). simpl in S. inversion S; subst. lia. }
  split; auto. split; auto.
  apply sorted_app_inv in S as (S1 & S2 & S3). apply sorted_app; auto.
  - constructor; auto. eapply Forall_impl; [|exact F2]. simpl. intros. lia.
  - rewrite Forall_forall in *. intros x Hx. constructor; auto.
Qed.

(** Repeated insertion is a stable sort. *)
Lemma filter_none {A} (p : A -> bool) l : Forall (fun x => p x = false) l -> filter p l = [].
Proof. induction 1; simpl; auto. now rewrite H. Qed.

Lemma insert_all_sorted aw es : forall t, all_timed aw t -> chronological t -> all_timed aw es ->
  exists t', insert_all t es = (t', Ok tt) /\ chronological t' /\ Permutation (t ++ es) t'
  /\ forall z, filter (fun ev => time_of ev =? z) t' = filter (fun ev => time_of ev =? z) (t ++ es).
Proof.
  induction es as [|e es IH]; intros t T S F; cbn [insert_all].
  - exists t. rewrite app_nil_r. repeat split; auto.
  - inversion F as [|? ? (d & TM & W) F']; subst.
    destruct (insert_ordered_sorted _ t e d T S TM eq_refl) as (l1 & l2 & -> & E & L1 & L2 & S').
    rewrite E. assert (T' : all_timed (is_aware d) (l1 ++ e :: l2)).
    { apply Forall_app in T as [T1 T2]. apply Forall_app. split; auto. constructor; auto. exists d. auto. }
    destruct (IH _ T' S' F') as (t' & -> & St & P & Q). exists t'. split; auto. split; auto. split.
    + etransitivity; [|exact P]. rewrite <- !app_assoc. apply Permutation_app_head. simpl.
      symmetry. apply Permutation_middle.
    + intros z. rewrite Q. rewrite !filter_app. rewrite <- !app_assoc. cbn [filter app].
      destruct (Z.eqb_spec (time_of e) z) as [<-|N]; [|reflexivity].
      rewrite (filter_none _ l2); [reflexivity|]. eapply Forall_impl; [|exact L2].
      cbv beta. intros ev H. apply Z.eqb_neq. intros Y. rewrite Y in H. exact (Z.lt_irrefl _ H).
Qed.

Theorem insert_all_stable_sort aw es : all_timed aw es ->
  exists t', insert_all [] es = (t', Ok tt) /\ chronological t' /\ Permutation es t'
  /\ forall z, filter (fun ev => time_of ev =? z) t' = filter (fun ev => time_of ev =? z) es.
Proof. intros H. apply (insert_all_sorted aw es []); auto; constructor. Qed.

(** ** Time bounds *)

Definition tb_inv (aw : bool) (b : tbounds) (l : list datetime) : Prop :=
  Forall (fun d => is_aware d = aw) l /\
  match tb_first b, tb_last b with
  | None, None => l = []
  | Some f, Some g => earliest f l /\ latest g l
  | _, _ => False
  end.

Lemma dt_cmp_same a b : is_aware a = is_aware b -> dt_cmp a b = Ok (instant a ?= instant b).
Proof. intros H. unfold dt_cmp. now rewrite H, Bool.eqb_reflx. Qed.

Lemma tb_register_date_inv aw b l d : tb_inv aw b l -> is_aware d = aw ->
  exists b', tb_register_date b d = (b', Ok tt) /\ tb_inv aw b' (l ++ [d]).
Proof.
  intros [A I] W. assert (A' : Forall (fun d => is_aware d = aw) (l ++ [d])) by (apply Forall_app; auto).
  unfold tb_register_date. destruct b as [f g]. cbn [tb_first tb_last] in *.
  destruct f as [f|]; destruct g as [g|]; try contradiction.
  - destruct I as [[If Ff] [Ig Fg]]. rewrite Forall_forall in A.
    assert (Wf : is_aware f = aw) by (apply A; auto). assert (Wg : is_aware g = aw) by (apply A; auto).
    rewrite dt_cmp_same by congruence. rewrite Forall_forall in Ff, Fg.
    assert (FG := Ff g Ig).
    destruct (Z.compare_spec (instant d) (instant f)) as [E|E|E].
    1,3: rewrite dt_cmp_same by congruence; destruct (Z.compare_spec (instant d) (instant g)) as [G|G|G].
    all: eexists; split; [reflexivity|]; split; auto; cbn [tb_first tb_last]; split; split.
    all: try (apply in_or_app; auto; right; simpl; auto; fail).
    all: apply Forall_app; split; [apply Forall_forall; intros x Hx; specialize (Ff x Hx); specialize (Fg x Hx); lia|].
    all: constructor; auto; lia.
  - subst l. eexists. split; [reflexivity|]. split; auto. cbn [tb_first tb_last app].
    split; split; try (left; reflexivity); constructor; auto; lia.
Qed.

Lemma tb_register_opt_inv aw b l o : tb_inv aw b l -> Forall (fun d => is_aware d = aw) (opt_list o) ->
  exists b', tb_register_opt b o = (b', Ok tt) /\ tb_inv aw b' (l ++ opt_list o).
Proof.
  intros I F. destruct o as [d|]; cbn.
  - inversion F; subst. now apply tb_register_date_inv.
  - rewrite app_nil_r. eauto.
Qed.

Lemma tb_register_inv aw b l x : tb_inv aw b l -> plain_stamp x ->
  Forall (fun d => is_aware d = aw) (contributed x) ->
  exists b', tb_register b x = (b', Ok tt) /\ tb_inv aw b' (l ++ contributed x).
Proof.
  intros I P F. destruct x as [o|e|d|]; cbn [tb_register contributed] in *.
  - apply Forall_app in F as [F1 F2].
    destruct (tb_register_opt_inv aw b l (tb_first o) I F1) as (b1 & -> & I1).
    destruct (tb_register_opt_inv aw b1 _ (tb_last o) I1 F2) as (b2 & -> & I2).
    exists b2. rewrite app_assoc. auto.
  - unfold StdExt.extract_timestamp, StdExt.fetch. cbn [plain_stamp] in P.
    destruct (sget (py "time:timestamp") (ev_attrs e)) as [a|].
    + specialize (P a eq_refl). rewrite (get_value_plain a P).
      destruct (a_val a); try (rewrite app_nil_r; eauto; fail).
      inversion F; subst. now apply tb_register_date_inv.
    + rewrite app_nil_r. eauto.
  - inversion F; subst. now apply tb_register_date_inv.
  - rewrite app_nil_r. eauto.
Qed.

Lemma tb_register_all_inv aw xs : forall b l, tb_inv aw b l -> Forall plain_stamp xs ->
  Forall (fun d => is_aware d = aw) (flat_map contributed xs) ->
  exists b', tb_register_all b xs = (b', Ok tt) /\ tb_inv aw b' (l ++ flat_map contributed xs).
Proof.
  induction xs as [|x xs IH]; intros b l I P F; cbn [tb_register_all flat_map].
  - rewrite app_nil_r. eauto.
  - inversion P; subst. cbn in F. apply Forall_app in F as [F1 F2].
    destruct (tb_register_inv aw b l x I H1 F1) as (b1 & -> & I1).
    destruct (IH b1 _ I1 H2 F2) as (b2 & -> & I2). exists b2. rewrite app_assoc. auto.
Qed.

Theorem time_bounds_main aw xs : Forall plain_stamp xs ->
  Forall (fun d => is_aware d = aw) (flat_map contributed xs) ->
  exists b, tb_register_all tb_empty xs = (b, Ok tt)
  /\ match tb_first b, tb_last b with
     | None, None => flat_map contributed xs = []
     | Some f, Some g => earliest f (flat_map contributed xs) /\ latest g (flat_map contributed xs)
     | _, _ => False
     end.
Proof.
  intros P F. destruct (tb_register_all_inv aw xs tb_empty []) as (b & E & _ & I); auto.
  - split; [constructor|reflexivity].
  - exists b. auto.
Qed.

Lemma earliest_unique a b l1 l2 : (forall x, In x l1 <-> In x l2) -> earliest a l1 -> earliest b l2 -> instant a = instant b.
Proof.
  intros H [Ia Fa] [Ib Fb]. rewrite Forall_forall in Fa, Fb.
  assert (X := Fa b (proj2 (H b) Ib)). assert (Y := Fb a (proj1 (H a) Ia)). lia.
Qed.

Lemma latest_unique a b l1 l2 : (forall x, In x l1 <-> In x l2) -> latest a l1 -> latest b l2 -> instant a = instant b.
Proof.
  intros H [Ia Fa] [Ib Fb]. rewrite Forall_forall in Fa, Fb.
  assert (X := Fa b (proj2 (H b) Ib)). assert (Y := Fb a (proj1 (H a) Ia)). lia.
Qed.


Lemma perm_flat_map {A B} (f : A -> list B) l1 l2 : Permutation l1 l2 -> Permutation (flat_map f l1) (flat_map f l2).
Proof.
  induction 1; simpl; auto.
  - now apply Permutation_app_head.
  - rewrite !app_assoc. apply Permutation_app_tail, Permutation_app_comm.
  - etransitivity; eauto.
Qed.

Theorem time_bounds_order aw xs ys : Permutation xs ys -> Forall plain_stamp xs ->
  Forall (fun d => is_aware d = aw) (flat_map contributed xs) ->
  same_instant (tb_first (fst (tb_register_all tb_empty xs))) (tb_first (fst (tb_register_all tb_empty ys)))
  /\ same_instant (tb_last (fst (tb_register_all tb_empty xs))) (tb_last (fst (tb_register_all tb_empty ys))).
Proof.
  intros P S F.
  assert (PC := perm_flat_map contributed _ _ P).
  assert (S' : Forall plain_stamp ys) by (rewrite <- P; auto).
  assert (F' : Forall (fun d => is_aware d = aw) (flat_map contributed ys)) by (rewrite <- PC; auto).
  destruct (time_bounds_main aw xs S F) as (b1 & -> & H1).
  destruct (time_bounds_main aw ys S' F') as (b2 & -> & H2). cbn [fst].
  assert (IFF : forall x, In x (flat_map contributed xs) <-> In x (flat_map contributed ys)).
  { intros x. split; apply Permutation_in; auto. now symmetry. }
  destruct (tb_first b1) as [f1|], (tb_last b1) as [g1|]; try contradiction;
  destruct (tb_first b2) as [f2|], (tb_last b2) as [g2|]; try contradiction; cbn.
  - destruct H1 as [E1 L1], H2 as [E2 L2]. split; [eapply earliest_unique|eapply latest_unique]; eauto.
  - exfalso. destruct H1 as [[I _] _]. rewrite IFF, H2 in I. contradiction.
  - exfalso. destruct H2 as [[I _] _]. rewrite <- IFF, H1 in I. contradiction.
  - auto.
Qed.

Theorem is_within_main aw xs d : Forall plain_stamp xs ->
  Forall (fun x => is_aware x = aw) (flat_map contributed xs) -> is_aware d = aw ->
  flat_map contributed xs <> [] ->
  let b := fst (tb_register_all tb_empty xs) in
  exists f g, tb_first b = Some f /\ tb_last b = Some g
  /\ tb_is_within b d = Ok ((instant f <=? instant d) && (instant d <=? instant g)).
Proof.
  intros S F W N b. destruct (time_bounds_main aw xs S F) as (b1 & E & H). subst b. rewrite E. cbn [fst].
  destruct (tb_first b1) as [f|] eqn:Ef, (tb_last b1) as [g|] eqn:Eg; try contradiction.
  exists f, g. split; auto. split; auto. destruct H as [[If Ff] [Ig Fg]].
  rewrite Forall_forall in F, Ff. assert (Wf := F f If). assert (Wg := F g Ig). cbv beta in Wf, Wg.
  assert (FG := Ff g Ig).
  unfold tb_is_within. rewrite Ef, Eg. unfold dt_eqb. rewrite W, Wf, Wg, Bool.eqb_reflx. cbn [andb].
  rewrite !dt_cmp_same by congruence.
  destruct (Z.eqb_spec (instant d) (instant f)) as [E1|E1].
  { f_equal. symmetry. apply andb_true_iff. split; apply Z.leb_le; lia. }
  destruct (Z.eqb_spec (instant d) (instant g)) as [E2|E2].
  { f_equal. symmetry. apply andb_true_iff. split; apply Z.leb_le; lia. }
  destruct (Z.compare_spec (instant f) (instant d)) as [C|C|C]; [lia| |].
  - rewrite (proj2 (Z.leb_le _ _)) by lia. cbn [andb].
    destruct (Z.compare_spec (instant d) (instant g)) as [D|D|D]; [lia| |].
    + now rewrite (proj2 (Z.leb_le _ _)) by lia.
    + now rewrite (proj2 (Z.leb_gt _ _)) by lia.
  - now rewrite (proj2 (Z.leb_gt _ _)) by lia.
Qed.

Theorem registered_within aw xs d : Forall plain_stamp xs ->
  Forall (fun x => is_aware x = aw) (flat_map contributed xs) ->
  In d (flat_map contributed xs) ->
  tb_is_within (fst (tb_register_all tb_empty xs)) d = Ok true.
Proof.
  intros S F I. assert (W : is_aware d = aw) by (rewrite Forall_forall in F; auto).
  assert (N : flat_map contributed xs <> []) by (intros E; rewrite E in I; contradiction).
  destruct (is_within_main aw xs d S F W N) as (f & g & Ef & Eg & ->).
  destruct (time_bounds_main aw xs S F) as (b1 & E & H). rewrite E in Ef, Eg. cbn [fst] in Ef, Eg.
  rewrite Ef, Eg in H. destruct H as [[_ Ff] [_ Fg]]. rewrite Forall_forall in Ff, Fg.
  specialize (Ff d I). specialize (Fg d I).
  f_equal. apply andb_true_iff. split; apply Z.leb_le; lia.
Qed.

Lemma chronological_single ev : chronological [ev].
Proof. repeat constructor. Qed.
