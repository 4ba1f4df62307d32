From Coq Require Import String NArith ZArith List Bool Lia.
From Verif Require Import Base.PyBase Base.PyVal Model.Attr Model.Registry Model.NameMap Model.Token
  Spec.Registries Proofs.BaseFacts Proofs.StrFacts.
Import ListNotations.

(** ** XRegistry *)
Section Reg.
Context {A : Type} (eqb : A -> A -> bool) (EQ : equivalence eqb).

Let refl := proj1 EQ.
Let sym := proj1 (proj2 EQ).
Let trans := proj2 (proj2 EQ).

Lemma existsb_false_all x l : existsb (eqb x) l = false <-> forall y, In y l -> eqb x y = false.
Proof.
  split.
  - intros H y I. destruct (eqb x y) eqn:E; auto. assert (existsb (eqb x) l = true) by (apply existsb_exists; eauto). congruence.
  - intros H. destruct (existsb (eqb x) l) eqn:E; auto. apply existsb_exists in E as (y & I & E). rewrite H in E by auto. discriminate.
Qed.

Lemma all_different_snoc x l : all_different eqb l -> existsb (eqb x) l = false -> all_different eqb (l ++ [x]).
Proof.
  induction l as [|y l IH]; simpl; intros D N.
  - split; auto. intros z [].
  - apply orb_false_iff in N as [N1 N2]. destruct D as [D1 D2]. split; auto.
    intros z I. apply in_app_iff in I as [I|[<-|[]]]; auto.
    destruct (eqb y x) eqn:E; auto. apply sym in E. congruence.
Qed.

Lemma all_different_add x l : all_different eqb l -> all_different eqb (set_add eqb x l).
Proof. unfold set_add. intros D. destruct (existsb (eqb x) l) eqn:E; auto. now apply all_different_snoc. Qed.

Lemma set_add_mem x y l : existsb (eqb y) (set_add eqb x l) = eqb y x || existsb (eqb y) l.
Proof.
  unfold set_add. destruct (existsb (eqb x) l) eqn:E.
  - destruct (eqb y x) eqn:Y; auto. simpl. apply existsb_exists in E as (z & I & E).
    apply existsb_exists. exists z. split; auto. eapply trans; eauto.
  - rewrite existsb_app. simpl. rewrite orb_false_r. apply orb_comm.
Qed.

Lemma set_add_incl x l y : In y (set_add eqb x l) -> y = x \/ In y l.
Proof. unfold set_add. destruct (existsb (eqb x) l); auto. rewrite in_app_iff. simpl. intuition. Qed.

Lemma reg_step_set r o : reg_set (reg_step eqb r o) = set_add eqb (op_element o) (reg_set r).
Proof.
  destruct o as [x|x]; simpl; auto. unfold reg_register, reg_mem, set_add.
  destruct (existsb (eqb x) (reg_set r)) eqn:E; auto.
Qed.

Lemma reg_run_set h : reg_set (reg_run eqb h) = fold_left (fun s o => set_add eqb (op_element o) s) h [].
Proof.
  unfold reg_run. assert (G : forall r, reg_set (fold_left (reg_step eqb) h r)
    = fold_left (fun s o => set_add eqb (op_element o) s) h (reg_set r)); [|apply G].
  induction h as [|o h IH]; intros r; simpl; auto. now rewrite IH, reg_step_set.
Qed.

Theorem registry_available h :
  all_different eqb (reg_available (reg_run eqb h))
  /\ (forall x, existsb (eqb x) (reg_available (reg_run eqb h)) = existsb (fun o => eqb x (op_element o)) h)
  /\ (forall x, In x (reg_available (reg_run eqb h)) -> In x (map op_element h)).
Proof.
  unfold reg_available. rewrite reg_run_set.
  assert (G : forall s, all_different eqb s ->
    let s' := fold_left (fun s o => set_add eqb (op_element o) s) h s in
    all_different eqb s'
    /\ (forall x, existsb (eqb x) s' = existsb (eqb x) s || existsb (fun o => eqb x (op_element o)) h)
    /\ (forall x, In x s' -> In x s \/ In x (map op_element h))).
  { induction h as [|o t IH]; intros s D; simpl.
    - repeat split; auto. intros. now rewrite orb_false_r.
    - destruct (IH (set_add eqb (op_element o) s) (all_different_add _ _ D)) as (G1 & G2 & G3).
      repeat split; auto.
      + intros x. rewrite G2, set_add_mem. rewrite <- orb_assoc, (orb_comm (eqb x _)), <- orb_assoc.
        f_equal. apply orb_comm.
      + intros x I. apply G3 in I as [I|I]; auto. apply set_add_incl in I as [->|I]; auto. }
  destruct (G [] I) as (G1 & G2 & G3). repeat split; auto. intros x H. now destruct (G3 x H).
Qed.

Theorem registry_default h : reg_default (reg_run eqb h) = expected_default h.
Proof.
  unfold reg_default, reg_run, expected_default, last_set.
  assert (G : forall h r, (reg_current r = None -> reg_set r = []) ->
    reg_current (fold_left (reg_step eqb) h r)
    = match fold_left (fun r o => match o with RegSetDefault x => Some x | _ => r end) h None with
      | Some x => Some x
      | None => match reg_current r with Some x => Some x | None => option_map op_element (hd_error h) end
      end).
  { clear h. induction h as [|o h IH]; intros r H; simpl.
    - destruct (reg_current r); reflexivity.
    - assert (Acc : forall (l : list (reg_op A)) a,
        fold_left (fun r o => match o with RegSetDefault x => Some x | _ => r end) l (Some a)
        = match fold_left (fun r o => match o with RegSetDefault x => Some x | _ => r end) l None with
          | Some x => Some x | None => Some a end).
      { induction l as [|[y|y] l IHl]; intros a; simpl; auto. rewrite (IHl y). now destruct (fold_left _ l None). }
      rewrite IH.
      + destruct o as [x|x]; simpl.
        * destruct (fold_left _ h None); auto. unfold reg_register.
          destruct (reg_mem eqb r x) eqn:M.
          -- destruct (reg_current r) eqn:C; auto. unfold reg_mem in M. rewrite H in M by auto. discriminate.
          -- simpl. destruct (reg_current r); reflexivity.
        * rewrite Acc. destruct (fold_left _ h None); reflexivity.
      + destruct o as [x|x]; simpl; [|discriminate]. unfold reg_register. destruct (reg_mem eqb r x) eqn:M; auto.
        simpl. destruct (reg_current r); discriminate. }
  rewrite G; auto.
Qed.

Theorem registry_default_available h x :
  reg_default (reg_run eqb h) = Some x -> existsb (eqb x) (reg_available (reg_run eqb h)) = true.
Proof.
  rewrite registry_default. destruct (registry_available h) as (_ & G & _). rewrite G. unfold expected_default.
  assert (L : forall (h : list (reg_op A)) a, fold_left (fun r o => match o with RegSetDefault x => Some x | _ => r end) h a = Some x ->
    a = Some x \/ existsb (fun o => eqb x (op_element o)) h = true).
  { clear G. clear h. intros h. induction h as [|o h IH]; simpl; intros a H; auto.
    destruct (IH _ H) as [E|E].
    - destruct o as [y|y]; simpl; auto. injection E as ->. right. now rewrite refl.
    - right. rewrite E. apply orb_true_r. }
  unfold last_set. intros H. destruct (fold_left _ h None) as [y|] eqn:E.
  - injection H as ->. destruct (L h None E) as [?|?]; [discriminate|auto].
  - destruct h as [|o h]; [discriminate|]. simpl in *. injection H as <-. now rewrite refl.
Qed.
End Reg.

(** ** XExtensionManager *)
Section Mgr.
Context {E : Type} (name prefix uri : E -> pystr).

Lemma mgr_list_firsts h : forall m,
  mg_list (fold_left (mgr_register uri) h m) = mg_list m ++ firsts_from uri (map uri (mg_list m)) h.
Proof.
  induction h as [|x h IH]; intros m; simpl; [now rewrite app_nil_r|]. rewrite IH. simpl.
  assert (X : existsb (fun y => same_uri uri y x) (mg_list m) = existsb (str_eqb (uri x)) (map uri (mg_list m))).
  { induction (mg_list m) as [|y l IHl]; simpl; auto. rewrite IHl. unfold same_uri. f_equal.
    destruct (str_eqb_spec (uri y) (uri x)) as [->|N].
    - symmetry. apply str_eqb_refl.
    - symmetry. apply str_eqb_neq. congruence. }
  rewrite X. destruct (existsb (str_eqb (uri x)) (map uri (mg_list m))) eqn:EX; auto.
  rewrite map_app, <- app_assoc. simpl. f_equal. f_equal.
  assert (P : forall s s', (forall u, existsb (str_eqb u) s = existsb (str_eqb u) s') -> firsts_from uri s h = firsts_from uri s' h).
  { clear. induction h as [|y h IH]; intros s s' H; simpl; auto. rewrite H.
    destruct (existsb (str_eqb (uri y)) s'); auto. f_equal. apply IH. intros u. simpl. now rewrite H. }
  apply P. intros u. rewrite existsb_app. simpl. rewrite orb_false_r. apply orb_comm.
Qed.

Theorem manager_list h : mg_list (mgr_run uri h) = firsts uri h.
Proof. unfold mgr_run. now rewrite mgr_list_firsts. Qed.

Lemma firsts_nodup h : forall seen, NoDup (map uri (firsts_from uri seen h))
  /\ forall u, In u (map uri (firsts_from uri seen h)) -> existsb (str_eqb u) seen = false.
Proof.
  induction h as [|x h IH]; intros seen; simpl; [split; [constructor|intros ? []]|].
  destruct (existsb (str_eqb (uri x)) seen) eqn:EX; [apply IH|].
  destruct (IH (uri x :: seen)) as [N D]. split.
  - simpl. constructor; auto. intros I. apply D in I. simpl in I. now rewrite str_eqb_refl in I.
  - simpl. intros u [<-|I]; auto. apply D in I. simpl in I. now apply orb_false_iff in I.
Qed.

Theorem manager_distinct h : NoDup (map uri (mg_list (mgr_run uri h))).
Proof. rewrite manager_list. apply firsts_nodup. Qed.

Lemma index_from_spec l x : forall i, NoDup (map uri l) -> 
  forall n, nth_error l n = Some x -> index_from uri i l x = (i + Z.of_nat n)%Z.
Proof.
  induction l as [|y l IH]; intros i N n H; [destruct n; discriminate|]. simpl in *. inversion N; subst.
  destruct n as [|n]; simpl in H.
  - injection H as ->. unfold same_uri. rewrite str_eqb_refl. lia.
  - destruct (same_uri uri y x) eqn:E0.
    + apply str_eqb_eq in E0. exfalso. apply H2. rewrite E0. apply in_map. eapply nth_error_In; eauto.
    + rewrite (IH (i + 1)%Z H3 n H). lia.
Qed.

Theorem manager_index_inverse h i x : mgr_by_index (mgr_run uri h) i = Some x ->
  mgr_index uri (mgr_run uri h) x = i.
Proof.
  unfold mgr_by_index, mgr_index. intros H.
  destruct ((0 <=? i) && (i <? Z.of_nat (List.length (mg_list (mgr_run uri h)))))%Z eqn:B; [|discriminate].
  apply andb_true_iff in B as [B1 B2]. apply Z.leb_le in B1.
  rewrite (index_from_spec _ x 0 (manager_distinct h) _ H), Z2Nat.id; auto.
Qed.

Theorem manager_index_range h i : (exists x, mgr_by_index (mgr_run uri h) i = Some x)
  <-> (0 <= i < Z.of_nat (List.length (firsts uri h)))%Z.
Proof.
  unfold mgr_by_index. rewrite manager_list.
  destruct ((0 <=? i) && (i <? Z.of_nat (List.length (firsts uri h))))%Z eqn:B.
  - apply andb_true_iff in B as [B1 B2]. apply Z.leb_le in B1. apply Z.ltb_lt in B2. split; auto. intros _.
    destruct (nth_error (firsts uri h) (Z.to_nat i)) eqn:N; eauto. apply nth_error_None in N. lia.
  - split; [intros [x E0]; discriminate|]. intros [B1 B2]. apply andb_false_iff in B as [B|B].
    + apply Z.leb_gt in B. lia.
    + apply Z.ltb_ge in B. lia.
Qed.

Theorem manager_index_unknown h x : mgr_index uri (mgr_run uri h) x = (-1)%Z <-> ~ In (uri x) (map uri h).
Proof. clear name prefix.
  unfold mgr_index. rewrite manager_list.
  assert (A : forall l i, (0 <= i)%Z -> index_from uri i l x = (-1)%Z <-> ~ In (uri x) (map uri l)).
  { induction l as [|y l IH]; intros i P; simpl; [tauto|]. unfold same_uri.
    destruct (str_eqb_spec (uri y) (uri x)) as [E0|N].
    - split; [lia|]. intros H. exfalso. auto.
    - rewrite IH by lia. split; [intros H [G|G]; congruence|tauto]. }
  rewrite A by lia. assert (B : forall u, In u (map uri (firsts uri h)) <-> In u (map uri h)).
  { intros u. unfold firsts. assert (G : forall seen, In u (map uri (firsts_from uri seen h)) <-> In u (map uri h) /\ existsb (str_eqb u) seen = false).
    { induction h as [|y h IH]; intros seen; simpl; [tauto|].
      destruct (existsb (str_eqb (uri y)) seen) eqn:EX.
      - rewrite IH. split; [tauto|]. intros [[<-|?] ?]; [congruence|auto].
      - simpl. rewrite IH. simpl. destruct (str_eqb_spec u (uri y)) as [->|N]; simpl.
        + split; auto.
        + split; [intros [?|?]; [congruence|tauto]|]. intros [[?|?] ?]; [congruence|tauto]. }
    rewrite G. simpl. tauto. }
  now rewrite B.
Qed.

Theorem manager_index_stable h h' i x : mgr_by_index (mgr_run uri h) i = Some x ->
  mgr_by_index (mgr_run uri (h ++ h')) i = Some x.
Proof.
  unfold mgr_by_index. rewrite !manager_list. intros H.
  destruct ((0 <=? i) && (i <? Z.of_nat (List.length (firsts uri h))))%Z eqn:B; [|discriminate].
  assert (P : exists t, firsts uri (h ++ h') = firsts uri h ++ t).
  { unfold firsts. generalize (@nil pystr). clear. induction h as [|y h IH]; intros seen; simpl; [eauto|].
    destruct (existsb (str_eqb (uri y)) seen); auto. destruct (IH (uri y :: seen)) as [t ->]. exists t. reflexivity. }
  destruct P as [t ->]. apply andb_true_iff in B as [B1 B2]. apply Z.ltb_lt in B2. rewrite app_length.
  rewrite B1. assert (L : (i <? Z.of_nat (List.length (firsts uri h) + List.length t))%Z = true) by (apply Z.ltb_lt; lia).
  rewrite L. simpl. rewrite nth_error_app1; auto. apply nth_error_Some. congruence.
Qed.

Lemma mgr_map_last h u : sget u (mg_map (mgr_run uri h)) = last_with uri u h.
Proof.
  unfold mgr_run, last_with. induction h as [|x h IH] using rev_ind; simpl; auto.
  rewrite fold_left_app, rev_app_distr. simpl. destruct (str_eqb_spec (uri x) u) as [->|N].
  - apply sget_sset_same.
  - rewrite sget_sset_other by congruence. exact IH.
Qed.

Theorem manager_lookups h u n p :
  mgr_by_uri (mgr_run uri h) u = last_with uri u h
  /\ mgr_by_name name (mgr_run uri h) n = find (fun x => str_eqb (name x) n) (firsts uri h)
  /\ mgr_by_prefix prefix (mgr_run uri h) p = find (fun x => str_eqb (prefix x) p) (firsts uri h).
Proof.
  unfold mgr_by_uri, mgr_by_name, mgr_by_prefix. rewrite manager_list. split; auto. apply mgr_map_last.
Qed.

(** An extension registered once, with name and prefix of its own. *)
Theorem manager_agree h1 x h2 :
  let h := h1 ++ x :: h2 in
  (forall y, In y (h1 ++ h2) -> uri y <> uri x /\ name y <> name x /\ prefix y <> prefix x) ->
  mgr_by_uri (mgr_run uri h) (uri x) = Some x
  /\ mgr_by_name name (mgr_run uri h) (name x) = Some x
  /\ mgr_by_prefix prefix (mgr_run uri h) (prefix x) = Some x
  /\ mgr_by_index (mgr_run uri h) (mgr_index uri (mgr_run uri h) x) = Some x.
Proof.
  cbv zeta. intros H. set (h := h1 ++ x :: h2).
  assert (F : forall (f : E -> pystr), (forall y, In y (h1 ++ h2) -> f y <> f x) ->
     forall l, incl l h -> In x l -> find (fun y => str_eqb (f y) (f x)) l = Some x).
  { intros f D. induction l as [|y l IH]; intros I J; [destruct J|]. simpl.
    destruct (str_eqb_spec (f y) (f x)) as [E0|N].
    - assert (Y : In y h) by (apply I; simpl; auto). unfold h in Y. apply in_app_iff in Y as [Y|[Y|Y]].
      + exfalso. apply (D y); auto. apply in_app_iff; auto.
      + now subst.
      + exfalso. apply (D y); auto. apply in_app_iff; auto.
    - apply IH; [intros z Z; apply I; simpl; auto|]. destruct J as [->|J]; [congruence|auto]. }
  assert (InF : In x (firsts uri h)).
  { unfold firsts, h. assert (G : forall seen, existsb (str_eqb (uri x)) seen = false -> In x (firsts_from uri seen (h1 ++ x :: h2))).
    { assert (D : forall y, In y h1 -> uri y <> uri x) by (intros y Y; apply H, in_app_iff; auto).
      clear H F. clear h. induction h1 as [|y t IH]; intros seen S; simpl.
      - rewrite S. simpl. auto.
      - assert (Dy : uri y <> uri x) by (apply D; simpl; auto).
        destruct (existsb (str_eqb (uri y)) seen).
        + apply IH; auto. intros z Z. apply D. simpl. auto.
        + simpl. right. apply IH; [intros z Z; apply D; simpl; auto|]. simpl. rewrite S, orb_false_r. apply str_eqb_neq. congruence. }
    apply G. reflexivity. }
  assert (Inc : incl (firsts uri h) h).
  { unfold firsts. generalize (@nil pystr). clear. induction h as [|y h IH]; intros seen z Z; simpl in *; auto.
    destruct (existsb (str_eqb (uri y)) seen); [right; eapply IH; eauto|]. destruct Z as [->|Z]; auto. right. eapply IH; eauto. }
  destruct (manager_lookups h (uri x) (name x) (prefix x)) as (L1 & L2 & L3). rewrite L1, L2, L3.
  split; [|split; [|split]].
  - unfold last_with. apply F; [intros; now apply H| |apply in_rev; rewrite rev_involutive; unfold h; apply in_app_iff; simpl; auto].
    intros y Y. now apply in_rev.
  - apply F; auto. intros; now apply H.
  - apply F; auto. intros; now apply H.
  - apply In_nth_error in InF as [n Hn]. unfold mgr_index. rewrite manager_list in *.
    assert (N := manager_distinct h). rewrite manager_list in N.
    rewrite (index_from_spec (firsts uri h) x 0 N n Hn).
    unfold mgr_by_index. rewrite manager_list. assert (n < List.length (firsts uri h)) by (apply nth_error_Some; congruence).
    rewrite Z.add_0_l, Nat2Z.id.
    assert (B : ((0 <=? Z.of_nat n) && (Z.of_nat n <? Z.of_nat (List.length (firsts uri h))))%Z = true).
    { apply andb_true_iff. split; [apply Z.leb_le|apply Z.ltb_lt]; lia. }
    now rewrite B.
Qed.
End Mgr.

Lemma NoDup_app_snoc {A} (l : list A) x : NoDup l -> ~ In x l -> NoDup (l ++ [x]).
Proof.
  induction l as [|y l IH]; simpl; intros N I; [repeat constructor; auto|].
  inversion N; subst. constructor; [|apply IH; auto]. rewrite in_app_iff. simpl. intuition.
Qed.

(** ** Singletons *)
Definition sg_inv (w : singletons) : Prop :=
  NoDup (map fst (sg_slots w)) /\ NoDup (map snd (sg_slots w))
  /\ Forall (fun i => i < List.length (sg_objs w)) (map snd (sg_slots w))
  /\ sg_inits w = map fst (sg_slots w).

Lemma nat_eqb_spec : forall a b, Nat.eqb a b = true <-> a = b.
Proof. apply Nat.eqb_eq. Qed.

Lemma sg_call_inv w c : sg_inv w -> sg_inv (fst (sg_call w c)).
Proof.
  intros (A & B & C & D). unfold sg_call. destruct (dict_get Nat.eqb (sc_meta c) (sg_slots w)) as [i|] eqn:G; [repeat split; auto|].
  destruct (sc_init c) as [u|x]; [|repeat split; auto]. simpl.
  assert (N : ~ In (sc_meta c) (map fst (sg_slots w))) by (apply (dict_get_none Nat.eqb nat_eqb_spec); auto).
  unfold sg_inv. cbn [sg_slots sg_objs sg_inits]. rewrite (dict_set_new Nat.eqb nat_eqb_spec) by auto. rewrite !map_app. simpl.
  assert (L : forall x, In x (map snd (sg_slots w)) -> x < List.length (sg_objs w)) by now apply Forall_forall.
  repeat split.
  - apply NoDup_app_snoc; auto.
  - apply NoDup_app_snoc; auto. intros I. apply L in I. lia.
  - rewrite app_length. simpl. apply Forall_app. split.
    + eapply Forall_impl; [|exact C]. intros. cbv beta in *. lia.
    + repeat constructor. lia.
  - now rewrite D.
Qed.

Lemma sg_run_inv cs : forall w, sg_inv w -> sg_inv (fst (sg_run w cs)).
Proof.
  induction cs as [|c cs IH]; intros w I; simpl; auto. assert (J := sg_call_inv w c I).
  destruct (sg_call w c) as [w1 r]. specialize (IH w1 J). destruct (sg_run w1 cs). exact IH.
Qed.

(** The slot of a metaclass once filled stays; a successful call returns the slot. *)
Lemma sg_call_slot w c w' i : sg_call w c = (w', Ok i) -> dict_get Nat.eqb (sc_meta c) (sg_slots w') = Some i.
Proof.
  unfold sg_call. destruct (dict_get Nat.eqb (sc_meta c) (sg_slots w)) as [j|] eqn:G; intros H.
  - injection H as <- <-. auto.
  - destruct (sc_init c); [|discriminate]. injection H as <- <-. simpl. apply dict_get_set_same, nat_eqb_spec.
Qed.

Lemma sg_call_keeps w c m i : dict_get Nat.eqb m (sg_slots w) = Some i ->
  dict_get Nat.eqb m (sg_slots (fst (sg_call w c))) = Some i.
Proof.
  intros H. unfold sg_call. destruct (dict_get Nat.eqb (sc_meta c) (sg_slots w)) as [j|] eqn:G; auto.
  destruct (sc_init c); auto. simpl. rewrite dict_get_set_other; auto; [apply nat_eqb_spec|]. intros E0. congruence.
Qed.

Lemma sg_run_slot cs : forall w k c r, nth_error cs k = Some c -> nth_error (snd (sg_run w cs)) k = Some (Ok r) ->
  dict_get Nat.eqb (sc_meta c) (sg_slots (fst (sg_run w cs))) = Some r.
Proof.
  induction cs as [|d cs IH]; intros w k c r H1 H2; [destruct k; discriminate|]. simpl in *.
  destruct (sg_call w d) as [w1 r1] eqn:C. destruct (sg_run w1 cs) as [w2 rs] eqn:R. simpl in *.
  destruct k as [|k]; simpl in *.
  - injection H1 as ->. injection H2 as ->. apply sg_call_slot in C.
    assert (K : forall cs w m i, dict_get Nat.eqb m (sg_slots w) = Some i -> dict_get Nat.eqb m (sg_slots (fst (sg_run w cs))) = Some i).
    { clear. induction cs as [|d cs IH]; intros w m i H; simpl; auto.
      assert (G := sg_call_keeps w d m i H). destruct (sg_call w d) as [w1 r1]. specialize (IH w1 m i G).
      destruct (sg_run w1 cs). exact IH. }
    specialize (K cs w1 _ _ C). now rewrite R in K.
  - specialize (IH w1 k c r H1). rewrite R in IH. apply IH. exact H2.
Qed.

Theorem singleton_same cs j k c d a b :
  nth_error cs j = Some c -> nth_error cs k = Some d ->
  nth_error (snd (sg_run sg_empty cs)) j = Some (Ok a) -> nth_error (snd (sg_run sg_empty cs)) k = Some (Ok b) ->
  (a = b <-> sc_meta c = sc_meta d).
Proof.
  intros H1 H2 H3 H4. apply (sg_run_slot _ _ _ _ _ H1) in H3. apply (sg_run_slot _ _ _ _ _ H2) in H4.
  assert (I : sg_inv (fst (sg_run sg_empty cs))) by (apply sg_run_inv; repeat split; constructor).
  destruct I as (_ & B & _). split.
  - intros ->. apply (dict_get_in Nat.eqb nat_eqb_spec) in H3, H4.
    revert B H3 H4. generalize (sg_slots (fst (sg_run sg_empty cs))). induction l as [|[m i] l IH]; simpl; [tauto|].
    intros N [E1|I1] [E2|I2]; inversion N; subst; try congruence; auto.
    + injection E1 as -> ->. exfalso. apply H3. apply in_map_iff. exists (sc_meta d, b). auto.
    + injection E2 as -> ->. exfalso. apply H3. apply in_map_iff. exists (sc_meta c, b). auto.
  - intros E. congruence.
Qed.

Theorem singleton_once cs : NoDup (sg_inits (fst (sg_run sg_empty cs))).
Proof.
  assert (I : sg_inv (fst (sg_run sg_empty cs))) by (apply sg_run_inv; repeat split; constructor).
  destruct I as (A & _ & _ & ->). exact A.
Qed.

Theorem singleton_total cs k c : nth_error cs k = Some c -> (forall d, In d cs -> sc_init d = Ok tt) ->
  exists r, nth_error (snd (sg_run sg_empty cs)) k = Some (Ok r).
Proof.
  generalize sg_empty. revert k. induction cs as [|d cs IH]; intros k w H T; [destruct k; discriminate|]. simpl in *.
  assert (R1 : exists w1 r, sg_call w d = (w1, Ok r)).
  { unfold sg_call. destruct (dict_get Nat.eqb (sc_meta d) (sg_slots w)); eauto. rewrite (T d) by auto. eauto. }
  destruct R1 as (w1 & r1 & ->). destruct k as [|k]; simpl in *.
  - destruct (sg_run w1 cs). simpl. eauto.
  - destruct (IH k w1 H) as [r Hr]; auto. destruct (sg_run w1 cs). simpl in *. eauto.
Qed.

(** ** Name mappings *)
Definition gm_inv (g : gmaps) : Prop :=
  dict_wf (g_maps g) /\ NoDup (map snd (g_maps g))
  /\ Forall (fun l => l < List.length (g_heap g)) (map snd (g_maps g))
  /\ sget (py "EN") (g_maps g) = Some (g_std g).

Lemma gm_get_inv g n : gm_inv g -> gm_inv (fst (gm_get_mapping g n))
  /\ sget n (g_maps (fst (gm_get_mapping g n))) = Some (snd (gm_get_mapping g n))
  /\ snd (gm_get_mapping g n) < List.length (g_heap (fst (gm_get_mapping g n))).
Proof.
  intros (W & N & L & S). unfold gm_get_mapping. destruct (sget n (g_maps g)) as [l|] eqn:G; simpl.
  - split; [repeat split; auto|]. split; auto. rewrite Forall_forall in L. apply L.
    apply in_map_iff. exists (n, l). split; auto. now apply sget_in.
  - assert (NI : ~ In n (map fst (g_maps g))) by now apply sget_none.
    unfold gm_inv. cbn [g_maps g_heap g_std]. rewrite app_length. simpl. split; [repeat split|split].
    + now apply sset_wf.
    + rewrite sset_new by auto. rewrite map_app. simpl. apply NoDup_app_snoc; auto.
      intros I. rewrite Forall_forall in L. apply L in I. lia.
    + rewrite sset_new by auto. rewrite map_app. apply Forall_app. split.
      * eapply Forall_impl; [|exact L]. intros. cbv beta in *. lia.
      * repeat constructor. simpl. lia.
    + rewrite sget_sset_other; auto. intros E. apply NI. apply sget_in in S. apply (in_map fst) in S. simpl in S. congruence.
    + apply sget_sset_same.
    + lia.
Qed.

Lemma gm_map_register_inv g l x al : gm_inv g -> gm_inv (gm_map_register g l x al).
Proof. unfold gm_inv, gm_map_register. simpl. rewrite update_length. auto. Qed.

Lemma nstep_inv g o : gm_inv g -> gm_inv (nstep g o).
Proof.
  intros I. destruct o as [n|n|l x al|n x al]; simpl.
  - destruct I as (W & N & L & S). repeat split; simpl; auto. rewrite app_length.
    eapply Forall_impl; [|exact L]. intros. cbv beta in *. lia.
  - now apply gm_get_inv.
  - now apply gm_map_register_inv.
  - unfold gm_register. destruct (gm_get_inv g n I) as [J _]. destruct (gm_get_mapping g n) as [g1 l]. now apply gm_map_register_inv.
Qed.

Lemma nrun_inv h : gm_inv (nrun h).
Proof.
  unfold nrun. assert (G : forall g, gm_inv g -> gm_inv (fold_left nstep h g)).
  { induction h as [|o h IH]; intros g I; simpl; auto. apply IH, nstep_inv, I. }
  apply G. repeat split; simpl; auto; repeat constructor; auto.
Qed.

Lemma gm_map_register_lookup g l x al l' k : l < List.length (g_heap g) ->
  gm_map_of (gm_map_register g l x al) l' (KStr k)
  = match al, karg_key x with
    | PStr s, Some k' => if Nat.eqb l l' && str_eqb k' k then Some s else gm_map_of g l' (KStr k)
    | _, _ => gm_map_of g l' (KStr k)
    end.
Proof.
  intros L. unfold gm_map_of, gm_map_register. cbn [g_heap]. rewrite update_nth.
  destruct (Nat.eqb_spec l l') as [<-|N]; simpl.
  - destruct (nth_error (g_heap g) l) as [m|] eqn:H.
    + cbn [option_map]. unfold nm_register, nm_lookup. cbn [karg_key].
      destruct al; auto. destruct (karg_key x) as [k'|]; auto. cbn [nm_map].
      destruct (str_eqb_spec k' k) as [->|NK].
      * now rewrite sget_sset_same.
      * now rewrite sget_sset_other by congruence.
    + apply nth_error_None in H. lia.
  - destruct al; auto. destruct (karg_key x); auto.
Qed.

(** *** Frame: a registration through any route shows in one map, for one key. *)
Lemma get_mapping_lookup g n l k : gm_map_of g l (KStr k) = gm_map_of (fst (gm_get_mapping g n)) l (KStr k) .
Proof.
  unfold gm_get_mapping. destruct (sget n (g_maps g)); auto. simpl. unfold gm_map_of. simpl.
  destruct (Nat.lt_ge_cases l (List.length (g_heap g))) as [L|L].
  - now rewrite nth_error_app1.
  - rewrite (proj2 (nth_error_None _ _) L). rewrite nth_error_app2 by auto.
    destruct (l - List.length (g_heap g)) as [|d]; simpl; auto. destruct d; reflexivity.
Qed.

Lemma get_mapping_named g n n' k : gm_inv g -> named_map (fst (gm_get_mapping g n)) n' k = named_map g n' k.
Proof.
  intros I. unfold named_map. destruct (sget n (g_maps g)) as [l0|] eqn:G.
  - unfold gm_get_mapping. now rewrite G.
  - assert (R : gm_get_mapping g n = (mk_gm (g_heap g ++ [mk_nm n []]) (sset n (List.length (g_heap g)) (g_maps g)) (g_std g), List.length (g_heap g)))
      by (unfold gm_get_mapping; now rewrite G).
    assert (Lk := fun l => get_mapping_lookup g n l k). rewrite R in *. cbn [fst g_maps] in *.
    destruct (str_eqb_spec n' n) as [->|N].
    + rewrite sget_sset_same, G, <- Lk. unfold gm_map_of.
      now rewrite (proj2 (nth_error_None (g_heap g) (List.length (g_heap g)))).
    + rewrite sget_sset_other by auto. destruct (sget n' (g_maps g)); auto.
Qed.

Theorem names_last_alias h n k : forallb global_call h = true ->
  named_map (nrun h) n k = last_alias n k h.
Proof.
  unfold nrun, last_alias. induction h as [|o h IH] using rev_ind; intros H.
  - simpl. unfold named_map. cbn [gm_init g_maps sget dict_get]. destruct (str_eqb n (py "EN")); reflexivity.
  - rewrite forallb_app in H. apply andb_true_iff in H as [H1 H2]. simpl in H2. rewrite andb_true_r in H2.
    rewrite !fold_left_app. cbn [fold_left]. rewrite <- IH by auto. clear IH.
    assert (I := nrun_inv h). unfold nrun in I. set (g := fold_left nstep h gm_init) in *.
    destruct o as [m|m|l x al|m x al]; try discriminate; cbn [nstep registered]; try change (arg_key x) with (karg_key x).
    + apply get_mapping_named. exact I.
    + unfold gm_register. destruct (gm_get_inv g m I) as (J & S & L). assert (Nm := get_mapping_named g m n k I).
      destruct (gm_get_mapping g m) as [g1 l]. cbn [fst snd] in *. rewrite <- Nm.
      unfold named_map. assert (MM : g_maps (gm_map_register g1 l x al) = g_maps g1) by reflexivity. rewrite MM.
      destruct J as (W & ND & F & _).
      destruct (str_eqb_spec m n) as [->|N].
      * rewrite S, gm_map_register_lookup by auto. rewrite Nat.eqb_refl. cbn [andb].
        destruct al; auto. destruct (karg_key x) as [k'|]; auto. now destruct (str_eqb k' k).
      * assert (R : match al with PStr _ => (None : option pystr) | _ => None end = None) by now destruct al.
        destruct (sget n (g_maps g1)) as [l'|] eqn:G.
        -- rewrite gm_map_register_lookup by auto.
           assert (D : Nat.eqb l l' = false).
           { apply Nat.eqb_neq. intros <-. apply N. apply sget_in in S, G.
             revert ND S G. generalize (g_maps g1). clear. induction l0 as [|[a b] t IH]; simpl; [tauto|].
             intros ND [E1|I1] [E2|I2]; inversion ND; subst; try congruence; auto.
             - injection E1 as -> ->. exfalso. apply H1. apply in_map_iff. exists (n, l). auto.
             - injection E2 as -> ->. exfalso. apply H1. apply in_map_iff. exists (m, l). auto. }
           rewrite D. cbn [andb]. destruct al; auto. destruct (karg_key x); auto.
        -- destruct al; auto.
Qed.

Theorem names_frame h l x al l' k : l < List.length (g_heap (nrun h)) ->
  gm_map_of (nrun (h ++ [NRegister l x al])) l' (KStr k)
  = match al, karg_key x with
    | PStr s, Some k' => if Nat.eqb l l' && str_eqb k' k then Some s else gm_map_of (nrun h) l' (KStr k)
    | _, _ => gm_map_of (nrun h) l' (KStr k)
    end.
Proof.
  intros L. unfold nrun. rewrite fold_left_app. cbn [fold_left nstep]. apply gm_map_register_lookup. exact L.
Qed.

Theorem names_standard h k : gm_map (nrun h) (KStr k) = named_map (nrun h) (py "EN") k
  /\ (forall a, gm_map (nrun h) (KAttr a) = gm_map (nrun h) (KStr (a_key a))).
Proof.
  destruct (nrun_inv h) as (_ & _ & _ & S). unfold named_map. rewrite S. split; auto.
Qed.

Theorem names_exist h n : (exists l, sget n (g_maps (nrun h)) = Some l) <-> n = py "EN" \/ In n (flat_map names h).
Proof.
  unfold nrun. induction h as [|o h IH] using rev_ind.
  - simpl. destruct (str_eqb_spec n (py "EN")) as [->|N].
    + split; eauto.
    + split; [intros [l E0]; discriminate|]. intros [?|[]]. contradiction.
  - rewrite fold_left_app, flat_map_app, in_app_iff. cbn [fold_left flat_map]. rewrite app_nil_r.
    set (g := fold_left nstep h gm_init) in *.
    assert (G : forall m, (exists l, sget n (g_maps (fst (gm_get_mapping g m))) = Some l) <-> (exists l, sget n (g_maps g) = Some l) \/ n = m).
    { intros m. unfold gm_get_mapping. destruct (sget m (g_maps g)) as [l0|] eqn:E; cbn [fst g_maps].
      - split; [auto|]. intros [? | ->]; eauto.
      - destruct (str_eqb_spec n m) as [->|N].
        + rewrite sget_sset_same. split; eauto.
        + rewrite sget_sset_other by auto. split; [auto|]. intros [?|?]; [auto|contradiction]. }
    destruct o as [m|m|l x al|m x al]; cbn [nstep names In].
    + cbn [g_maps]. rewrite IH. tauto.
    + rewrite G, IH. split; intuition congruence.
    + cbn [gm_map_register g_maps]. rewrite IH. tauto.
    + unfold gm_register. assert (Q : g_maps (let '(g1, l) := gm_get_mapping g m in gm_map_register g1 l x al) = g_maps (fst (gm_get_mapping g m)))
        by (destruct (gm_get_mapping g m); reflexivity).
      rewrite Q, G, IH. split; intuition congruence.
Qed.

Theorem names_safe h x k : karg_key x = Some k ->
  (forall l, gm_safely (nrun h) x (MObj l)
     = Some match gm_map_of (nrun h) l (KStr k) with
            | Some al => al
            | None => match named_map (nrun h) (py "EN") k with Some al => al | None => k end
            end)
  /\ (forall n, gm_safely (nrun h) x (MName n)
     = if existsb (str_eqb n) (py "EN" :: flat_map names h)
       then Some match named_map (nrun h) n k with
                 | Some al => al
                 | None => match named_map (nrun h) (py "EN") k with Some al => al | None => k end
                 end
       else None).
Proof.
  intros K. destruct (names_standard h k) as [S _]. unfold gm_map in S.
  assert (O : forall l, gm_safely (nrun h) x (MObj l)
     = Some match gm_map_of (nrun h) l (KStr k) with
            | Some al => al
            | None => match named_map (nrun h) (py "EN") k with Some al => al | None => k end
            end).
  { intros l. simpl. unfold gm_safely_obj. rewrite K, <- S. destruct (gm_map_of (nrun h) l (KStr k)); auto.
    destruct (gm_map_of (nrun h) (g_std (nrun h)) (KStr k)); auto. }
  split; auto. intros n. assert (X := names_exist h n). unfold named_map at 1. cbn [gm_safely].
  destruct (sget n (g_maps (nrun h))) as [l|] eqn:G.
  - assert (B : existsb (str_eqb n) (py "EN" :: flat_map names h) = true).
    { apply existsb_exists. exists n. split; [|apply str_eqb_refl]. simpl. destruct (proj1 X) as [->|?]; eauto. }
    rewrite B. apply (O l).
  - assert (B : existsb (str_eqb n) (py "EN" :: flat_map names h) = false).
    { destruct (existsb (str_eqb n) (py "EN" :: flat_map names h)) eqn:B; auto.
      apply existsb_exists in B as (m & I & E). apply str_eqb_eq in E. subst m.
      assert (Y : exists l, @None nat = Some l) by (apply X; simpl in I; destruct I as [<-|I]; auto). destruct Y; discriminate. }
    now rewrite B.
Qed.
