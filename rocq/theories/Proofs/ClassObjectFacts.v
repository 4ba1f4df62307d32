(** Event class objects. *)
From Coq Require Import String NArith ZArith List Bool Lia Permutation Sorted.
From Verif Require Import Base.PyBase Model.Classify Model.ClassObjects Spec.Orders Spec.ClassObjects Proofs.BaseFacts Proofs.ClassFacts.
Import ListNotations.

(** Every key has an object of this identity. *)
Definition inv (s : cstate) : Prop :=
  dict_wf (cs_map s) /\ forall k r, In (k, r) (cs_map s) -> exists o, nth_error (cs_objs s) r = Some o /\ co_id o = k.

Lemma inv_get s k r : inv s -> sget k (cs_map s) = Some r -> exists o, nth_error (cs_objs s) r = Some o /\ co_id o = k.
Proof. intros [_ H] G. apply H. now apply sget_in. Qed.
Lemma inv_one s k1 k2 r : inv s -> sget k1 (cs_map s) = Some r -> sget k2 (cs_map s) = Some r -> k1 = k2.
Proof.
  intros I A B. destruct (inv_get s k1 r I A) as (o & E & <-). destruct (inv_get s k2 r I B) as (o' & E' & <-). congruence.
Qed.

Lemma insert_ref_eq objs r l : insert_ref objs r l = insert_by (id_of objs) r l.
Proof. induction l as [| q l IH]; cbn; [reflexivity|]. now rewrite IH. Qed.
Lemma sorted_refs_eq objs l : sorted_refs objs l = sort_by (id_of objs) l.
Proof. induction l as [| q l IH]; cbn; [reflexivity|]. unfold sorted_refs in IH. now rewrite IH, insert_ref_eq. Qed.

(** The new objects and the entries for them. *)
Fixpoint fresh_objs (objs : list cobj) (i : nat) (l : list nat) : list cobj :=
  match l with
  | [] => []
  | r :: t => match nth_error objs r with
              | Some o => mk_co (co_id o) i (co_size o) :: fresh_objs objs (S i) t
              | None => []
              end
  end.
Fixpoint fresh_map (objs : list cobj) (q : nat) (l : list nat) : sdict nat :=
  match l with [] => [] | r :: t => (id_of objs r, q) :: fresh_map objs (S q) t end.

Lemma renumber_eq objs l : (forall r, In r l -> (r < List.length objs)%nat) -> forall i more m,
  NoDup (map fst m ++ map (id_of objs) l) ->
  renumber i l (mk_cs (objs ++ more) m) = mk_cs (objs ++ more ++ fresh_objs objs i l) (m ++ fresh_map objs (List.length (objs ++ more)) l).
Proof.
  induction l as [| r l IH]; intros B i more m N; cbn [renumber fresh_objs fresh_map].
  - now rewrite !app_nil_r.
  - cbn [cs_objs cs_map]. rewrite nth_error_app1 by (apply B; now left).
    destruct (nth_error objs r) as [o |] eqn:E.
    2:{ apply nth_error_None in E. specialize (B r (or_introl eq_refl)). lia. }
    unfold set_size. cbn [cs_objs cs_map].
    assert (U : update (List.length (objs ++ more)) (sized (co_size o)) ((objs ++ more) ++ [mk_co (co_id o) i 0])
              = objs ++ (more ++ [mk_co (co_id o) i (co_size o)])).
    { rewrite app_assoc. generalize (objs ++ more). intros l0. induction l0 as [|x l0 IHl]; cbn; [reflexivity|]. now rewrite IHl. }
    rewrite U. assert (ID : id_of objs r = co_id o) by (unfold id_of; now rewrite E).
    cbn [map] in N. rewrite ID in N.
    assert (NI : ~ In (co_id o) (map fst m)).
    { intros I. apply NoDup_remove_2 in N. apply N. apply in_or_app. now left. }
    rewrite sset_new by exact NI. rewrite IH.
    + rewrite ID, <- !app_assoc. cbn [app]. rewrite !app_length. cbn [List.length].
      replace (List.length objs + (List.length more + 1))%nat with (S (List.length objs + List.length more)) by lia. reflexivity.
    + intros q I. apply B. now right.
    + rewrite map_app. cbn. rewrite <- app_assoc. exact N.
Qed.

Lemma inv_refs s : inv s -> (forall r, In r (map snd (cs_map s)) -> (r < List.length (cs_objs s))%nat)
  /\ map (id_of (cs_objs s)) (map snd (cs_map s)) = map fst (cs_map s).
Proof.
  intros [_ H]. split.
  - intros r I. apply in_map_iff in I. destruct I as ([k q] & <- & I). destruct (H k q I) as (o & E & _).
    apply nth_error_Some. cbn. now rewrite E.
  - rewrite map_map. apply map_ext_in. intros [k r] I. destruct (H k r I) as (o & E & <-). unfold id_of. cbn. now rewrite E.
Qed.

Lemma harmonize_eq s : inv s -> harmonize_objects s =
  let l := sort_by (id_of (cs_objs s)) (map snd (cs_map s)) in
  mk_cs (cs_objs s ++ fresh_objs (cs_objs s) 0 l) (fresh_map (cs_objs s) (List.length (cs_objs s)) l).
Proof.
  intros I. cbv zeta. unfold harmonize_objects. rewrite sorted_refs_eq. destruct (inv_refs s I) as [B M].
  pose proof (sort_by_perm (id_of (cs_objs s)) (map snd (cs_map s))) as P.
  pose proof (renumber_eq (cs_objs s) (sort_by (id_of (cs_objs s)) (map snd (cs_map s)))) as R.
  rewrite <- (app_nil_r (cs_objs s)) at 2. rewrite R.
  - now rewrite app_nil_r.
  - intros r J. apply B. now apply (Permutation_in _ (Permutation_sym P)).
  - cbn [map app]. apply (Permutation_NoDup (Permutation_map _ P)). rewrite M. apply I.
Qed.

Lemma fresh_get objs l : (forall r, In r l -> (r < List.length objs)%nat) -> forall i q k r,
  In (k, r) (fresh_map objs q l) <-> exists j x o, nth_error l j = Some x /\ r = (q + j)%nat /\ nth_error objs x = Some o /\ k = co_id o
    /\ nth_error (fresh_objs objs i l) j = Some (mk_co k (i + j) (co_size o)).
Proof.
  induction l as [| y l IH]; intros B i q k r; cbn [fresh_map fresh_objs In].
  - split; [easy|]. intros (j & x & o & H & _). now destruct j.
  - assert (Y := B y (or_introl eq_refl)). destruct (nth_error objs y) as [o |] eqn:E; [|apply nth_error_None in E; lia].
    rewrite (IH (fun r I => B r (or_intror I)) (S i)). unfold id_of. rewrite E. split.
    + intros [[= <- <-] | (j & x & o' & A1 & A2 & A3 & A4 & A5)].
      * exists 0%nat, y, o. cbn. rewrite !Nat.add_0_r. auto.
      * exists (S j), x, o'. cbn. rewrite A5. repeat split; auto; [lia|]. do 2 f_equal. lia.
    + intros ([|j] & x & o' & A1 & A2 & A3 & A4 & A5); cbn in A1, A5.
      * left. injection A1 as <-. rewrite E in A3. injection A3 as <-. subst. now rewrite Nat.add_0_r.
      * right. exists j, x, o'. repeat split; auto; [lia|]. rewrite A5. do 2 f_equal. lia.
Qed.

Lemma fresh_keys objs l : forall q, map fst (fresh_map objs q l) = map (id_of objs) l.
Proof. induction l as [| y l IH]; intros q; cbn; [reflexivity|]. now rewrite IH. Qed.

Lemma harmonize_inv s : inv s -> inv (harmonize_objects s).
Proof.
  intros I. rewrite (harmonize_eq s I). cbv zeta. destruct (inv_refs s I) as [B M].
  pose proof (sort_by_perm (id_of (cs_objs s)) (map snd (cs_map s))) as P.
  set (l := sort_by _ _) in *. assert (BL : forall r, In r l -> (r < List.length (cs_objs s))%nat).
  { intros r J. apply B. now apply (Permutation_in _ (Permutation_sym P)). }
  split; cbn [cs_map cs_objs].
  - unfold dict_wf. rewrite fresh_keys. apply (Permutation_NoDup (Permutation_map _ P)). rewrite M. apply I.
  - intros k r J. apply (fresh_get _ _ BL 0) in J. destruct J as (j & x & o & A1 & -> & A3 & A4 & A5).
    eexists. rewrite nth_error_app2 by lia. replace (List.length (cs_objs s) + j - List.length (cs_objs s))%nat with j by lia.
    split; [exact A5|reflexivity].
Qed.

Lemma update_inv s r f : (forall o, co_id (f o) = co_id o) -> inv s -> inv (mk_cs (update r f (cs_objs s)) (cs_map s)).
Proof.
  intros F [W H]. split; [exact W|]. intros k q I. destruct (H k q I) as (o & E & X). cbn [cs_objs]. rewrite update_nth, E.
  destruct (Nat.eqb r q); cbn; [exists (f o); now rewrite F|eauto].
Qed.
Lemma more_inv s o : inv s -> inv (mk_cs (cs_objs s ++ [o]) (cs_map s)).
Proof.
  intros [W H]. split; [exact W|]. intros k q I. destruct (H k q I) as (x & E & X). exists x. split; [|exact X].
  cbn [cs_objs]. rewrite nth_error_app1; [exact E|]. apply nth_error_Some. congruence.
Qed.

Lemma register_inv id s : inv s -> inv (register_object id s).
Proof.
  intros I. unfold register_object. destruct (sget id (cs_map s)) as [r |] eqn:G.
  - now apply update_inv.
  - apply sget_none in G. cbv zeta. set (n := List.length (cs_map s)). clearbody n.
    apply (update_inv (mk_cs (cs_objs s ++ [mk_co id n 0]) (sset id (List.length (cs_objs s)) (cs_map s)))); [reflexivity|].
    destruct (more_inv s (mk_co id n 0) I) as [W H]. split; cbn [cs_map cs_objs] in *.
    + now apply sset_wf.
    + rewrite sset_new by exact G. intros k q J. apply in_app_or in J. destruct J as [J | [[= <- <-] | []]]; [auto|].
      rewrite nth_error_app2, Nat.sub_diag by lia. eexists. split; reflexivity.
Qed.

Lemma step_inv s c : inv s -> inv (class_step s c).
Proof.
  destruct c; cbn [class_step]; intros I;
    [now apply register_inv|now apply harmonize_inv|now apply update_inv|now apply update_inv|now apply more_inv].
Qed.
Lemma run_inv h : forall s, inv s -> inv (class_run s h).
Proof. induction h as [| c h IH]; intros s I; cbn; [exact I|]. apply IH. now apply step_inv. Qed.
Lemma reachable_inv s : reachable s -> inv s.
Proof. intros [h ->]. apply run_inv. split; [constructor|intros k r []]. Qed.

(** ** One step, for one object *)

Lemma step_object s c r o : inv s -> nth_error (cs_objs s) r = Some o ->
  nth_error (cs_objs (class_step s c)) r =
    Some (mk_co (co_id o) (co_index o) (size_after (fun id => match class_object id s with Some q => Nat.eqb q r | None => false end) r [c] (co_size o))).
Proof.
  intros I E. assert (L : (r < List.length (cs_objs s))%nat) by (apply nth_error_Some; congruence).
  destruct o as [a b z]. cbn [co_id co_index co_size].
  destruct c as [id | | q y | q | id i]; unfold size_after; cbn [class_step fold_left].
  - unfold register_object, class_object. destruct (sget id (cs_map s)) as [q |]; cbn [increment_size cs_objs].
    + rewrite update_nth, E. now destruct (Nat.eqb q r).
    + rewrite update_nth, nth_error_app1 by exact L. rewrite E. destruct (Nat.eqb _ r) eqn:Q; [|reflexivity].
      apply Nat.eqb_eq in Q. lia.
  - rewrite (harmonize_eq s I). cbn [cs_objs]. now rewrite nth_error_app1 by exact L.
  - cbn [set_size cs_objs]. rewrite update_nth, E. now destruct (Nat.eqb q r).
  - cbn [increment_size cs_objs]. rewrite update_nth, E. now destruct (Nat.eqb q r).
  - cbn [cs_objs]. now rewrite nth_error_app1 by exact L.
Qed.

(** The map changes only by new objects. *)
Lemma step_map s c id r : inv s -> (r < List.length (cs_objs s))%nat -> class_object id (class_step s c) = Some r ->
  class_object id s = Some r /\ c <> CHarmonize.
Proof.
  unfold class_object. intros I L. destruct c as [k | | q y | q | k i]; cbn [class_step set_size increment_size cs_map]; try (intros G; split; [exact G|discriminate]).
  - unfold register_object. destruct (sget k (cs_map s)) as [q |] eqn:G; cbn [increment_size cs_map]; [intros H; split; [exact H|discriminate]|].
    destruct (str_eqb k id) eqn:Q.
    + apply str_eqb_eq in Q. subst k. rewrite sget_sset_same. intros [= <-]. lia.
    + rewrite sget_sset_other; [intros H; split; [exact H|discriminate]|]. intros ->. now rewrite str_eqb_refl in Q.
  - rewrite (harmonize_eq s I). cbv zeta. cbn [cs_map]. intros H. apply sget_in in H. exfalso.
    destruct (inv_refs s I) as [B M]. pose proof (sort_by_perm (id_of (cs_objs s)) (map snd (cs_map s))) as P.
    set (l := sort_by _ _) in *. assert (BL : forall r, In r l -> (r < List.length (cs_objs s))%nat).
    { intros x J. apply B. now apply (Permutation_in _ (Permutation_sym P)). }
    apply (fresh_get _ _ BL 0) in H. destruct H as (j & x & o & _ & -> & _). lia.
Qed.
Lemma step_keeps s c id r : class_object id s = Some r -> c <> CHarmonize -> class_object id (class_step s c) = Some r.
Proof.
  unfold class_object. intros G NH. destruct c as [k | | q y | q | k i]; cbn [class_step set_size increment_size cs_map]; auto; [|congruence].
  unfold register_object. destruct (sget k (cs_map s)) as [q |] eqn:GK; cbn [increment_size cs_map]; [exact G|].
  rewrite sget_sset_other; [exact G|]. intros ->. congruence.
Qed.

Lemma size_cons counts r c h z : size_after counts r (c :: h) z = size_after counts r h (size_after counts r [c] z).
Proof. reflexivity. Qed.
Lemma size_ext f g r h z : (forall id, f id = g id) -> size_after f r h z = size_after g r h z.
Proof.
  intros E. revert z. induction h as [| c h IH]; intros z; [reflexivity|]. rewrite !(size_cons _ r c h), IH. f_equal.
  destruct c; cbn; auto. now rewrite E.
Qed.

(** An object of the set, until indices are harmonized. *)
Lemma live_run h : forall s id r o, inv s -> class_object id s = Some r -> object s r = Some o ->
  forallb (fun c => negb (harmonizes c)) h = true ->
  class_object id (class_run s h) = Some r
  /\ object (class_run s h) r = Some (mk_co (co_id o) (co_index o) (size_after (str_eqb id) r h (co_size o))).
Proof.
  unfold object. induction h as [| c h IH]; intros s id r o I G E F; cbn [class_run fold_left].
  - split; [exact G|]. now destruct o.
  - cbn [forallb] in F. apply andb_prop in F. destruct F as [F1 F2]. fold (class_run (class_step s c) h).
    assert (NH : c <> CHarmonize) by (intros ->; discriminate).
    pose proof (step_object s c r o I E) as E1.
    destruct (IH (class_step s c) id r _ (step_inv s c I) (step_keeps s c id r G NH) E1 F2) as [A B].
    split; [exact A|]. rewrite B. cbn [co_id co_index co_size]. rewrite (size_cons (str_eqb id)). do 2 f_equal. f_equal.
    destruct c; cbn; auto. destruct (class_object id0 s) as [q |] eqn:G0.
    + destruct (Nat.eqb q r) eqn:Q.
      * apply Nat.eqb_eq in Q. subst q. assert (id = id0) by exact (inv_one s id id0 r I G G0). subst. now rewrite str_eqb_refl.
      * destruct (str_eqb id id0) eqn:Q2; [|reflexivity]. apply str_eqb_eq in Q2. subst. rewrite G in G0. injection G0 as ->.
        now rewrite Nat.eqb_refl in Q.
    + destruct (str_eqb id id0) eqn:Q2; [|reflexivity]. apply str_eqb_eq in Q2. subst. congruence.
Qed.

(** An object that is not in the set. *)
Lemma detached_run h : forall s r o, inv s -> ~ in_set s r -> object s r = Some o ->
  ~ in_set (class_run s h) r
  /\ object (class_run s h) r = Some (mk_co (co_id o) (co_index o) (size_after (fun _ => false) r h (co_size o))).
Proof.
  unfold object. induction h as [| c h IH]; intros s r o I G E; cbn [class_run fold_left].
  - split; [exact G|]. now destruct o.
  - fold (class_run (class_step s c) h). pose proof (step_object s c r o I E) as E1.
    assert (L : (r < List.length (cs_objs s))%nat) by (apply nth_error_Some; congruence).
    assert (G1 : ~ in_set (class_step s c) r).
    { intros [id X]. apply G. exists id. now apply (step_map s c id r I L X). }
    destruct (IH (class_step s c) r _ (step_inv s c I) G1 E1) as [A B]. split; [exact A|]. rewrite B.
    cbn [co_id co_index co_size]. rewrite (size_cons (fun _ => false)). do 2 f_equal. f_equal.
    destruct c; cbn; auto. destruct (class_object id s) as [q |] eqn:G0; [|reflexivity].
    destruct (Nat.eqb q r) eqn:Q; [|reflexivity]. apply Nat.eqb_eq in Q. subst q. exfalso. apply G. now exists id.
Qed.

(** Identity and index of an object never change. *)
Lemma fixed_run h : forall s r o, inv s -> object s r = Some o ->
  exists z, object (class_run s h) r = Some (mk_co (co_id o) (co_index o) z).
Proof.
  unfold object. induction h as [| c h IH]; intros s r o I E; cbn [class_run fold_left]; [exists (co_size o); now destruct o|].
  destruct (IH (class_step s c) r _ (step_inv s c I) (step_object s c r o I E)) as [z H]. exists z. exact H.
Qed.

(** ** Harmonizing *)

Lemma sorted_nth (l : list pystr) : StronglySorted lex_lt l -> forall i j a b,
  nth_error l i = Some a -> nth_error l j = Some b -> (i < j)%nat -> lex_lt a b.
Proof.
  induction 1 as [| x l S IH F]; intros [|i] [|j] a b A B L; cbn in A, B; try discriminate; try lia.
  - injection A as <-. rewrite Forall_forall in F. apply F. now apply nth_error_In in B.
  - apply (IH i j); auto. lia.
Qed.

Lemma harmonized s id r : inv s -> class_object id s = Some r -> forall o, object s r = Some o ->
  exists r' i, class_object id (harmonize_objects s) = Some r' /\ object s r' = None
    /\ object (harmonize_objects s) r' = Some (mk_co id i (co_size o))
    /\ (i < List.length (cs_map s))%nat.
Proof.
  unfold class_object, object. intros I G o E. destruct (inv_refs s I) as [B M].
  destruct (inv_get s id r I G) as (o' & E' & X). rewrite E in E'. injection E' as <-.
  pose proof (harmonize_inv s I) as I'. rewrite (harmonize_eq s I) in *. cbv zeta in *. cbn [cs_map cs_objs] in *.
  pose proof (sort_by_perm (id_of (cs_objs s)) (map snd (cs_map s))) as P. set (l := sort_by _ _) in *.
  assert (BL : forall r, In r l -> (r < List.length (cs_objs s))%nat).
  { intros x J. apply B. now apply (Permutation_in _ (Permutation_sym P)). }
  assert (J : In r l). { apply (Permutation_in _ P). apply sget_in in G. now apply (in_map snd) in G. }
  apply In_nth_error in J. destruct J as [j J].
  assert (LJ : (j < List.length l)%nat) by (apply nth_error_Some; congruence).
  assert (K : In (id, (List.length (cs_objs s) + j)%nat) (fresh_map (cs_objs s) (List.length (cs_objs s)) l)).
  { clear - J BL E X. assert (forall q j, nth_error l j = Some r -> In (id, (q + j)%nat) (fresh_map (cs_objs s) q l)) as H; [|auto].
    clear j J BL. induction l as [|y l IH]; intros q [|j] J; try discriminate; cbn in J |- *.
    - injection J as ->. left. unfold id_of. rewrite E. now rewrite Nat.add_0_r, X.
    - right. replace (q + S j)%nat with (S q + j)%nat by lia. now apply IH. }
  exists (List.length (cs_objs s) + j)%nat, j. split; [apply sin_get; [apply I'|exact K]|].
  split; [apply nth_error_None; lia|]. split.
  - apply (fresh_get _ _ BL 0) in K. destruct K as (j' & x & o' & A1 & A2 & A3 & A4 & A5).
    assert (j' = j) by lia. subst j'. rewrite J in A1. injection A1 as <-. rewrite E in A3. injection A3 as <-.
    rewrite nth_error_app2 by lia. replace (_ + j - _)%nat with j by lia. exact A5.
  - pose proof (Permutation_length P) as PL. rewrite map_length in PL. lia.
Qed.

Lemma fresh_nth objs l : forall i j o, nth_error (fresh_objs objs i l) j = Some o -> co_index o = (i + j)%nat.
Proof.
  induction l as [|y l IH]; intros i j o H; [now destruct j|]. cbn in H. destruct (nth_error objs y); [|now destruct j].
  destruct j as [|j]; cbn in H; [injection H as <-; cbn; lia|]. rewrite (IH _ _ _ H). lia.
Qed.

Lemma harmonized_order s k1 k2 r1 r2 o1 o2 : inv s ->
  class_object k1 (harmonize_objects s) = Some r1 -> object (harmonize_objects s) r1 = Some o1 ->
  class_object k2 (harmonize_objects s) = Some r2 -> object (harmonize_objects s) r2 = Some o2 ->
  ((co_index o1 < co_index o2)%nat <-> lex_lt k1 k2).
Proof.
  unfold class_object, object. intros I. destruct (inv_refs s I) as [B M]. rewrite (harmonize_eq s I). cbv zeta. cbn [cs_map cs_objs].
  pose proof (sort_by_perm (id_of (cs_objs s)) (map snd (cs_map s))) as P.
  pose proof (sort_by_sorted (id_of (cs_objs s)) (map snd (cs_map s))) as SS. rewrite M in SS. specialize (SS (proj1 I)).
  set (l := sort_by _ _) in *.
  assert (BL : forall r, In r l -> (r < List.length (cs_objs s))%nat).
  { intros x J. apply B. now apply (Permutation_in _ (Permutation_sym P)). }
  assert (Q : forall k r o, sget k (fresh_map (cs_objs s) (List.length (cs_objs s)) l) = Some r ->
     nth_error (cs_objs s ++ fresh_objs (cs_objs s) 0 l) r = Some o -> nth_error (map (id_of (cs_objs s)) l) (co_index o) = Some k).
  { intros k r o G E. apply sget_in in G. apply (fresh_get _ _ BL 0) in G. destruct G as (j & x & o' & A1 & -> & A3 & A4 & A5).
    rewrite nth_error_app2 in E by lia. replace (_ + j - _)%nat with j in E by lia. rewrite A5 in E. injection E as <-. cbn [co_index].
    rewrite ?Nat.add_0_l. cbn [Nat.add]. rewrite (map_nth_error _ _ _ A1). unfold id_of. rewrite A3. congruence. }
  intros G1 E1 G2 E2. pose proof (Q _ _ _ G1 E1) as N1. pose proof (Q _ _ _ G2 E2) as N2. split.
  - intros L. exact (sorted_nth _ SS _ _ _ _ N1 N2 L).
  - intros L. destruct (Nat.lt_trichotomy (co_index o1) (co_index o2)) as [H | [H | H]]; [exact H| |].
    + rewrite H in N1. rewrite N1 in N2. injection N2 as ->. destruct (lex_lt_irrefl _ L).
    + destruct (lex_lt_asym _ _ L). exact (sorted_nth _ SS _ _ _ _ N2 N1 H).
Qed.

Lemma harmonized_keys s id : inv s -> (class_object id (harmonize_objects s) = None <-> class_object id s = None).
Proof.
  unfold class_object. intros I. destruct (inv_refs s I) as [B M]. rewrite !sget_none. rewrite (harmonize_eq s I). cbv zeta. cbn [cs_map].
  rewrite fresh_keys, <- M. pose proof (Permutation_map (id_of (cs_objs s)) (sort_by_perm (id_of (cs_objs s)) (map snd (cs_map s)))) as P.
  split; intros N J; apply N; [now apply (Permutation_in _ P)|now apply (Permutation_in _ (Permutation_sym P))].
Qed.

(** ** The set without its objects *)

Definition deref (s : cstate) (r : nat) : eclass :=
  match object s r with Some o => mk_ec (co_id o) (co_index o) (Z.to_nat (co_size o)) | None => mk_ec [] 0 0 end.
Definition positive (s : cstate) : Prop := forall r o, object s r = Some o -> (0 <= co_size o)%Z.

Lemma insert_map {A B} (f : A -> pystr) (g : B -> pystr) (d : A -> B) : forall x l, g (d x) = f x -> (forall y, In y l -> g (d y) = f y) ->
  insert_by g (d x) (map d l) = map d (insert_by f x l).
Proof.
  intros x l X. induction l as [|y l IH]; intros H; cbn; [reflexivity|]. rewrite X, (H y (or_introl eq_refl)).
  destruct (str_cmp (f x) (f y)); cbn; auto. rewrite IH; [reflexivity|]. intros z I. apply H. now right.
Qed.
Lemma sort_map {A B} (f : A -> pystr) (g : B -> pystr) (d : A -> B) l : (forall y, In y l -> g (d y) = f y) ->
  sort_by g (map d l) = map d (sort_by f l).
Proof.
  induction l as [|x l IH]; intros H; [reflexivity|].
  change (insert_by g (d x) (sort_by g (map d l)) = map d (insert_by f x (sort_by f l))).
  rewrite IH by (intros y I; apply H; now right).
  apply insert_map; [apply H; now left|]. intros y I. apply H. right.
  now apply (Permutation_in _ (Permutation_sym (sort_by_perm f l))).
Qed.

Lemma shown_deref s : shown_classes s = map (fun kr => (fst kr, deref s (snd kr))) (cs_map s).
Proof. reflexivity. Qed.
Lemma shown_ok s : inv s -> cm_ok (shown_classes s).
Proof.
  intros I. rewrite shown_deref. split.
  - unfold dict_wf. rewrite map_map. cbn. apply I.
  - apply Forall_forall. intros kv J. apply in_map_iff in J. destruct J as ([k r] & <- & J). cbn. unfold deref, object.
    destruct (proj2 I k r J) as (o & -> & X). exact X.
Qed.
Lemma shown_get s id : sget id (shown_classes s) = option_map (deref s) (class_object id s).
Proof.
  rewrite shown_deref. unfold class_object, sget. induction (cs_map s) as [|[k r] m IH]; cbn; [reflexivity|].
  destruct (str_eqb id k); [reflexivity|exact IH].
Qed.

Lemma shown_register s id : inv s -> positive s -> shown_classes (register_object id s) = register_id (shown_classes s) id.
Proof.
  intros I PO. unfold register_id. rewrite shown_get. unfold register_object, class_object.
  destruct (sget id (cs_map s)) as [r |] eqn:G; cbn [option_map].
  - destruct (inv_get s id r I G) as (o & E & X).
    assert (DR : deref s r = mk_ec id (co_index o) (Z.to_nat (co_size o))) by (unfold deref, object; now rewrite E, X).
    rewrite DR. cbn [ec_id ec_index ec_size]. rewrite !shown_deref. cbn [increment_size cs_map].
    assert (Z0 : (0 <= co_size o)%Z) by exact (PO r o E).
    assert (K : forall k q, In (k, q) (cs_map s) -> deref (increment_size r s) q
        = if Nat.eqb r q then mk_ec id (co_index o) (S (Z.to_nat (co_size o))) else deref s q).
    { intros k q J. unfold deref, object. cbn [increment_size cs_objs]. rewrite update_nth. destruct (Nat.eqb r q) eqn:Q; [|reflexivity].
      apply Nat.eqb_eq in Q. subst q. rewrite E. cbn. rewrite X. f_equal. lia. }
    assert (U : forall k, In (k, r) (cs_map s) -> k = id).
    { intros k J. destruct (proj2 I k r J) as (o' & E' & <-). congruence. }
    destruct I as [W _]. clear E X Z0 PO DR. unfold sset. revert G W K U. induction (cs_map s) as [|[k q] m IH]; intros G W K U; [discriminate|].
    unfold sget in G. cbn [dict_get map dict_set fst snd] in *. destruct (str_eqb id k) eqn:Q.
    + injection G as ->. apply str_eqb_eq in Q. subst k. rewrite (K id r (or_introl eq_refl)), Nat.eqb_refl. f_equal.
      apply map_ext_in. intros [k q] J. cbn. f_equal. rewrite (K k q (or_intror J)). destruct (Nat.eqb r q) eqn:Q; [|reflexivity].
      apply Nat.eqb_eq in Q. subst q. pose proof (U k (or_intror J)) as ->. exfalso. inversion W as [|? ? NI _]. apply NI.
      now apply (in_map fst) in J.
    + rewrite (K k q (or_introl eq_refl)). destruct (Nat.eqb r q) eqn:Q2.
      { apply Nat.eqb_eq in Q2. subst q. pose proof (U k (or_introl eq_refl)) as ->. now rewrite str_eqb_refl in Q. }
      f_equal. apply IH; [exact G|now inversion W|intros; eapply K; right; eauto|intros; apply U; now right].
  - cbv zeta. pose proof G as NI. apply sget_none in NI. rewrite (sset_new id (mk_ec _ _ _)).
    2:{ rewrite shown_deref, map_map. exact NI. }
    rewrite !shown_deref. cbn [increment_size cs_map]. rewrite sset_new by exact NI. rewrite map_app. f_equal.
    + apply map_ext_in. intros [k q] J. cbn. f_equal. destruct (proj2 I k q J) as (o & E & _).
      assert (L : (q < List.length (cs_objs s))%nat) by (apply nth_error_Some; congruence).
      unfold deref, object. cbn [increment_size cs_objs]. rewrite update_nth, nth_error_app1 by exact L.
      destruct (Nat.eqb _ q) eqn:Q; [apply Nat.eqb_eq in Q; lia|reflexivity].
    + cbn [map fst snd]. do 2 f_equal. unfold deref, object. cbn [increment_size cs_objs].
      rewrite update_nth, Nat.eqb_refl, nth_error_app2, Nat.sub_diag by lia. cbn. now rewrite map_length.
Qed.

Lemma shown_fresh s l : (forall r, In r l -> (r < List.length (cs_objs s))%nat) -> forall i more,
  map (fun kr => (fst kr, deref (mk_cs (cs_objs s ++ more ++ fresh_objs (cs_objs s) i l) []) (snd kr)))
      (fresh_map (cs_objs s) (List.length (cs_objs s ++ more)) l)
  = numbered i (map (deref s) l).
Proof.
  induction l as [|r l IH]; intros B i more; [reflexivity|]. cbn [fresh_objs fresh_map map numbered fst snd].
  assert (L := B r (or_introl eq_refl)). destruct (nth_error (cs_objs s) r) as [o |] eqn:E; [|apply nth_error_None in E; lia].
  f_equal.
  - unfold deref, object, id_of. cbn [cs_objs]. rewrite E, app_assoc, nth_error_app2, Nat.sub_diag by lia. reflexivity.
  - rewrite <- (IH (fun r I => B r (or_intror I)) (S i) (more ++ [mk_co (co_id o) i (co_size o)])).
    rewrite <- app_assoc. cbn [app]. rewrite (app_assoc (cs_objs s) more), (app_assoc (cs_objs s) more [_]), (app_length (cs_objs s ++ more)).
    cbn [List.length]. now rewrite Nat.add_1_r, <- app_assoc.
Qed.

Lemma shown_harmonize s : inv s -> shown_classes (harmonize_objects s) = harmonize (shown_classes s).
Proof.
  intros I. rewrite (harmonize_numbered _ (shown_ok s I)). rewrite !shown_deref, map_map. cbn [snd].
  rewrite <- (map_map snd (deref s)). destruct (inv_refs s I) as [B M].
  rewrite (sort_map (id_of (cs_objs s)) ec_id (deref s)).
  - rewrite (harmonize_eq s I). cbv zeta. cbn [cs_map].
    pose proof (sort_by_perm (id_of (cs_objs s)) (map snd (cs_map s))) as P. set (l := sort_by _ _) in *.
    assert (BL : forall r, In r l -> (r < List.length (cs_objs s))%nat).
    { intros x J. apply B. now apply (Permutation_in _ (Permutation_sym P)). }
    rewrite <- (shown_fresh s l BL 0 []). rewrite app_nil_r. reflexivity.
  - intros r J. apply B in J. unfold deref, object, id_of. destruct (nth_error (cs_objs s) r) eqn:E; [reflexivity|].
    apply nth_error_None in E. lia.
Qed.

Lemma size_nonneg s c r o : inv s -> object s r = Some o -> (0 <= co_size o)%Z ->
  forall x, object (class_step s (as_call c)) r = Some x -> (0 <= co_size x)%Z.
Proof.
  intros I E P x H. unfold object in *. rewrite (step_object s (as_call c) r o I E) in H. injection H as <-.
  destruct c; unfold size_after; cbn [as_call fold_left co_size]; [|exact P]. destruct (class_object id s) as [q |]; [destruct (Nat.eqb q r)|]; lia.
Qed.
Lemma fresh_sizes objs l : (forall r o, nth_error objs r = Some o -> (0 <= co_size o)%Z) ->
  forall i o, In o (fresh_objs objs i l) -> (0 <= co_size o)%Z.
Proof.
  intros P. induction l as [|r l IH]; intros i o; cbn; [easy|]. destruct (nth_error objs r) eqn:E; [|easy].
  intros [<- | J]; [cbn; eauto|eauto].
Qed.
Lemma step_positive s c : inv s -> positive s -> positive (class_step s (as_call c)).
Proof.
  intros I P r x H. destruct (object s r) as [o |] eqn:E; [exact (size_nonneg s c r o I E (P r o E) x H)|].
  unfold object in *. apply nth_error_None in E. destruct c; cbn [as_call class_step] in H.
  - unfold register_object in H. destruct (sget id (cs_map s)) as [q |]; cbn [increment_size cs_objs] in H; rewrite update_nth in H.
    + rewrite (proj2 (nth_error_None _ _) E) in H. now destruct (Nat.eqb q r).
    + rewrite nth_error_app2 in H by exact E. destruct (r - List.length (cs_objs s))%nat as [|[|n]]; cbn in H;
        destruct (Nat.eqb _ r); cbn in H; try discriminate; injection H as <-; cbn; lia.
  - rewrite (harmonize_eq s I) in H. cbv zeta in H. cbn [cs_objs] in H. rewrite nth_error_app2 in H by exact E.
    apply nth_error_In in H. exact (fresh_sizes _ _ P _ _ H).
Qed.

Lemma shown_run h : forall s, inv s -> positive s ->
  shown_classes (class_run s (map as_call h)) = fold_left pure_step h (shown_classes s).
Proof.
  induction h as [|c h IH]; intros s I P; [reflexivity|]. cbn [map class_run fold_left].
  fold (class_run (class_step s (as_call c)) (map as_call h)). rewrite IH; [|now apply step_inv|now apply step_positive].
  f_equal. destruct c; cbn [as_call class_step pure_step]; [now apply shown_register|now apply shown_harmonize].
Qed.

Lemma old_detached s r : inv s -> object s r <> None -> ~ in_set (harmonize_objects s) r.
Proof.
  intros I E [id G]. apply nth_error_Some in E. destruct (step_map s CHarmonize id r I E G) as [_ H]. now apply H.
Qed.
Lemma register_new s id : inv s -> class_object id s = None ->
  exists r, object s r = None /\ class_object id (register_object id s) = Some r
    /\ object (register_object id s) r = Some (mk_co id (List.length (cs_map s)) 1)
    /\ forall k, k <> id -> class_object k (register_object id s) = class_object k s.
Proof.
  intros I G. exists (List.length (cs_objs s)). unfold register_object, object, class_object in *. rewrite G. cbv zeta.
  cbn [increment_size cs_map cs_objs]. split; [now apply nth_error_None|]. split; [apply sget_sset_same|]. split.
  - rewrite update_nth, Nat.eqb_refl, nth_error_app2, Nat.sub_diag by lia. reflexivity.
  - intros k N. apply sget_sset_other. congruence.
Qed.
Lemma harmonize_all s : inv s ->
  (forall id, class_object id (harmonize_objects s) = None <-> class_object id s = None)
  /\ (forall id r o, class_object id s = Some r -> object s r = Some o ->
        exists r' i, class_object id (harmonize_objects s) = Some r' /\ object s r' = None
          /\ object (harmonize_objects s) r' = Some (mk_co id i (co_size o)) /\ (i < List.length (cs_map s))%nat)
  /\ (forall k1 k2 r1 r2 o1 o2,
        class_object k1 (harmonize_objects s) = Some r1 -> object (harmonize_objects s) r1 = Some o1 ->
        class_object k2 (harmonize_objects s) = Some r2 -> object (harmonize_objects s) r2 = Some o2 ->
        ((co_index o1 < co_index o2)%nat <-> lex_lt k1 k2))
  /\ (forall r o, object s r = Some o -> object (harmonize_objects s) r = Some o /\ ~ in_set (harmonize_objects s) r).
Proof.
  intros I. split; [intros id; now apply harmonized_keys|]. split; [intros id r o G E; now apply (harmonized s id r I G o)|].
  split; [intros; eapply harmonized_order; eauto|]. intros r o E. split.
  - pose proof (step_object s CHarmonize r o I E) as H. cbn in H. unfold object. rewrite H. now destruct o.
  - apply old_detached; [exact I|congruence].
Qed.
