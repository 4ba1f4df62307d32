From Coq Require Import String NArith ZArith List Bool Lia SpecFloat.
From Verif Require Import Base.PyBase Base.PyDate Base.PyVal Base.PyFloat Model.Attr Model.Log Model.Classify
  Model.TimeBounds Model.LogInfo Spec.Typing Spec.Time Spec.Classes Spec.Info Spec.Registries Spec.Duration
  Proofs.RoundFacts Proofs.BaseFacts Proofs.TraceFacts Proofs.ClassFacts Proofs.AttrInd.
Import ListNotations.

(** ** XAttributeInfo *)

Lemma derive_has a id : has_prototype a = true ->
  exists p, derive_prototype id a = Ok p /\ a_cls p = a_cls a /\ a_key p = a_key a /\ a_ext p = a_ext a
  /\ a_coll p = [] /\ a_meta p = [] /\ default_value (a_cls a) (a_val p).
Proof.
  destruct a as [c k e v coll meta]. unfold has_prototype, derive_prototype, attr_clone. cbn.
  destruct c; try discriminate; try (intros _; eexists; repeat split; eauto; fail).
  destruct v; try discriminate. intros _. eexists. repeat split. cbn. eauto.
Qed.

Lemma derive_has_not a id : has_prototype a = false -> derive_prototype id a = Raise AttributeError.
Proof.
  destruct a as [c k e v coll meta]. unfold has_prototype, derive_prototype, attr_clone. cbn.
  destruct c; try discriminate; try reflexivity. destruct v; try discriminate; reflexivity.
Qed.

Lemma key_count_app k l1 l2 : key_count k (l1 ++ l2) = (key_count k l1 + key_count k l2)%nat.
Proof. unfold key_count. now rewrite filter_app, app_length. Qed.

Lemma key_count_zero k l : key_count k l = 0 <-> ~ In k (map a_key l).
Proof.
  unfold key_count. induction l as [|a l IH]; simpl; [tauto|].
  destruct (str_eqb_spec k (a_key a)) as [->|N]; simpl.
  - split; [discriminate|]. intros H. exfalso. auto.
  - rewrite IH. split; [intros H [G|G]; congruence|tauto].
Qed.

Section Ai.
Variable draw : pystr -> N.

Record ai_inv (i : ainfo) (acc : list attr) : Prop := {
  inv_wf : dict_wf (ai_keys i);
  inv_wf2 : dict_wf (ai_freq i);
  inv_in : forall k, In k (map fst (ai_keys i)) <-> In k (map a_key acc);
  inv_freq : forall k, sget k (ai_freq i) = if Nat.eqb (key_count k acc) 0 then None else Some (key_count k acc);
  inv_sum : list_sum (map snd (ai_freq i)) = List.length acc;
  inv_total : ai_total i = List.length acc;
  inv_types : Forall (fun cs => snd cs = []) (ai_types i);
  inv_exts : ai_exts i = [];
  inv_noext : ai_noext i = [];
  inv_proto : forall k p, sget k (ai_keys i) = Some p ->
    exists pre a post, acc = pre ++ a :: post /\ a_key a = k /\ ~ In k (map a_key pre)
    /\ derive_prototype (draw k) a = Ok p
}.

Lemma ai_inv_empty : ai_inv ai_empty [].
Proof. constructor; simpl; auto; try constructor; try tauto; discriminate. Qed.

Lemma list_sum_sset k (n : nat) d : dict_wf d -> sget k d = Some n ->
  list_sum (map snd (sset k (S n) d)) = S (list_sum (map snd d)).
Proof.
  unfold dict_wf, sget, sset. induction d as [|[k' v] d IH]; simpl; intros W G; [discriminate|].
  inversion W; subst. destruct (str_eqb k k').
  - injection G as ->. reflexivity.
  - change (v + list_sum (map snd (dict_set str_eqb k (S n) d)) = S (v + list_sum (map snd d)))%nat.
    rewrite IH by auto. lia.
Qed.

Lemma types_set (c : acls) ts : Forall (fun cs : acls * list attr => snd cs = []) ts ->
  Forall (fun cs => snd cs = []) (dict_set acls_eqb c [] ts)
  /\ match dict_get acls_eqb c ts with Some s => s | None => [] end = [].
Proof.
  induction 1 as [|[c' s] ts H F IH]; simpl in *.
  - split; auto.
  - subst. destruct IH as [I1 I2]. destruct (acls_eqb c c'); simpl; split; auto.
Qed.

Lemma count_snoc k acc a : key_count k (acc ++ [a]) = (key_count k acc + if str_eqb k (a_key a) then 1 else 0)%nat.
Proof. rewrite key_count_app. unfold key_count at 2. simpl. destruct (str_eqb k (a_key a)); reflexivity. Qed.

Lemma ai_register_known i acc a : ai_inv i acc -> In (a_key a) (map a_key acc) ->
  exists i', ai_register draw i a = Ok i' /\ ai_inv i' (acc ++ [a]).
Proof.
  intros [W W2 I F Su T Ty E NE P] K. unfold ai_register.
  assert (M : smem (a_key a) (ai_keys i) = true) by (apply smem_in, I, K). rewrite M.
  assert (C : key_count (a_key a) acc <> 0) by (intros Z; apply key_count_zero in Z; contradiction).
  assert (G := F (a_key a)). destruct (Nat.eqb_spec (key_count (a_key a) acc) 0) as [Z|_]; [contradiction|].
  rewrite G. eexists. split; [reflexivity|]. constructor; cbn; auto.
  - now apply sset_wf.
  - intros k. rewrite I, map_app, in_app_iff. simpl. split; auto. intros [?|[<-|[]]]; auto.
  - intros k. rewrite count_snoc. destruct (str_eqb_spec k (a_key a)) as [->|N].
    + rewrite sget_sset_same. replace (key_count (a_key a) acc + 1)%nat with (S (key_count (a_key a) acc)) by lia. reflexivity.
    + rewrite sget_sset_other by auto. rewrite F, Nat.add_0_r. reflexivity.
  - rewrite list_sum_sset by auto. rewrite Su, app_length. simpl. lia.
  - rewrite T, app_length. simpl. lia.
  - intros k p H. destruct (P k p H) as (pre & b & post & -> & KB & NI & D).
    exists pre, b, (post ++ [a]). rewrite <- app_assoc. repeat split; auto.
Qed.

Lemma ai_register_new i acc a : ai_inv i acc -> ~ In (a_key a) (map a_key acc) ->
  match derive_prototype (draw (a_key a)) a with
  | Ok p => exists i', ai_register draw i a = Ok i' /\ ai_inv i' (acc ++ [a])
  | Raise x => ai_register draw i a = Raise x
  end.
Proof.
  intros [W W2 I F Su T Ty E NE P] K. unfold ai_register.
  assert (M : smem (a_key a) (ai_keys i) = false).
  { destruct (smem (a_key a) (ai_keys i)) eqn:M; auto. apply smem_in, I in M. contradiction. }
  rewrite M. assert (C : key_count (a_key a) acc = 0%nat) by now apply key_count_zero.
  destruct (derive_prototype (draw (a_key a)) a) as [p|x] eqn:D; [|reflexivity].
  cbn [bind]. destruct (types_set (a_cls p) (ai_types i) Ty) as [Ty' ->].
  assert (Fn : sget (a_key a) (ai_freq i) = None) by (rewrite F, C; reflexivity).
  assert (NF : ~ In (a_key a) (map fst (ai_freq i))) by now apply sget_none.
  eexists. split; [reflexivity|]. constructor; cbn; auto.
  - now apply sset_wf.
  - now apply sset_wf.
  - intros k. rewrite sset_keys, M, map_app, !in_app_iff, I. reflexivity.
  - intros k. rewrite count_snoc. destruct (str_eqb_spec k (a_key a)) as [->|N].
    + rewrite sget_sset_same, C. reflexivity.
    + rewrite sget_sset_other by auto. rewrite F, Nat.add_0_r. reflexivity.
  - rewrite sset_new by auto. rewrite map_app, list_sum_app, Su, app_length. reflexivity.
  - rewrite T, app_length. simpl. lia.
  - intros k q H. destruct (str_eqb_spec k (a_key a)) as [->|N].
    + rewrite sget_sset_same in H. injection H as <-. exists acc, a, []. auto.
    + rewrite sget_sset_other in H by auto. destruct (P k q H) as (pre & b & post & -> & KB & NI & D').
      exists pre, b, (post ++ [a]). rewrite <- app_assoc. repeat split; auto.
Qed.

Lemma existsb_key a acc : existsb (fun b => str_eqb (a_key a) (a_key b)) acc = true <-> In (a_key a) (map a_key acc).
Proof.
  rewrite existsb_exists, in_map_iff. split; intros (b & X & Y).
  - apply str_eqb_eq in Y. eauto.
  - exists b. split; auto. apply str_eqb_eq. auto.
Qed.

Lemma ai_run_inv l : ai_inv (ai_run draw l) (accepted l).
Proof.
  unfold ai_run, accepted. assert (G : forall i acc, ai_inv i acc ->
    ai_inv (fold_left (fun i a => match ai_register draw i a with Ok i' => i' | Raise _ => i end) l i)
      (fold_left (fun acc a => if existsb (fun b => str_eqb (a_key a) (a_key b)) acc || has_prototype a
                          then acc ++ [a] else acc) l acc)); [|apply G, ai_inv_empty].
  induction l as [|a l IH]; intros i acc H; simpl; auto.
  apply IH. destruct (existsb (fun b => str_eqb (a_key a) (a_key b)) acc) eqn:E.
  - apply existsb_key in E. destruct (ai_register_known i acc a H E) as (i' & -> & H'). exact H'.
  - assert (N : ~ In (a_key a) (map a_key acc)) by (intros K; apply existsb_key in K; congruence).
    assert (G := ai_register_new i acc a H N). cbn [orb]. destruct (has_prototype a) eqn:Hp.
    + destruct (derive_has a (draw (a_key a)) Hp) as (p & D & _). rewrite D in G.
      destruct G as (i' & -> & H'). exact H'.
    + rewrite (derive_has_not a _ Hp) in G. now rewrite G.
Qed.

(** A fold of [ai_register] without failure accepts everything. *)
Lemma ai_fold_inv l : forall i acc i', ai_inv i acc -> fold_res (ai_register draw) l i = Ok i' -> ai_inv i' (acc ++ l).
Proof.
  induction l as [|a l IH]; simpl; intros i acc i' H E.
  - injection E as <-. now rewrite app_nil_r.
  - destruct (ai_register draw i a) as [j|] eqn:R; [|discriminate]. cbn [bind] in E.
    replace (acc ++ a :: l) with ((acc ++ [a]) ++ l) by now rewrite <- app_assoc.
    eapply IH; [|exact E]. destruct (in_dec (list_eq_dec N.eq_dec) (a_key a) (map a_key acc)) as [K|K].
    + destruct (ai_register_known i acc a H K) as (j' & E' & H'). congruence.
    + assert (G := ai_register_new i acc a H K). destruct (derive_prototype (draw (a_key a)) a).
      * destruct G as (j' & E' & H'). congruence.
      * congruence.
Qed.

Lemma ai_register_raise i acc a x : ai_inv i acc -> ai_register draw i a = Raise x ->
  x = AttributeError /\ ~ In (a_key a) (map a_key acc) /\ has_prototype a = false.
Proof.
  intros H R. destruct (in_dec (list_eq_dec N.eq_dec) (a_key a) (map a_key acc)) as [K|K].
  - destruct (ai_register_known i acc a H K) as (j' & E' & H'). congruence.
  - assert (G := ai_register_new i acc a H K). destruct (has_prototype a) eqn:Hp.
    + destruct (derive_has a (draw (a_key a)) Hp) as (p & D & _). rewrite D in G. destruct G as (? & ? & _). congruence.
    + rewrite (derive_has_not a _ Hp) in G. repeat split; auto. congruence.
Qed.

Lemma ai_fold_first l : forall i acc i', ai_inv i acc -> fold_res (ai_register draw) l i = Ok i' ->
  forall pre a post, l = pre ++ a :: post -> ~ In (a_key a) (map a_key (acc ++ pre)) -> has_prototype a = true.
Proof.
  intros i acc i' H E pre a post -> N. rewrite fold_res_app in E.
  destruct (fold_res (ai_register draw) pre i) as [j|] eqn:EP; [|discriminate]. cbn [bind] in E. simpl in E.
  assert (J := ai_fold_inv pre i acc j H EP). assert (G := ai_register_new j _ a J N).
  destruct (has_prototype a) eqn:Hp; auto. rewrite (derive_has_not a _ Hp) in G. rewrite G in E. discriminate.
Qed.

Theorem ai_frequencies l :
  let i := ai_run draw l in
  (forall k, ai_frequency i k = if Nat.eqb (key_count k (accepted l)) 0 then None else Some (key_count k (accepted l)))
  /\ list_sum (map snd (ai_freq i)) = List.length (accepted l)
  /\ NoDup (ai_get_keys i) /\ (forall k, In k (ai_get_keys i) <-> In k (map a_key (accepted l))).
Proof.
  destruct (ai_run_inv l) as [W W2 I F Su T Ty E NE P]. cbv zeta. split; [exact F|]. split; [exact Su|].
  split; [exact W|]. exact I.
Qed.

Theorem relative_near l k :
  let i := ai_run draw l in
  let c := Z.of_nat (key_count k (accepted l)) in
  let n := Z.of_nat (List.length (accepted l)) in
  (c = 0 -> ai_relative i k = Raise TypeError)%Z
  /\ (c <> 0 -> n < 2 ^ 1000 -> exists f r, ai_relative i k = Ok f /\ worth f r /\ 0 < r <= smallest
       /\ 2 ^ 53 * Z.abs (r * n - c * smallest) <= c * smallest)%Z.
Proof.
  destruct (ai_run_inv l) as [W W2 I F Su T Ty E NE P]. cbv zeta. unfold ai_relative. rewrite F, T.
  destruct (Nat.eqb_spec (key_count k (accepted l)) 0) as [Z0|Z0]; [split; [reflexivity|rewrite Z0; now intros []]|].
  split; [intros H; lia|]. intros _ B.
  assert (L : (key_count k (accepted l) <= List.length (accepted l))%nat) by (unfold key_count; clear; induction (accepted l) as [|a r IH]; cbn [filter List.length]; [lia|];
        destruct (_ : bool); cbn [List.length]; lia).
  remember (key_count k (accepted l)) as c. remember (List.length (accepted l)) as n. clear - B L Z0.
  destruct (Z.of_nat c) as [|a|a] eqn:A; [lia| |lia]. destruct (Z.of_nat n) as [|b|b] eqn:N; [lia| |lia].
  destruct (div_near a b ltac:(lia) B) as (r & R). eexists. exists r. split; [reflexivity|exact R].
Qed.

(** The prototypes in the order in which their keys were first accepted. *)
Lemma firsts_snoc h x : forall seen, firsts_from (fun k : pystr => k) seen (h ++ [x])
  = firsts_from (fun k => k) seen h ++ (if existsb (str_eqb x) seen || existsb (str_eqb x) h then [] else [x]).
Proof.
  induction h as [|y h IH]; intros seen; cbn [app firsts_from existsb].
  - rewrite orb_false_r. now destruct (existsb (str_eqb x) seen).
  - destruct (existsb (str_eqb y) seen) eqn:Y; rewrite IH.
    + f_equal. destruct (str_eqb_spec x y) as [->|N]; [now rewrite Y|easy].
    + cbn [app existsb]. f_equal. f_equal. destruct (str_eqb x y), (existsb (str_eqb x) seen), (existsb (str_eqb x) h); easy.
Qed.
Lemma in_existsb (x : pystr) l : existsb (str_eqb x) l = true <-> In x l.
Proof.
  rewrite existsb_exists. split; [intros (y & I & E); apply str_eqb_eq in E; now subst|].
  intros I. exists x. split; [easy|apply str_eqb_refl].
Qed.
Lemma ai_register_keys i acc a i' : ai_inv i acc -> ai_register draw i a = Ok i' ->
  ai_get_keys i = firsts (fun k => k) (map a_key acc) -> ai_get_keys i' = firsts (fun k => k) (map a_key (acc ++ [a])).
Proof.
  intros [W W2 I F Su T Ty E NE P] R K. rewrite map_app. cbn [map]. unfold firsts in *. rewrite firsts_snoc. cbn [existsb orb].
  rewrite <- K. unfold ai_register in R. unfold ai_get_keys in *.
  destruct (smem (a_key a) (ai_keys i)) eqn:M.
  - destruct (sget (a_key a) (ai_freq i)); [|discriminate]. injection R as <-. cbn [ai_keys].
    replace (existsb _ _) with true; [now rewrite app_nil_r|]. symmetry. apply in_existsb, I. now apply smem_in.
  - destruct (derive_prototype (draw (a_key a)) a) as [p|]; [|discriminate]. cbn [bind] in R. injection R as <-. cbn [ai_keys].
    replace (existsb _ _) with false.
    + now rewrite sset_keys, M.
    + symmetry. apply not_true_is_false. intros X. apply in_existsb, I in X. apply smem_in in X. congruence.
Qed.
Lemma ai_run_keys l : ai_get_keys (ai_run draw l) = firsts (fun k => k) (map a_key (accepted l)).
Proof.
  unfold ai_run, accepted. assert (G : forall i acc, ai_inv i acc -> ai_get_keys i = firsts (fun k => k) (map a_key acc) ->
    ai_get_keys (fold_left (fun i a => match ai_register draw i a with Ok i' => i' | Raise _ => i end) l i)
    = firsts (fun k => k) (map a_key (fold_left (fun acc a => if existsb (fun b => str_eqb (a_key a) (a_key b)) acc || has_prototype a
                          then acc ++ [a] else acc) l acc))); [|apply G; [apply ai_inv_empty|reflexivity]].
  induction l as [|a l IH]; intros i acc H K; [exact K|]. cbn [fold_left].
  destruct (existsb (fun b => str_eqb (a_key a) (a_key b)) acc) eqn:E.
  - apply existsb_key in E. destruct (ai_register_known i acc a H E) as (i' & R & H').
    rewrite R. cbn [orb]. apply IH; [exact H'|]. now apply (ai_register_keys i acc a i').
  - assert (N : ~ In (a_key a) (map a_key acc)) by (intros X; apply existsb_key in X; congruence).
    assert (G := ai_register_new i acc a H N). cbn [orb]. destruct (has_prototype a) eqn:Hp.
    + destruct (derive_has a (draw (a_key a)) Hp) as (p & D & _). rewrite D in G. destruct G as (i' & R & H').
      rewrite R. apply IH; [exact H'|]. now apply (ai_register_keys i acc a i').
    + rewrite (derive_has_not a _ Hp) in G. rewrite G. now apply IH.
Qed.
Theorem ai_listing l : let i := ai_run draw l in
  ai_get_keys i = firsts (fun k => k) (map a_key (accepted l))
  /\ map a_key (ai_get_attributes i) = ai_get_keys i
  /\ forall p, In p (ai_get_attributes i) -> sget (a_key p) (ai_keys i) = Some p.
Proof.
  cbv zeta. split; [apply ai_run_keys|]. destruct (ai_run_inv l) as [W W2 I F Su T Ty E NE P].
  assert (Q : forall k p, In (k, p) (ai_keys (ai_run draw l)) -> a_key p = k /\ sget k (ai_keys (ai_run draw l)) = Some p).
  { intros k p J. assert (S : sget k (ai_keys (ai_run draw l)) = Some p) by now apply sin_get.
    split; [|exact S]. destruct (P k p S) as (pre & a & post & Eq & K & N & D). destruct (has_prototype a) eqn:Hp.
    - destruct (derive_has a (draw k) Hp) as (q & D' & ? & ? & ?). assert (q = p) by congruence. subst. congruence.
    - rewrite (derive_has_not a _ Hp) in D. discriminate. }
  split.
  - unfold ai_get_attributes, ai_get_keys. rewrite map_map. apply map_ext_in. intros [k p] J. now apply Q.
  - intros p J. apply in_map_iff in J as ([k q] & J1 & J). cbn in J1. subst q. destruct (Q k p J) as [<- S]. exact S.
Qed.

Theorem ai_prototypes l k p : sget k (ai_keys (ai_run draw l)) = Some p ->
  exists pre a post, accepted l = pre ++ a :: post /\ a_key a = k /\ ~ In k (map a_key pre)
  /\ a_cls p = a_cls a /\ a_key p = k /\ a_ext p = a_ext a /\ a_coll p = [] /\ a_meta p = []
  /\ default_value (a_cls a) (a_val p).
Proof.
  destruct (ai_run_inv l) as [W W2 I F Su T Ty E NE P]. intros H.
  destruct (P k p H) as (pre & a & post & Eq & K & N & D). exists pre, a, post.
  destruct (has_prototype a) eqn:Hp.
  - destruct (derive_has a (draw k) Hp) as (q & D' & ? & ? & ? & ? & ? & ?).
    assert (q = p) by congruence. subst q. repeat split; auto. congruence.
  - rewrite (derive_has_not a _ Hp) in D. discriminate.
Qed.

Lemma ai_types_empty i acc c : ai_inv i acc -> ai_for_type i c = [].
Proof. intros H. unfold ai_for_type. apply types_set. apply (inv_types _ _ H). Qed.

Theorem ai_queries_empty l :
  let i := ai_run draw l in
  (forall c, ai_for_type i c = [] /\ ai_keys_for_type i c = [])
  /\ (forall e, ai_for_extension i e = [] /\ ai_keys_for_extension i e = [])
  /\ ai_without_extension i = [].
Proof.
  cbv zeta. assert (H := ai_run_inv l). split; [|split].
  - intros c. unfold ai_keys_for_type. rewrite (ai_types_empty _ _ c H). auto.
  - intros e. unfold ai_keys_for_extension, ai_for_extension, ai_without_extension.
    destruct e as [x|]; rewrite ?(inv_exts _ _ H), ?(inv_noext _ _ H); simpl; auto.
  - apply (inv_noext _ _ H).
Qed.
End Ai.

Section WithFloatIO.
Context `{FIO : FloatIO}.
Variable draw : level -> pystr -> N.

(** ** The summary as a sequence of primitive actions *)

Inductive act : Type :=
| ARegister (lv : level) (a : attr)
| ACountE | ACountT
| AClasses (e : event)
| AStamp (e : event)
| AEndTrace.

Definition state : Type := linfo * tbounds.

Definition step (sb : state) (x : act) : res state :=
  let '(s, tb) := sb in
  match x with
  | ARegister lv a => let! i := ai_register (draw lv) (li_info lv s) a in Ok (set_info lv i s, tb)
  | ACountE => Ok (inc_events s, tb)
  | ACountT => Ok (inc_traces s, tb)
  | AClasses e => let! cs := reg_classes (li_classes s) e in Ok (set_classes cs s, tb)
  | AStamp e => let! tb := tb_reg tb (REvent e) in Ok (s, tb)
  | AEndTrace => let! b := tb_reg (li_bounds s) (RBounds tb) in Ok (set_bounds b s, tb_empty)
  end.

Definition acts_attr (lv : level) (a : attr) : list act := ARegister lv a :: map (ARegister LvMeta) (nested a).
Definition acts_attrs (lv : level) (m : sdict attr) : list act := flat_map (fun kv => acts_attr lv (snd kv)) m.
Definition acts_event (e : event) : list act :=
  ACountE :: acts_attrs LvEvent (ev_attrs e) ++ [AClasses e; AStamp e].
Definition acts_trace (t : trace) : list act :=
  ACountT :: acts_attrs LvTrace (tr_attrs t) ++ flat_map acts_event (tr_events t) ++ [AEndTrace].
Definition acts_log (l : xlog) : list act :=
  acts_attrs LvLog (lg_attrs l) ++ flat_map acts_trace (lg_traces l).

Lemma nested_eq c k e v coll meta :
  nested (mk_attr c k e v coll meta) = flat_map (fun kv => snd kv :: nested (snd kv)) meta.
Proof.
  simpl. induction meta as [|[k' x] meta IH]; auto. cbn [flat_map snd]. now rewrite <- IH.
Qed.

Lemma reg_attr_eq lv s a :
  reg_attr draw lv s a = let! i := ai_register (draw lv) (li_info lv s) a in
                         fold_res (fun s kv => reg_attr draw LvMeta s (snd kv)) (a_meta a) (set_info lv i s).
Proof.
  destruct a as [c k e v coll meta]. cbn [reg_attr a_meta].
  destruct (ai_register (draw lv) (li_info lv s) (mk_attr c k e v coll meta)) as [i|]; [|reflexivity].
  cbn [bind]. generalize (set_info lv i s). induction meta as [|[k' x] meta IH]; intros s'; auto.
  cbn [fold_res snd]. destruct (reg_attr draw LvMeta s' x); simpl; auto.
Qed.

Lemma map_flat_map {A B C} (f : B -> C) (g : A -> list B) l : map f (flat_map g l) = flat_map (fun x => map f (g x)) l.
Proof. induction l; simpl; auto. now rewrite map_app, IHl. Qed.

Lemma acts_attr_spec a : forall lv s tb,
  fold_res step (acts_attr lv a) (s, tb) = let! s' := reg_attr draw lv s a in Ok (s', tb).
Proof.
  induction a as [c k e v coll meta _ IH] using attr_ind2. intros lv s tb.
  rewrite reg_attr_eq. unfold acts_attr. cbn [fold_res step a_meta]. rewrite nested_eq.
  destruct (ai_register (draw lv) (li_info lv s) (mk_attr c k e v coll meta)) as [i|]; [|reflexivity].
  cbn [bind]. generalize (set_info lv i s). clear i s. rewrite map_flat_map.
  induction IH as [|[k' x] meta H F IH]; intros s; [reflexivity|].
  cbn [flat_map snd fold_res]. rewrite fold_res_app.
  change (map (ARegister LvMeta) (x :: nested x)) with (acts_attr LvMeta x). rewrite H. cbn [snd].
  destruct (reg_attr draw LvMeta s x) as [s'|]; [|reflexivity]. cbn [bind]. apply IH.
Qed.

Lemma acts_attrs_spec lv m : forall s tb,
  fold_res step (acts_attrs lv m) (s, tb) = let! s' := reg_attrs draw lv m s in Ok (s', tb).
Proof.
  unfold acts_attrs, reg_attrs. induction m as [|[k a] m IH]; intros s tb; [reflexivity|].
  cbn [flat_map fold_res snd]. rewrite fold_res_app, acts_attr_spec.
  destruct (reg_attr draw lv s a); [|reflexivity]. cbn [bind]. apply IH.
Qed.

Lemma acts_event_spec e s tb : fold_res step (acts_event e) (s, tb) = reg_event draw (s, tb) e.
Proof.
  unfold acts_event, reg_event. cbn [fold_res step bind]. rewrite fold_res_app, acts_attrs_spec.
  destruct (reg_attrs draw LvEvent (ev_attrs e) (inc_events s)) as [s1|]; [|reflexivity].
  cbn [bind fold_res step]. destruct (reg_classes (li_classes s1) e); [|reflexivity].
  cbn [bind fold_res step]. destruct (tb_reg tb (REvent e)); reflexivity.
Qed.

Lemma acts_trace_spec t s : fold_res step (acts_trace t) (s, tb_empty)
  = let! s' := reg_trace draw s t in Ok (s', tb_empty).
Proof.
  unfold acts_trace, reg_trace. cbn [fold_res step bind]. rewrite fold_res_app, acts_attrs_spec.
  destruct (reg_attrs draw LvTrace (tr_attrs t) (inc_traces s)) as [s1|]; [|reflexivity].
  cbn [bind]. rewrite fold_res_app.
  assert (E : forall es sb, fold_res step (flat_map acts_event es) sb = fold_res (reg_event draw) es sb).
  { induction es as [|e es IH]; intros [s2 tb2]; [reflexivity|]. cbn [flat_map fold_res].
    rewrite fold_res_app, acts_event_spec. destruct (reg_event draw (s2, tb2) e); [|reflexivity]. cbn [bind]. apply IH. }
  rewrite E. destruct (fold_res (reg_event draw) (tr_events t) (s1, tb_empty)) as [[s2 tb2]|]; [|reflexivity].
  cbn [bind fold_res step]. destruct (tb_reg (li_bounds s2) (RBounds tb2)); reflexivity.
Qed.

Definition start (default : classifier) (extra : list classifier) : linfo :=
  mk_li default (init_classes default extra) 0 0 tb_empty ai_empty ai_empty ai_empty ai_empty.

Definition finish (s : linfo) : linfo :=
  set_classes (map (fun cm => (fst cm, harmonize (snd cm))) (li_classes s)) s.

Lemma make_info_spec l default extra : make_info draw l default extra
  = let! sb := fold_res step (acts_log l) (start default extra, tb_empty) in Ok (finish (fst sb)).
Proof.
  unfold make_info, acts_log. fold (start default extra). rewrite fold_res_app, acts_attrs_spec.
  destruct (reg_attrs draw LvLog (lg_attrs l) (start default extra)) as [s1|]; [|reflexivity].
  cbn [bind]. assert (E : forall ts s, fold_res step (flat_map acts_trace ts) (s, tb_empty)
    = let! s' := fold_res (reg_trace draw) ts s in Ok (s', tb_empty)).
  { induction ts as [|t ts IH]; intros s; [reflexivity|]. cbn [flat_map fold_res].
    rewrite fold_res_app, acts_trace_spec. destruct (reg_trace draw s t); [|reflexivity]. cbn [bind]. apply IH. }
  rewrite E. destruct (fold_res (reg_trace draw) (lg_traces l) s1); reflexivity.
Qed.

(** *** Projections *)

Lemma fold_project {S C A} (f : S -> A -> res S) (g : C -> A -> res C) (pi : S -> C)
  (H : forall s a s', f s a = Ok s' -> g (pi s) a = Ok (pi s')) l :
  forall s s', fold_res f l s = Ok s' -> fold_res g l (pi s) = Ok (pi s').
Proof.
  induction l as [|a l IH]; simpl; intros s s' E.
  - congruence.
  - destruct (f s a) as [s1|] eqn:F; [|discriminate]. rewrite (H s a s1 F). apply IH. exact E.
Qed.

Lemma fold_select {C A B} (g : C -> B -> res C) (sel : A -> list B) l : forall c,
  fold_res (fun c a => fold_res g (sel a) c) l c = fold_res g (flat_map sel l) c.
Proof. apply fold_res_flat. Qed.

Lemma fold_raise {S A} (f : S -> A -> res S) l : forall s x, fold_res f l s = Raise x ->
  exists pre a post s', l = pre ++ a :: post /\ fold_res f pre s = Ok s' /\ f s' a = Raise x.
Proof.
  induction l as [|a l IH]; simpl; intros s x E; [discriminate|].
  destruct (f s a) as [s1|y] eqn:F.
  - destruct (IH s1 x E) as (pre & b & post & s' & -> & P & Q). exists (a :: pre), b, post, s'.
    repeat split; auto. simpl. now rewrite F.
  - exists [], a, l, s. cbn [bind] in E. repeat split; auto. congruence.
Qed.

Definition level_eqb (a b : level) : bool :=
  match a, b with LvLog, LvLog | LvTrace, LvTrace | LvEvent, LvEvent | LvMeta, LvMeta => true | _, _ => false end.
Definition regs (lv : level) (x : act) : list attr :=
  match x with ARegister lv' a => if level_eqb lv lv' then [a] else [] | _ => [] end.

Lemma step_level lv sb x sb' : step sb x = Ok sb' ->
  fold_res (ai_register (draw lv)) (regs lv x) (li_info lv (fst sb)) = Ok (li_info lv (fst sb')).
Proof.
  destruct sb as [s tb]. destruct x as [lv' a| | |e|e|]; cbn [step regs]; intros H;
    try (injection H as <-; destruct s; destruct lv; reflexivity).
  - destruct (ai_register (draw lv') (li_info lv' s) a) as [i|] eqn:R; [|discriminate]. injection H as <-.
    destruct lv, lv'; cbn [level_eqb fold_res fst]; try (rewrite R); destruct s; reflexivity.
  - destruct (reg_classes (li_classes s) e); [|discriminate]. injection H as <-. destruct s, lv; reflexivity.
  - destruct (tb_reg tb (REvent e)); [|discriminate]. injection H as <-. reflexivity.
  - destruct (tb_reg (li_bounds s) (RBounds tb)); [|discriminate]. injection H as <-. destruct s, lv; reflexivity.
Qed.

Lemma run_level lv acts sb sb' : fold_res step acts sb = Ok sb' ->
  fold_res (ai_register (draw lv)) (flat_map (regs lv) acts) (li_info lv (fst sb)) = Ok (li_info lv (fst sb')).
Proof.
  rewrite <- fold_select. apply (fold_project step _ (fun sb => li_info lv (fst sb))).
  intros s a s'. apply step_level.
Qed.

(** The registrations of a log, by level. *)
Lemma regs_nested lv x : flat_map (regs lv) (map (ARegister LvMeta) x) = match lv with LvMeta => x | _ => [] end.
Proof.
  induction x as [|a x IH]; simpl; [now destruct lv|]. rewrite IH. destruct lv; reflexivity.
Qed.

Lemma flat_map_flat_map {A B C} (f : B -> list C) (g : A -> list B) l :
  flat_map f (flat_map g l) = flat_map (fun x => flat_map f (g x)) l.
Proof. induction l; simpl; auto. now rewrite flat_map_app, IHl. Qed.

Lemma flat_map_nil {A B} (f : A -> list B) l : (forall x, f x = []) -> flat_map f l = [].
Proof. intros H. induction l; simpl; auto. now rewrite H. Qed.

Lemma flat_map_single {A B} (f : A -> B) l : flat_map (fun x => [f x]) l = map f l.
Proof. induction l; simpl; congruence. Qed.

Lemma regs_attrs lv lv' m : flat_map (regs lv) (acts_attrs lv' m)
  = match lv, lv' with
    | LvMeta, LvMeta => flat_map (fun kv => snd kv :: nested (snd kv)) m
    | LvMeta, _ => nested_in m
    | _, _ => if level_eqb lv lv' then map snd m else []
    end.
Proof.
  unfold acts_attrs, acts_attr. rewrite flat_map_flat_map. cbn [flat_map]. unfold nested_in.
  destruct lv, lv'; cbn [level_eqb regs app];
    (rewrite <- ?flat_map_single; try (apply flat_map_ext; intros [k a]; cbn [snd]; rewrite regs_nested; reflexivity));
    try (apply flat_map_nil; intros [k a]; cbn [snd]; now rewrite regs_nested).
Qed.

Lemma regs_event lv e : flat_map (regs lv) (acts_event e)
  = match lv with LvEvent => map snd (ev_attrs e) | LvMeta => nested_in (ev_attrs e) | _ => [] end.
Proof.
  unfold acts_event. cbn [flat_map]. rewrite flat_map_app, regs_attrs. cbn [regs flat_map].
  destruct lv; cbn; now rewrite ?app_nil_r.
Qed.

Lemma regs_trace lv t : flat_map (regs lv) (acts_trace t)
  = match lv with
    | LvLog => []
    | LvTrace => map snd (tr_attrs t)
    | LvEvent => flat_map (fun e => map snd (ev_attrs e)) (tr_events t)
    | LvMeta => nested_in (tr_attrs t) ++ flat_map (fun e => nested_in (ev_attrs e)) (tr_events t)
    end.
Proof.
  unfold acts_trace. cbn [flat_map]. rewrite !flat_map_app, regs_attrs, flat_map_flat_map. cbn [regs flat_map].
  rewrite (flat_map_ext _ _ (regs_event lv)).
  destruct lv; cbn [level_eqb app]; rewrite ?app_nil_r; auto; try (apply flat_map_nil; auto).
  - rewrite flat_map_nil by auto. now rewrite app_nil_r.
Qed.

Lemma regs_log lv l : flat_map (regs lv) (acts_log l) = at_level lv l.
Proof.
  unfold acts_log. rewrite flat_map_app, regs_attrs, flat_map_flat_map.
  rewrite (flat_map_ext _ _ (regs_trace lv)). unfold at_level, log_events.
  destruct lv; cbn [level_eqb app].
  - rewrite flat_map_nil by auto. apply app_nil_r.
  - reflexivity.
  - now rewrite flat_map_flat_map.
  - reflexivity.
Qed.

Lemma init_level lv default extra : li_info lv (start default extra) = ai_empty.
Proof. destruct lv; reflexivity. Qed.

Lemma finish_level lv s : li_info lv (finish s) = li_info lv s.
Proof. destruct s, lv; reflexivity. Qed.

Theorem summary_levels l default extra s lv : make_info draw l default extra = Ok s ->
  fold_res (ai_register (draw lv)) (at_level lv l) ai_empty = Ok (li_info lv s).
Proof.
  rewrite make_info_spec. destruct (fold_res step (acts_log l) (start default extra, tb_empty)) as [sb|] eqn:E; [|discriminate].
  cbn [bind]. intros [= <-]. rewrite finish_level. apply (run_level lv) in E. rewrite regs_log in E.
  cbn [fst] in E. rewrite init_level in E. exact E.
Qed.

(** Counters. *)
Definition counts (s : linfo) : nat * nat := (li_traces s, li_events s).
Definition ticks (x : act) : nat * nat := match x with ACountT => (1, 0) | ACountE => (0, 1) | _ => (0, 0) end.
Definition addp (a b : nat * nat) : nat * nat := (fst a + fst b, snd a + snd b)%nat.

Lemma addp_assoc a b c : addp (addp a b) c = addp a (addp b c).
Proof. unfold addp. cbn. f_equal; lia. Qed.
Lemma addp_0_r a : addp a (0, 0) = a.
Proof. destruct a. unfold addp. cbn. f_equal; lia. Qed.

Lemma step_counts sb x sb' : step sb x = Ok sb' -> counts (fst sb') = addp (counts (fst sb)) (ticks x).
Proof.
  destruct sb as [s tb]. destruct x as [lv' a| | |e|e|]; cbn [step]; intros H.
  - destruct (ai_register (draw lv') (li_info lv' s) a) as [i|]; [|discriminate]. injection H as <-.
    cbn [ticks]. rewrite addp_0_r. destruct s, lv'; reflexivity.
  - injection H as <-. destruct s. unfold counts, addp. cbn. f_equal; lia.
  - injection H as <-. destruct s. unfold counts, addp. cbn. f_equal; lia.
  - destruct (reg_classes (li_classes s) e); [|discriminate]. injection H as <-. cbn [ticks]. rewrite addp_0_r. destruct s; reflexivity.
  - destruct (tb_reg tb (REvent e)); [|discriminate]. injection H as <-. cbn [ticks]. rewrite addp_0_r. reflexivity.
  - destruct (tb_reg (li_bounds s) (RBounds tb)); [|discriminate]. injection H as <-. cbn [ticks]. rewrite addp_0_r. destruct s; reflexivity.
Qed.

Definition tick_sum (acts : list act) : nat * nat := fold_right (fun x r => addp (ticks x) r) (0, 0) acts.
Lemma tick_sum_app a b : tick_sum (a ++ b) = addp (tick_sum a) (tick_sum b).
Proof.
  induction a as [|x a IH]; simpl.
  - destruct (tick_sum b). reflexivity.
  - now rewrite IH, addp_assoc.
Qed.

Lemma run_counts acts : forall sb sb', fold_res step acts sb = Ok sb' ->
  counts (fst sb') = addp (counts (fst sb)) (tick_sum acts).
Proof.
  induction acts as [|x acts IH]; simpl; intros sb sb' E.
  - injection E as <-. now rewrite addp_0_r.
  - destruct (step sb x) as [sb1|] eqn:S; [|discriminate]. rewrite (IH _ _ E), (step_counts _ _ _ S).
    apply addp_assoc.
Qed.

Lemma ticks_attrs lv m : tick_sum (acts_attrs lv m) = (0, 0).
Proof.
  unfold acts_attrs. induction m as [|[k a] m IH]; simpl; auto.
  rewrite tick_sum_app, IH. assert (E : tick_sum (map (ARegister LvMeta) (nested a)) = (0, 0)).
  { induction (nested a); simpl; auto. now rewrite IHl. }
  now rewrite E.
Qed.

Lemma ticks_events es : tick_sum (flat_map acts_event es) = (0, List.length es).
Proof.
  induction es as [|e es IH]; auto. cbn [flat_map]. rewrite tick_sum_app, IH.
  unfold acts_event. cbn [tick_sum fold_right ticks]. fold (tick_sum (acts_attrs LvEvent (ev_attrs e) ++ [AClasses e; AStamp e])).
  rewrite tick_sum_app, ticks_attrs. reflexivity.
Qed.

Lemma ticks_log l : tick_sum (acts_log l) = (List.length (lg_traces l), List.length (log_events l)).
Proof.
  unfold acts_log, log_events. rewrite tick_sum_app, ticks_attrs. unfold addp at 1. cbn [fst snd Nat.add].
  rewrite <- surjective_pairing. induction (lg_traces l) as [|t ts IH]; auto. cbn [flat_map].
  rewrite tick_sum_app, IH, app_length. unfold acts_trace.
  change (ACountT :: ?x) with ([ACountT] ++ x). rewrite !tick_sum_app, ticks_attrs, ticks_events.
  unfold addp. cbn. f_equal; lia.
Qed.

Theorem summary_counts l default extra s : make_info draw l default extra = Ok s ->
  li_traces s = List.length (lg_traces l) /\ li_events s = List.length (log_events l).
Proof.
  rewrite make_info_spec. destruct (fold_res step (acts_log l) (start default extra, tb_empty)) as [sb|] eqn:E; [|discriminate].
  cbn [bind]. intros [= <-]. apply run_counts in E. rewrite ticks_log in E.
  unfold counts, addp in E. cbn in E. injection E as E1 E2. destruct (fst sb). cbn in *. auto.
Qed.

(** Event classes. *)
Definition class_events (x : act) : list event := match x with AClasses e => [e] | _ => [] end.

Lemma step_classes sb x sb' : step sb x = Ok sb' ->
  fold_res reg_classes (class_events x) (li_classes (fst sb)) = Ok (li_classes (fst sb')).
Proof.
  destruct sb as [s tb]. destruct x as [lv' a| | |e|e|]; cbn [step class_events]; intros H.
  - destruct (ai_register (draw lv') (li_info lv' s) a) as [i|]; [|discriminate]. injection H as <-. destruct s, lv'; reflexivity.
  - injection H as <-. destruct s; reflexivity.
  - injection H as <-. destruct s; reflexivity.
  - cbn [fold_res fst]. destruct (reg_classes (li_classes s) e); [|discriminate]. injection H as <-. destruct s; reflexivity.
  - destruct (tb_reg tb (REvent e)); [|discriminate]. injection H as <-. reflexivity.
  - destruct (tb_reg (li_bounds s) (RBounds tb)); [|discriminate]. injection H as <-. destruct s; reflexivity.
Qed.

Lemma run_classes acts sb sb' : fold_res step acts sb = Ok sb' ->
  fold_res reg_classes (flat_map class_events acts) (li_classes (fst sb)) = Ok (li_classes (fst sb')).
Proof.
  rewrite <- fold_select. apply (fold_project step _ (fun sb => li_classes (fst sb))).
  intros s a s'. apply step_classes.
Qed.

Section Select.
(** A selection that picks only from the per-event actions. *)
Context {B : Type} (sel : act -> list B) (per : event -> list B).
Hypothesis sel_reg : forall lv a, sel (ARegister lv a) = [].
Hypothesis sel_ct : sel ACountT = [].
Hypothesis sel_end : sel AEndTrace = [].
Hypothesis sel_ev : forall e, sel ACountE ++ sel (AClasses e) ++ sel (AStamp e) = per e.
Hypothesis sel_ce : sel ACountE = [].

Lemma sel_attrs lv m : flat_map sel (acts_attrs lv m) = [].
Proof.
  unfold acts_attrs. rewrite flat_map_flat_map. apply flat_map_nil. intros [k a]. unfold acts_attr.
  cbn [flat_map snd]. rewrite sel_reg. cbn. induction (nested a); simpl; auto. now rewrite sel_reg.
Qed.

Lemma sel_log l : flat_map sel (acts_log l) = flat_map per (log_events l).
Proof.
  unfold acts_log, log_events. rewrite flat_map_app, sel_attrs, !flat_map_flat_map. cbn [app].
  apply flat_map_ext. intros t. unfold acts_trace. cbn [flat_map].
  rewrite !flat_map_app, sel_ct, sel_attrs, flat_map_flat_map. cbn [flat_map app].
  rewrite sel_end, !app_nil_r. apply flat_map_ext. intros e. unfold acts_event. cbn [flat_map].
  rewrite flat_map_app, sel_attrs. cbn [flat_map app]. rewrite app_nil_r. apply sel_ev.
Qed.
End Select.

Lemma classes_log l : flat_map class_events (acts_log l) = log_events l.
Proof.
  rewrite (sel_log class_events (fun e => [e])); auto. induction (log_events l); simpl; congruence.
Qed.

Lemma reg_classes_fold es : forall cs cs', fold_res reg_classes es cs = Ok cs' ->
  Forall2 (fun a b => fst a = fst b /\ fold_res (register_event (fst a)) es (snd a) = Ok (snd b)) cs cs'.
Proof.
  induction es as [|e es IH]; simpl; intros cs cs' H.
  - injection H as <-. induction cs as [|[c m] cs IHc]; constructor; auto.
  - destruct (reg_classes cs e) as [cs1|] eqn:R; [|discriminate]. specialize (IH cs1 cs' H). clear H.
    revert cs1 cs' R IH. induction cs as [|[c m] cs IHc]; simpl; intros cs1 cs' R IH.
    + injection R as <-. inversion IH; subst. constructor.
    + destruct (register_event c m e) as [m1|] eqn:G; [|discriminate]. cbn [bind] in R.
      destruct (reg_classes cs e) as [t1|]; [|discriminate]. injection R as <-.
      inversion IH as [|? [c2 m2] ? cs2 [E1 E2] F]; subst. cbn in *. subst c2. constructor.
      * cbn. split; auto. rewrite G. exact E2.
      * apply (IHc t1); auto.
Qed.

Lemma forall2_get (cs cs' : classes) P c : Forall2 (fun a b => fst a = fst b /\ P (fst a) (snd a) (snd b)) cs cs' ->
  match dict_get cl_eqb c cs with
  | Some m => exists m', dict_get cl_eqb c cs' = Some m' /\ P c m m'
  | None => dict_get cl_eqb c cs' = None
  end.
Proof.
  induction 1 as [|[c1 m1] [c2 m2] cs cs' [E H] F IH]; simpl in *; auto. subst c2.
  destruct (cl_eqb c c1) eqn:K; auto. apply cl_eqb_eq in K. subst. eauto.
Qed.

Lemma dict_get_map (f : cmap -> cmap) (cs : classes) c :
  dict_get cl_eqb c (map (fun cm => (fst cm, f (snd cm))) cs) = option_map f (dict_get cl_eqb c cs).
Proof.
  induction cs as [|[c1 m1] cs IH]; simpl; auto. destruct (cl_eqb c c1); auto.
Qed.

Lemma init_get cs c : forall d : classes, dict_get cl_eqb c (fold_left (fun d c => dict_set cl_eqb c [] d) cs d)
  = if existsb (cl_eqb c) cs then Some [] else dict_get cl_eqb c d.
Proof.
  induction cs as [|c1 cs IH]; intros d; simpl; auto. rewrite IH. destruct (existsb (cl_eqb c) cs); [now rewrite orb_true_r|].
  rewrite orb_false_r. destruct (cl_eqb c c1) eqn:K.
  - apply cl_eqb_eq in K. subst. apply dict_get_set_same, cl_eqb_eq.
  - rewrite dict_get_set_other; auto; [apply cl_eqb_eq|]. intros ->.
    assert (cl_eqb c c = true) by now apply cl_eqb_eq. congruence.
Qed.

Lemma existsb_cl c cs : existsb (cl_eqb c) cs = true <-> In c cs.
Proof.
  rewrite existsb_exists. split.
  - intros (d & I & E). apply cl_eqb_eq in E. now subst.
  - intros I. exists c. split; auto. now apply cl_eqb_eq.
Qed.

Theorem summary_classes l default extra s : make_info draw l default extra = Ok s ->
  get_event_classes s None = get_event_classes s (Some default)
  /\ forall c, match get_event_classes s (Some c) with
               | Some m => In c (extra ++ [default; name_classifier; resource_classifier; lifetrans_classifier])
                           /\ derive_event_classes c l = Ok m
               | None => ~ In c (extra ++ [default; name_classifier; resource_classifier; lifetrans_classifier])
               end.
Proof.
  rewrite make_info_spec. destruct (fold_res step (acts_log l) (start default extra, tb_empty)) as [sb|] eqn:E; [|discriminate].
  cbn [bind]. intros [= <-]. split.
  - assert (D : li_default (fst sb) = default).
    { assert (G := fold_project step (fun (c : classifier) _ => Ok c) (fun sb => li_default (fst sb))).
      assert (H : forall s a s', step s a = Ok s' -> Ok (li_default (fst s)) = Ok (li_default (fst s'))).
      { intros [s tb] x sb' H. destruct x as [lv' a| | |e|e|]; cbn [step] in H.
        - destruct (ai_register (draw lv') (li_info lv' s) a); [|discriminate]. injection H as <-. destruct s, lv'; reflexivity.
        - injection H as <-. destruct s; reflexivity.
        - injection H as <-. destruct s; reflexivity.
        - destruct (reg_classes (li_classes s) e); [|discriminate]. injection H as <-. destruct s; reflexivity.
        - destruct (tb_reg tb (REvent e)); [|discriminate]. injection H as <-. reflexivity.
        - destruct (tb_reg (li_bounds s) (RBounds tb)); [|discriminate]. injection H as <-. destruct s; reflexivity. }
      specialize (G H (acts_log l) _ _ E).
      assert (Q : forall (acts : list act) (c : classifier), fold_res (fun c (_ : act) => Ok c) acts c = Ok c)
        by (induction acts; simpl; auto).
      rewrite Q in G. injection G as G. auto. }
    unfold get_event_classes, finish. destruct (fst sb). cbn in *. now subst.
  - intros c. apply run_classes in E. rewrite classes_log in E. cbn [fst] in E.
    apply reg_classes_fold in E. apply (forall2_get _ _ (fun c m m' => fold_res (register_event c) (log_events l) m = Ok m') c) in E.
    unfold get_event_classes, finish.
    assert (Q : li_classes (set_classes (map (fun cm => (fst cm, harmonize (snd cm))) (li_classes (fst sb))) (fst sb))
      = map (fun cm => (fst cm, harmonize (snd cm))) (li_classes (fst sb))) by (destruct (fst sb); reflexivity).
    rewrite Q, dict_get_map. clear Q. cbn [start li_classes] in E. unfold init_classes in E. rewrite init_get in E.
    simpl dict_get in E. destruct (existsb (cl_eqb c) (extra ++ [default; name_classifier; resource_classifier; lifetrans_classifier])) eqn:X.
    + destruct E as (m' & -> & F). cbn. split; [now apply existsb_cl|].
      unfold derive_event_classes, register_log, register_trace. rewrite fold_res_flat. unfold log_events in F. rewrite F. reflexivity.
    + rewrite E. cbn. intros I. apply existsb_cl in I. congruence.
Qed.

Lemma init_keys h : forall d : list (classifier * cmap), NoDup (map fst d) ->
  NoDup (map fst (fold_left (fun d c => dict_set cl_eqb c ([] : cmap) d) h d))
  /\ forall c, In c (map fst (fold_left (fun d c => dict_set cl_eqb c ([] : cmap) d) h d)) <-> In c (map fst d) \/ In c h.
Proof.
  induction h as [|x h IH]; intros d ND; cbn [fold_left]; [split; [exact ND|intros c; cbn; tauto]|].
  assert (K : map fst (dict_set cl_eqb x ([] : cmap) d) = if existsb (cl_eqb x) (map fst d) then map fst d else map fst d ++ [x]).
  { clear ND. induction d as [|[y m] d IHd]; [reflexivity|]. cbn [dict_set map fst existsb].
    destruct (cl_eqb x y) eqn:E; cbn [orb map fst].
    - reflexivity.
    - rewrite IHd. now destruct (existsb (cl_eqb x) (map fst d)). }
  destruct (existsb (cl_eqb x) (map fst d)) eqn:X.
  - destruct (IH (dict_set cl_eqb x ([] : cmap) d)) as [A B]; [now rewrite K|]. split; [exact A|].
    intros c. rewrite B, K. cbn [In]. apply existsb_cl in X. split; [tauto|]. intros [?|[<-|?]]; auto.
  - destruct (IH (dict_set cl_eqb x ([] : cmap) d)) as [A B].
    + rewrite K. apply NoDup_Add with (a := x) (l := map fst d); [rewrite <- (app_nil_r (map fst d)) at 1; apply Add_app|].
      split; [exact ND|]. intros J. apply existsb_cl in J. congruence.
    + split; [exact A|]. intros c. rewrite B, K, in_app_iff. cbn [In]. intuition.
Qed.
Theorem summary_classifiers l default extra s : make_info draw l default extra = Ok s ->
  NoDup (get_event_classifiers s)
  /\ forall c, In c (get_event_classifiers s) <-> In c (extra ++ [default; name_classifier; resource_classifier; lifetrans_classifier]).
Proof.
  rewrite make_info_spec. destruct (fold_res step (acts_log l) (start default extra, tb_empty)) as [sb|] eqn:E; [|discriminate].
  cbn [bind]. intros [= <-]. apply run_classes in E. rewrite classes_log in E. cbn [fst] in E. apply reg_classes_fold in E.
  assert (K : get_event_classifiers (finish (fst sb)) = map fst (init_classes default extra)).
  { unfold get_event_classifiers, finish. destruct (fst sb) as [d c ev t b lo tr e2 m] eqn:S. cbn [set_classes li_classes] in *.
    rewrite map_map. cbn [fst]. cbn [start li_classes] in E. clear - E.
    induction E as [|[c1 m1] [c2 m2] x y [P _] F IH]; [reflexivity|]. cbn in *. now rewrite IH, P. }
  rewrite K. unfold init_classes. destruct (init_keys (extra ++ [default; name_classifier; resource_classifier; lifetrans_classifier]) [] (NoDup_nil _)) as [A B].
  split; [exact A|]. intros c. rewrite B. cbn [map In]. tauto.
Qed.

(** Time bounds. *)
Lemma tb_merge aw b l tb l2 : tb_inv aw b l -> tb_inv aw tb l2 ->
  exists b', tb_reg b (RBounds tb) = Ok b' /\ tb_inv aw b' (l ++ l2).
Proof.
  intros I J. assert (J' := J). destruct J' as [A2 M]. unfold tb_reg.
  assert (F : Forall (fun d => is_aware d = aw) (contributed (RBounds tb))).
  { rewrite Forall_forall in A2. cbn. destruct (tb_first tb), (tb_last tb); try contradiction; cbn; auto.
    destruct M as [[? _] [? _]]. apply Forall_cons; auto. }
  destruct (tb_register_inv aw b l (RBounds tb) I Logic.I F) as (b' & -> & H).
  exists b'. split; auto. destruct H as [A3 H]. destruct I as [A1 _]. split; [apply Forall_app; auto|].
  cbn [contributed] in H. destruct (tb_first tb) as [f|], (tb_last tb) as [g|]; try contradiction; cbn [opt_list app] in H.
  - destruct M as [[If Ef] [Ig Lg]]. destruct (tb_first b') as [f'|], (tb_last b') as [g'|]; try contradiction.
    + destruct H as [[If' Ef'] [Ig' Lg']]. apply Forall_app in Ef' as [E1 E2]. apply Forall_app in Lg' as [L1 L2].
      assert (Hf : (instant f' <= instant f)%Z) by now inversion E2.
      assert (Hg : (instant g <= instant g')%Z) by (inversion L2 as [|? ? ? X]; now inversion X).
      split; split.
      * apply in_app_iff in If' as [?|[<-|[<-|[]]]]; apply in_app_iff; auto.
      * apply Forall_app. split; auto. eapply Forall_impl; [|exact Ef]. cbv beta. intros. lia.
      * apply in_app_iff in Ig' as [?|[<-|[<-|[]]]]; apply in_app_iff; auto.
      * apply Forall_app. split; auto. eapply Forall_impl; [|exact Lg]. cbv beta. intros. lia.
    + exfalso. apply app_eq_nil in H as [_ H]. discriminate.
  - subst l2. exact H.
Qed.

Definition act_stamps (x : act) : list datetime := match x with AStamp e => contributed (REvent e) | _ => [] end.

Lemma stamps_log l : flat_map act_stamps (acts_log l) = stamps l.
Proof. unfold stamps. apply sel_log; auto. Qed.

Definition bounds_inv (aw : bool) (sb : state) (ds : list datetime) : Prop :=
  exists l1 l2, ds = l1 ++ l2 /\ tb_inv aw (li_bounds (fst sb)) l1 /\ tb_inv aw (snd sb) l2.

Lemma tb_inv_empty aw : tb_inv aw tb_empty [].
Proof. split; [constructor|reflexivity]. Qed.

Lemma tb_reg_ok b x b' : tb_register b x = (b', Ok tt) -> tb_reg b x = Ok b'.
Proof. unfold tb_reg. now intros ->. Qed.

Lemma step_bounds aw sb x ds sb' : bounds_inv aw sb ds -> Forall (fun d => is_aware d = aw) (act_stamps x) ->
  step sb x = Ok sb' -> bounds_inv aw sb' (ds ++ act_stamps x).
Proof.
  intros (l1 & l2 & -> & I1 & I2) F H. destruct sb as [s tb]. cbn [fst snd] in *.
  destruct x as [lv' a| | |e|e|]; cbn [step act_stamps] in *; rewrite ?app_nil_r.
  - destruct (ai_register (draw lv') (li_info lv' s) a); [|discriminate]. injection H as <-.
    exists l1, l2. repeat split; try apply I2; cbn; destruct s, lv'; apply I1.
  - injection H as <-. exists l1, l2. split; auto. split; auto. destruct s; exact I1.
  - injection H as <-. exists l1, l2. split; auto. split; auto. destruct s; exact I1.
  - destruct (reg_classes (li_classes s) e); [|discriminate]. injection H as <-.
    exists l1, l2. split; auto. split; auto. destruct s; exact I1.
  - destruct (tb_reg tb (REvent e)) as [tb'|] eqn:T; [|discriminate]. injection H as <-.
    exists l1, (l2 ++ contributed (REvent e)). split; [now rewrite app_assoc|]. split; auto. cbn [snd].
    assert (P : plain_stamp (REvent e)).
    { intros a G. unfold tb_reg, tb_register, StdExt.extract_timestamp, StdExt.fetch in T. rewrite G in T. unfold get_value in T.
      destruct (is_collection (a_cls a)); auto. discriminate. }
    destruct (tb_register_inv aw tb l2 (REvent e) I2 P F) as (b' & R & J).
    apply tb_reg_ok in R. congruence.
  - destruct (tb_merge aw _ _ _ _ I1 I2) as (b' & R & J). rewrite R in H. injection H as <-.
    exists (l1 ++ l2), []. rewrite app_nil_r. split; auto. split; [destruct s; exact J|apply tb_inv_empty].
Qed.

Lemma run_bounds aw acts : forall sb ds sb', bounds_inv aw sb ds ->
  Forall (fun d => is_aware d = aw) (flat_map act_stamps acts) ->
  fold_res step acts sb = Ok sb' -> bounds_inv aw sb' (ds ++ flat_map act_stamps acts).
Proof.
  induction acts as [|x acts IH]; simpl; intros sb ds sb' I F H.
  - injection H as <-. now rewrite app_nil_r.
  - destruct (step sb x) as [sb1|] eqn:S; [|discriminate]. apply Forall_app in F as [F1 F2].
    rewrite app_assoc. eapply IH; eauto. eapply step_bounds; eauto.
Qed.

Lemma acts_end_empty l s s' tb' : fold_res step (acts_log l) (s, tb_empty) = Ok (s', tb') -> tb' = tb_empty.
Proof.
  unfold acts_log. rewrite fold_res_app, acts_attrs_spec. destruct (reg_attrs draw LvLog (lg_attrs l) s) as [s1|]; [|discriminate].
  cbn [bind]. revert s1. induction (lg_traces l) as [|t ts IH]; cbn [flat_map fold_res]; intros s1 H.
  - injection H as <- <-. reflexivity.
  - rewrite fold_res_app, acts_trace_spec in H. destruct (reg_trace draw s1 t) as [s2|]; [|discriminate]. apply (IH s2). exact H.
Qed.

Theorem summary_bounds l default extra s : same_awareness l -> make_info draw l default extra = Ok s ->
  match tb_first (li_bounds s), tb_last (li_bounds s) with
  | None, None => stamps l = []
  | Some f, Some g => earliest f (stamps l) /\ latest g (stamps l)
  | _, _ => False
  end.
Proof.
  intros [aw F]. rewrite make_info_spec.
  destruct (fold_res step (acts_log l) (start default extra, tb_empty)) as [[s1 tb1]|] eqn:E; [|discriminate].
  cbn [bind fst]. intros [= <-]. assert (T := acts_end_empty _ _ _ _ E). subst tb1.
  apply (run_bounds aw) with (ds := []) in E.
  - cbn [app] in E. rewrite stamps_log in E. destruct E as (l1 & l2 & -> & [_ I1] & [_ I2]). cbn in I2. subst l2.
    rewrite app_nil_r. destruct s1; exact I1.
  - exists [], []. repeat split; constructor.
  - rewrite stamps_log. exact F.
Qed.

(** *** When the summary exists *)

Lemma typed_str a : typed_tree a -> exists s, attr_str a = Ok s.
Proof.
  induction a as [c k e v coll meta IH _] using attr_ind2. intros H. inversion H as [? ? ? ? ? ? V C M]; subst.
  assert (L : exists parts, (fix items (l : list attr) : res (list pystr) :=
            match l with
            | [] => Ok []
            | x :: t => match attr_str x with
                        | Ok s => match items t with
                                  | Ok r => Ok ((a_key x ++ py ":" ++ s) :: r)
                                  | Raise e => Raise e
                                  end
                        | Raise e => Raise e
                        end
            end) coll = Ok parts).
  { clear H V M. induction IH as [|x l P F IHl]; [eexists; reflexivity|]. inversion C; subst.
    destruct (P H1) as [s ->]. destruct (IHl H2) as [parts ->]. eexists. reflexivity. }
  destruct L as [parts L]. destruct c; cbn [attr_str]; try (eexists; reflexivity).
  - destruct v; try contradiction. eexists; reflexivity.
  - rewrite L. eexists; reflexivity.
  - rewrite L. eexists; reflexivity.
Qed.

Lemma typed_map_get m k a : typed_map m -> sget k m = Some a -> typed_tree a.
Proof. intros T G. apply sget_in in G. unfold typed_map in T. rewrite Forall_forall in T. apply (T _ G). Qed.

Lemma typed_identity c e : typed_map (ev_attrs e) -> exists s, class_identity c e = Ok s.
Proof.
  intros T. assert (S : forall k a, sget k (ev_attrs e) = Some a -> exists s, attr_str a = Ok s).
  { intros k a G. apply typed_str. eapply typed_map_get; eauto. }
  assert (P : forall ks, exists l, present_texts ks (ev_attrs e) = Ok l).
  { induction ks as [|k ks [l IH]]; simpl; eauto. destruct (sget k (ev_attrs e)) as [a|] eqn:G; eauto.
    destruct (S k a G) as [s ->]. rewrite IH. cbn. eauto. }
  unfold class_identity. destruct (cl_keys c) as [|k1 [|k2 [|k3 ks]]].
  - simpl. eauto.
  - destruct (sget k1 (ev_attrs e)) as [a|] eqn:G; eauto.
  - destruct (sget k1 (ev_attrs e)) as [a|] eqn:G1; destruct (sget k2 (ev_attrs e)) as [b|] eqn:G2;
      try destruct (S k1 a G1) as [s1 ->]; try destruct (S k2 b G2) as [s2 ->]; cbn; eauto.
  - destruct (P (k1 :: k2 :: k3 :: ks)) as [l ->]. cbn. eauto.
Qed.

Lemma typed_classes cs e : typed_map (ev_attrs e) -> exists cs', reg_classes cs e = Ok cs'.
Proof.
  intros T. induction cs as [|[c m] cs [cs' IH]]; simpl; eauto. unfold register_event.
  destruct (typed_identity c e T) as [id ->]. cbn. rewrite IH. cbn. eauto.
Qed.

Lemma typed_nested a : typed_tree a -> Forall typed_tree (nested a).
Proof.
  induction a as [c k e v coll meta _ IH] using attr_ind2. intros H. inversion H as [? ? ? ? ? ? V C M]; subst.
  rewrite nested_eq. clear H V C. induction IH as [|[k' x] m P F IHm]; simpl; [constructor|].
  inversion M; subst. cbn in *. constructor; auto. apply Forall_app. auto.
Qed.

Lemma typed_at_level l lv : typed_log l -> Forall typed_tree (at_level lv l).
Proof.
  assert (V : forall m, typed_map m -> Forall typed_tree (map snd m)) by (intros m; apply Forall_map).
  assert (N : forall m, typed_map m -> Forall typed_tree (nested_in m)).
  { intros m T. unfold nested_in. apply Forall_flat_map. eapply Forall_impl; [|exact T].
    intros kv. apply typed_nested. }
  intros [A B]. destruct lv; cbn [at_level].
  - auto.
  - apply Forall_flat_map. eapply Forall_impl; [|exact B]. intros t [T _]. auto.
  - apply Forall_flat_map. unfold log_events. apply Forall_flat_map. eapply Forall_impl; [|exact B].
    intros t [_ T]. eapply Forall_impl; [|exact T]. auto.
  - apply Forall_app. split; auto. apply Forall_flat_map. eapply Forall_impl; [|exact B].
    intros t [T E]. apply Forall_app. split; auto. apply Forall_flat_map. eapply Forall_impl; [|exact E]. auto.
Qed.

Lemma typed_event l e : typed_log l -> In e (log_events l) -> typed_map (ev_attrs e).
Proof.
  intros [_ B] I. unfold log_events in I. apply in_flat_map in I as (t & It & Ie).
  rewrite Forall_forall in B. destruct (B t It) as [_ T]. rewrite Forall_forall in T. auto.
Qed.

Lemma typed_prototype a : typed_tree a -> has_prototype a = false <-> no_prototype (a_cls a).
Proof.
  intros H. inversion H as [c k e v coll meta V C M]; subst. unfold has_prototype, no_prototype. cbn.
  destruct c; try (split; [discriminate|intros [?|[?|?]]; discriminate]); try (split; auto; fail).
  destruct v; try contradiction. split; [discriminate|intros [?|[?|?]]; discriminate].
Qed.

Theorem summary_raises l default extra x : typed_log l -> same_awareness l ->
  make_info draw l default extra = Raise x -> x = AttributeError /\ unsupported l.
Proof.
  intros T [aw F]. rewrite make_info_spec.
  destruct (fold_res step (acts_log l) (start default extra, tb_empty)) as [sb|y] eqn:E; [discriminate|].
  cbn [bind]. intros [= ->]. apply fold_raise in E as (pre & a & post & [s tb] & Eq & P & R).
  assert (B : bounds_inv aw (s, tb) (flat_map act_stamps pre)).
  { rewrite <- (app_nil_l (flat_map act_stamps pre)). eapply run_bounds; [| |exact P].
    - exists [], []. repeat split; constructor.
    - rewrite <- stamps_log, Eq, flat_map_app in F. now apply Forall_app in F. }
  destruct B as (l1 & l2 & _ & I1 & I2). cbn [fst snd] in *.
  destruct a as [lv a| | |e|e|]; cbn [step] in R; try discriminate.
  - destruct (ai_register (draw lv) (li_info lv s) a) as [i|y] eqn:G; [discriminate|]. injection R as ->.
    apply (run_level lv) in P. cbn [fst] in P. rewrite init_level in P.
    assert (J := ai_fold_inv (draw lv) _ _ [] _ (ai_inv_empty (draw lv)) P). cbn [app] in J.
    apply (ai_register_raise (draw lv) _ _ _ _ J) in G as (-> & N & Hp). split; auto. left. exists lv.
    assert (L : at_level lv l = flat_map (regs lv) pre ++ a :: flat_map (regs lv) post).
    { rewrite <- regs_log, Eq, flat_map_app. cbn [flat_map regs]. destruct lv; reflexivity. }
    exists (flat_map (regs lv) pre), a, (flat_map (regs lv) post). repeat split; auto.
    apply typed_prototype; auto. assert (Ty := typed_at_level l lv T). rewrite L in Ty.
    apply Forall_app in Ty as [_ Ty]. now inversion Ty.
  - exfalso. assert (I : In e (log_events l)).
    { rewrite <- classes_log, Eq, flat_map_app, in_app_iff. right. simpl. auto. }
    destruct (typed_classes (li_classes s) e (typed_event l e T I)) as [cs' G]. rewrite G in R. discriminate.
  - assert (I : In e (log_events l)).
    { assert (Q : flat_map (fun x => match x with AStamp e => [e] | _ => [] end) (acts_log l) = log_events l).
      { rewrite (sel_log _ (fun e => [e])); auto. now rewrite flat_map_single, map_id. }
      rewrite <- Q, Eq, flat_map_app, in_app_iff. right. simpl. auto. }
    destruct (sget (py "time:timestamp") (ev_attrs e)) as [b|] eqn:G.
    + destruct (is_collection (a_cls b)) eqn:C.
      * split; [|right; eauto]. unfold tb_reg, tb_register, StdExt.extract_timestamp, StdExt.fetch, get_value in R. rewrite G, C in R.
        cbn in R. congruence.
      * exfalso. assert (PS : plain_stamp (REvent e)) by (intros a' G'; congruence).
        assert (FS : Forall (fun d => is_aware d = aw) (contributed (REvent e))).
        { rewrite <- stamps_log, Eq, flat_map_app in F. apply Forall_app in F as [_ F]. cbn [flat_map act_stamps] in F. now apply Forall_app in F. }
        destruct (tb_register_inv aw tb l2 (REvent e) I2 PS FS) as (b' & RR & _). apply tb_reg_ok in RR. rewrite RR in R. discriminate.
    + exfalso. unfold tb_reg, tb_register, StdExt.extract_timestamp, StdExt.fetch in R. rewrite G in R. discriminate.
  - exfalso. destruct (tb_merge aw _ _ _ _ I1 I2) as (b' & RR & _). rewrite RR in R. discriminate.
Qed.

Theorem summary_supported l default extra s : typed_log l ->
  make_info draw l default extra = Ok s -> ~ unsupported l.
Proof.
  intros T E [(lv & pre & a & post & L & N & C)|(e & a & I & G & C)].
  - assert (H := summary_levels _ _ _ _ lv E).
    assert (Hp : has_prototype a = true).
    { eapply (ai_fold_first (draw lv) _ _ [] _ (ai_inv_empty (draw lv)) H); eauto. }
    assert (Ty := typed_at_level l lv T). rewrite L in Ty. apply Forall_app in Ty as [_ Ty]. inversion Ty; subst.
    apply typed_prototype in C; auto. congruence.
  - rewrite make_info_spec in E. destruct (fold_res step (acts_log l) (start default extra, tb_empty)) as [sb|] eqn:F; [|discriminate].
    assert (Q : In (AStamp e) (acts_log l)).
    { assert (Q : flat_map (fun x => match x with AStamp e => [e] | _ => [] end) (acts_log l) = log_events l).
      { rewrite (sel_log _ (fun e => [e])); auto. now rewrite flat_map_single, map_id. }
      rewrite <- Q in I. apply in_flat_map in I as (x & Ix & Ie). destruct x; try destruct Ie as [<-|[]]; try contradiction. exact Ix. }
    apply in_split in Q as (pre & post & Q). rewrite Q, fold_res_app in F.
    destruct (fold_res step pre (start default extra, tb_empty)) as [[s1 tb1]|]; [|discriminate]. cbn [bind fold_res step] in F.
    unfold tb_reg, tb_register, StdExt.extract_timestamp, StdExt.fetch, get_value in F. rewrite G, C in F. cbn in F. discriminate.
Qed.

Theorem summary_exact l default extra : typed_log l -> same_awareness l ->
  (make_info draw l default extra = Raise AttributeError /\ unsupported l)
  \/ (exists s, make_info draw l default extra = Ok s) /\ ~ unsupported l.
Proof.
  intros T A. destruct (make_info draw l default extra) as [s|x] eqn:E.
  - right. split; eauto. eapply summary_supported; eauto.
  - left. destruct (summary_raises _ _ _ _ T A E) as [-> U]. auto.
Qed.

(** ** The cache *)

Theorem cache_hit w c w' i : create_log_info draw w c = (w', Ok i) ->
  forall ls, let w'' := fold_left edit_log ls w' in create_log_info draw w'' c = (w'', Ok i).
Proof.
  intros H ls. assert (G : get_info w' (match c with None => standard_classifier | Some c => c end) = Some i).
  { unfold create_log_info in H. set (c' := match c with None => _ | Some c => c end) in *.
    destruct (get_info w c') as [j|] eqn:G.
    - injection H as <- <-. exact G.
    - destruct (create_info draw (w_log w) (Some c') []) as [s|]; [|discriminate]. injection H as <- <-.
      unfold get_info. cbn. assert (E : cl_eqb c' c' = true) by now apply cl_eqb_eq. now rewrite E. }
  cbv zeta. assert (G' : get_info (fold_left edit_log ls w') (match c with None => standard_classifier | Some c => c end) = Some i).
  { clear H. revert w' G. induction ls as [|l ls IH]; simpl; intros w' G; auto. }
  unfold create_log_info. now rewrite G'.
Qed.

Theorem cache_miss w c : (forall c' i, w_cache w = Some (c', i) -> c' <> asked c) ->
  match create_info draw (w_log w) (Some (asked c)) [] with
  | Ok s => create_log_info draw w c
            = (mk_world (w_log w) (Some (asked c, List.length (w_infos w))) (w_infos w ++ [s]), Ok (List.length (w_infos w)))
  | Raise x => create_log_info draw w c = (w, Raise x)
  end.
Proof.
  intros H. unfold create_log_info. change (match c with None => standard_classifier | Some c => c end) with (asked c).
  assert (G : get_info w (asked c) = None).
  { unfold get_info. destruct (w_cache w) as [[c' i]|]; auto. destruct (cl_eqb (asked c) c') eqn:E; auto.
    apply cl_eqb_eq in E. exfalso. apply (H c' i); auto. }
  rewrite G. destruct (create_info draw (w_log w) (Some (asked c)) []); reflexivity.
Qed.

Theorem summary_frequencies l default extra s lv k : make_info draw l default extra = Ok s ->
  ai_frequency (li_info lv s) k
  = if Nat.eqb (key_count k (at_level lv l)) 0 then None else Some (key_count k (at_level lv l)).
Proof.
  intros E. apply (summary_levels _ _ _ _ lv) in E.
  apply (ai_fold_inv (draw lv) _ _ []) in E; [|apply ai_inv_empty]. apply (inv_freq _ _ _ E).
Qed.

Theorem create_is_make l default extra :
  create_info draw l default extra = make_info draw l (asked default) extra.
Proof. destruct default; reflexivity. Qed.
End WithFloatIO.
