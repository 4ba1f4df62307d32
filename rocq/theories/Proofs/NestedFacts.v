(** Lemmas about nested cost values. *)
From Coq Require Import String NArith ZArith List Bool Lia.
From Verif Require Import Base.PyBase Base.PyVal Model.Attr Model.StdExt Model.Nested
  Spec.Setters Spec.NestedSpec Proofs.BaseFacts Proofs.AttrInd Proofs.SetterFacts.
Import ListNotations.

(** ** Extraction *)
Section Extract.
Context (n : nkind) (ev : getter) (Hev : ev = fetch (nkey n) PNone).

Lemma ev_cases meta : ev meta = Raise AttributeError /\ (exists x, sget (nkey n) meta = Some x /\ is_collection (a_cls x) = true)
  \/ exists v, ev meta = Ok v /\ (forall x, sget (nkey n) meta = Some x -> is_collection (a_cls x) = false /\ a_val x = v)
               /\ (sget (nkey n) meta = None -> v = PNone).
Proof.
  rewrite Hev. unfold fetch. destruct (sget (nkey n) meta) as [x|].
  - unfold get_value. destruct (is_collection (a_cls x)) eqn:C.
    + left. split; [reflexivity|]. exists x. auto.
    + right. exists (a_val x). split; [reflexivity|]. split; [intros y [= <-]; auto|discriminate].
  - right. exists PNone. split; [reflexivity|]. split; [discriminate|reflexivity].
Qed.

Definition walk (m : list (pystr * attr)) : res unit := fold_res (fun _ kv => extract_private ev (snd kv)) m tt.

Lemma extract_private_eq a : extract_private ev a
  = (let! v := ev (a_meta a) in if truthy v then Raise TypeError else walk (a_meta a)).
Proof.
  destruct a as [c k x w coll meta]. cbn [extract_private a_meta]. destruct (ev meta) as [v|e]; cbn [bind]; [|reflexivity].
  destruct (truthy v); [reflexivity|]. unfold walk. induction meta as [|[k2 b] t IH]; [reflexivity|].
  cbn [fold_res snd]. destruct (extract_private ev b) as [[]|e]; [exact IH|reflexivity].
Qed.

(** One attribute, not looking at nested ones. *)
Definition quiet (a : attr) : Prop := ~ carries n a /\ ~ unreadable n a.

Lemma ev_quiet a : quiet a -> exists v, ev (a_meta a) = Ok v /\ truthy v = false.
Proof.
  intros [NC NU]. destruct (ev_cases (a_meta a)) as [[_ U]|(v & E & S0 & N0)]; [now destruct NU|].
  exists v. split; [exact E|]. destruct (sget (nkey n) (a_meta a)) as [x|] eqn:G.
  - destruct (S0 x eq_refl) as [C V]. destruct (truthy v) eqn:T; [|reflexivity].
    exfalso. apply NC. exists x. rewrite V. auto.
  - now rewrite (N0 eq_refl).
Qed.
Lemma ev_loud a : ~ quiet a ->
  (ev (a_meta a) = Raise AttributeError /\ unreadable n a) \/ (exists v, ev (a_meta a) = Ok v /\ truthy v = true /\ carries n a).
Proof.
  intros L. destruct (ev_cases (a_meta a)) as [[E U]|(v & E & S0 & N0)]; [left; auto|right].
  exists v. split; [exact E|].
  destruct (sget (nkey n) (a_meta a)) as [x|] eqn:G.
  - destruct (S0 x eq_refl) as [C V]. destruct (truthy v) eqn:T.
    + split; [reflexivity|]. exists x. rewrite V. auto.
    + exfalso. apply L. split; intros (y & Gy & Cy).
      * rewrite G in Gy. injection Gy as <-. rewrite V in Cy. destruct Cy; congruence.
      * rewrite G in Gy. injection Gy as <-. congruence.
  - exfalso. apply L. split; intros (y & Gy & _); rewrite G in Gy; discriminate.
Qed.

Lemma ev_dec a : quiet a \/ ~ quiet a.
Proof.
  unfold quiet, carries, unreadable. destruct (sget (nkey n) (a_meta a)) as [x|].
  - destruct (is_collection (a_cls x)) eqn:C.
    + right. intros [_ U]. apply U. exists x. auto.
    + destruct (truthy (a_val x)) eqn:T.
      * right. intros [U _]. apply U. exists x. auto.
      * left. split; intros (y & [= <-] & H); [destruct H|]; congruence.
  - left. split; intros (y & [=] & _).
Qed.

(** The outcome for one subtree. *)
Definition tree_all (P : attr -> Prop) (a : attr) : Prop := P a /\ forall b, descendant (a_meta a) b -> P b.

Definition good_result (r : res unit) (some_carry some_unreadable : Prop) : Prop :=
  match r with
  | Ok _ => ~ some_carry /\ ~ some_unreadable
  | Raise TypeError => some_carry
  | Raise AttributeError => some_unreadable
  | Raise _ => False
  end.

Definition in_tree (a b : attr) : Prop := b = a \/ descendant (a_meta a) b.

Lemma descendant_cons k a t b : descendant ((k, a) :: t) b <-> in_tree a b \/ descendant t b.
Proof.
  split.
  - intros D. inversion D as [m k2 x I1|m k2 x y I1 D2]; subst.
    + destruct I1 as [[= -> ->]|I1]; [left; now left|right; eapply d_here; eauto].
    + destruct I1 as [[= -> ->]|I1]; [left; now right|right; eapply d_deep; eauto].
  - intros [[->|D]|D].
    + eapply d_here. now left.
    + eapply d_deep; [now left|exact D].
    + inversion D; subst; [eapply d_here; right; eauto|eapply d_deep; [right; eauto|auto]].
Qed.
Lemma descendant_nil b : ~ descendant [] b.
Proof. intros D. inversion D as [m k a I1|m k a c I1]; destruct I1. Qed.

Lemma walk_good m : Forall (fun kv => good_result (extract_private ev (snd kv))
    (exists b, in_tree (snd kv) b /\ carries n b) (exists b, in_tree (snd kv) b /\ unreadable n b)) m ->
  good_result (walk m) (exists b, descendant m b /\ carries n b) (exists b, descendant m b /\ unreadable n b).
Proof.
  induction 1 as [|[k a] t G _ IH].
  - cbn. split; intros (b & D & _); exact (descendant_nil b D).
  - unfold walk in *. cbn [fold_res snd] in *. destruct (extract_private ev a) as [[]|e].
    + cbn [good_result] in G. destruct G as [G1 G2].
      destruct (fold_res _ t tt) as [[]|e]; cbn [good_result] in *.
      * destruct IH as [I1 I2]. split; intros (b & D & C); apply descendant_cons in D; destruct D; eauto.
      * destruct e; auto; destruct IH as (b & D & C); exists b; (split; [apply descendant_cons; now right|auto]).
    + cbn [good_result] in *. destruct e; auto; destruct G as (b & D & C); exists b; (split; [apply descendant_cons; now left|auto]).
Qed.

Lemma private_good a : good_result (extract_private ev a)
  (exists b, in_tree a b /\ carries n b) (exists b, in_tree a b /\ unreadable n b).
Proof.
  induction a as [c k x w coll meta _ IM] using attr_ind2.
  set (a := mk_attr c k x w coll meta).
  assert (W := walk_good meta). 
  assert (W' : good_result (walk meta) (exists b, descendant meta b /\ carries n b) (exists b, descendant meta b /\ unreadable n b)).
  { apply W. exact IM. }
  clear W IM. rewrite extract_private_eq. change (a_meta a) with meta.
  destruct (ev_dec a) as [Q|L].
  - destruct (ev_quiet a Q) as (v & E & T). change (a_meta a) with meta in E. rewrite E. cbn [bind]. rewrite T.
    destruct Q as [Q1 Q2]. destruct (walk meta) as [[]|e]; cbn [good_result] in *.
    + destruct W' as [W1 W2]. split; intros (b & [->|D] & C); eauto.
    + destruct e; auto; destruct W' as (b & D & C); exists b; (split; [now right|auto]).
  - destruct (ev_loud a L) as [[E U]|(v & E & T & C)]; change (a_meta a) with meta in E; rewrite E; cbn [bind].
    + cbn. exists a. split; [now left|exact U].
    + rewrite T. cbn. exists a. split; [now left|exact C].
Qed.

Lemma walk_all m : good_result (walk m) (exists b, descendant m b /\ carries n b) (exists b, descendant m b /\ unreadable n b).
Proof. apply walk_good. apply Forall_forall. intros kv _. apply private_good. Qed.
End Extract.

Lemma extract_nested_walk n m :
  extract_nested n m = (let! _ := walk (slot_extract (nslot n)) m in Ok []).
Proof. destruct n; reflexivity. Qed.
Lemma extract_children_walk n m :
  extract_children n m = (let! _ := walk (slot_extract (nslot n)) m in Ok []).
Proof.
  assert (E : forall ev, extract_values ev m = (let! _ := walk ev m in Ok [])).
  { intros ev. unfold extract_values, extract_nested_values, walk. destruct (fold_res _ m tt); reflexivity. }
  destruct n; apply E.
Qed.

Lemma walk_outcomes n m (X : Type) (x : X) r : r = (let! _ := walk (slot_extract (nslot n)) m in Ok x) ->
  (r = Ok x <-> (forall a, descendant m a -> ~ carries n a /\ ~ unreadable n a))
  /\ (forall e, r = Raise e -> (e = TypeError /\ exists a, descendant m a /\ carries n a)
                            \/ (e = AttributeError /\ exists a, descendant m a /\ unreadable n a)).
Proof.
  intros ->. pose proof (walk_all n (slot_extract (nslot n)) ltac:(destruct n; reflexivity) m) as G.
  destruct (walk _ m) as [[]|e]; cbn [bind good_result] in *.
  - split; [|discriminate]. split; [|auto]. intros _ a D. destruct G as [G1 G2]. split; intros C; eauto.
  - split.
    + split; [discriminate|]. intros H. exfalso. destruct e; auto; destruct G as (b & D & C); destruct (H b D); auto.
    + intros e' [= <-]. destruct e; try contradiction; auto.
Qed.

Lemma walk_type_error n m (X : Type) (x : X) r : r = (let! _ := walk (slot_extract (nslot n)) m in Ok x) ->
  (forall a, descendant m a -> ~ unreadable n a) ->
  (r = Raise TypeError <-> exists a, descendant m a /\ carries n a)
  /\ (r = Ok x <-> ~ exists a, descendant m a /\ carries n a).
Proof.
  intros E NU. destruct (walk_outcomes n m X x r E) as [H1 H2]. split; [split|split].
  - intros R. destruct (H2 _ R) as [[_ C]|[[=] _]]. exact C.
  - intros (a & D & C). destruct r as [y|e] eqn:R.
    + destruct (walk _ m); cbn in E; [|discriminate]. injection E as ->.
      destruct (proj1 H1 eq_refl a D) as [NC _]. contradiction.
    + destruct (H2 e eq_refl) as [[-> _]|[-> (b & Db & Ub)]]; [reflexivity|]. now destruct (NU b Db).
  - intros R (a & D & C). now destruct (proj1 H1 R a D).
  - intros NC. apply H1. intros a D. split; [intros C; apply NC; eauto|auto].
Qed.

(** ** Assignment *)
Section Assign.
Context (av : setter).

Definition with_meta (a : attr) (m : sdict attr) : attr :=
  mk_attr (a_cls a) (a_key a) (a_ext a) (a_val a) (a_coll a) m.
Lemma with_meta_shell a m : same_shell (with_meta a m) a.
Proof. unfold same_shell. destruct a; cbn; auto. Qed.
Lemma with_meta_meta a m : a_meta (with_meta a m) = m.
Proof. reflexivity. Qed.

Definition leaf (v : pyval) (m : sdict attr) : sdict attr := match av v m with Ok m' => m' | Raise _ => m end.

Lemma private_nil v a : fst (assign_private av [] v a) = with_meta a (leaf v (a_meta a)).
Proof. destruct a as [c k x w coll meta]. cbn. unfold leaf. cbn. destruct (av v meta); reflexivity. Qed.
Lemma private_cons k q v a : fst (assign_private av (k :: q) v a) = with_meta a (fst (assign_path av (k :: q) v (a_meta a))).
Proof.
  destruct a as [c k0 x w coll meta]. cbn [assign_private assign_path a_meta].
  destruct (assign_private av q v (found k meta)). reflexivity.
Qed.
Lemma path_one k v m : fst (assign_path av [k] v m) = sset k (with_meta (found k m) (leaf v (a_meta (found k m)))) m.
Proof.
  cbn [assign_path]. rewrite (surjective_pairing (assign_private av [] v (found k m))). cbn [fst]. now rewrite private_nil.
Qed.
Lemma path_more k k2 q v m : fst (assign_path av (k :: k2 :: q) v m)
  = sset k (with_meta (found k m) (fst (assign_path av (k2 :: q) v (a_meta (found k m))))) m.
Proof.
  cbn [assign_path]. rewrite (surjective_pairing (assign_private av (k2 :: q) v (found k m))). cbn [fst].
  rewrite private_cons. reflexivity.
Qed.

Lemma at_path_set_same k b m q : at_path (k :: q) (sset k b m) = match q with [] => Some b | _ => at_path q (a_meta b) end.
Proof. cbn [at_path]. now rewrite sget_sset_same. Qed.
Lemma at_path_set_other k k2 b m q : k <> k2 -> at_path (k2 :: q) (sset k b m) = at_path (k2 :: q) m.
Proof. intros H. cbn [at_path]. now rewrite (sget_sset_other _ _ _ _ H). Qed.

Lemma at_path_found k k2 q m : at_path (k :: k2 :: q) m = at_path (k2 :: q) (a_meta (found k m)).
Proof. unfold found. cbn [at_path]. destruct (sget k m); [reflexivity|]. reflexivity. Qed.

Lemma found_shell k m : match at_path [k] m with Some b => found k m = b | None => found k m = path_element [k] end.
Proof. unfold found. cbn [at_path]. destruct (sget k m); reflexivity. Qed.

Lemma shell_found k m a : same_shell a (found k m) ->
  match at_path [k] m with Some b => same_shell a b | None => same_shell a (path_element [k]) end.
Proof. intros S0. pose proof (found_shell k m) as F. destruct (at_path [k] m); now rewrite F in S0. Qed.

(** Path elements are kept or made. *)
Lemma path_made p v : forall m q, q <> [] -> prefix_of q p -> kept_or_made q m (fst (assign_path av p v m)).
Proof.
  induction p as [|k p IH]; intros m q NE [r E].
  - destruct q; [congruence|discriminate].
  - destruct q as [|k2 q]; [congruence|]. injection E as <- E.
    destruct p as [|k3 p].
    + symmetry in E. apply app_eq_nil in E. destruct E as [-> ->]. rewrite path_one.
      eexists. rewrite at_path_set_same. split; [reflexivity|]. apply shell_found, with_meta_shell.
    + rewrite path_more. destruct q as [|k4 q].
      * eexists. rewrite at_path_set_same. split; [reflexivity|]. apply shell_found, with_meta_shell.
      * destruct (IH (a_meta (found k m)) (k4 :: q) ltac:(discriminate) (ex_intro _ r E)) as (a & A & S0).
        exists a. rewrite at_path_set_same, with_meta_meta. split; [exact A|].
        rewrite at_path_found. destruct (at_path (k4 :: q) (a_meta (found k m))); [exact S0|].
        revert S0. unfold path_element. cbn [last]. destruct q; auto.
Qed.

(** Everything else stays, but for what the leaf changes. *)
Lemma path_frame (key : pystr) p v :
  p <> [] ->
  (forall m, only_at key m (leaf v m) \/ leaf v m = m) ->
  forall m q, ~ prefix_of q p -> ~ prefix_of (p ++ [key]) q ->
  at_path q (fst (assign_path av p v m)) = at_path q m.
Proof.
  intros NE LF. induction p as [|k p IH]; [congruence|]. intros m q NP NL.
  destruct q as [|k2 q]; [reflexivity|].
  destruct (list_eq_dec N.eq_dec k k2) as [<-|NK].
  - assert (NP' : ~ prefix_of q p) by (intros [r ->]; apply NP; exists r; reflexivity).
    assert (NL' : ~ prefix_of (p ++ [key]) q) by (intros [r ->]; apply NL; exists r; reflexivity).
    destruct q as [|k4 q]; [destruct NP'; exists p; reflexivity|].
    destruct p as [|k3 p].
    + rewrite path_one, at_path_set_same, with_meta_meta, at_path_found.
      assert (K4 : k4 <> key) by (intros ->; apply NL'; exists q; reflexivity).
      destruct (LF (a_meta (found k m))) as [[O _]| ->]; [|reflexivity].
      cbn [at_path]. rewrite (O k4 K4). reflexivity.
    + rewrite path_more, at_path_set_same, with_meta_meta, at_path_found.
      apply IH; [discriminate|exact NP'|exact NL'].
  - destruct p as [|k3 p]; [rewrite path_one|rewrite path_more]; now rewrite at_path_set_other.
Qed.

(** The leaf of an admissible value. *)
Lemma path_leaf (key : pystr) w p v : p <> [] -> (forall m, av v m = Ok (sset key w m)) ->
  forall m, at_path (p ++ [key]) (fst (assign_path av p v m)) = Some w /\ snd (assign_path av p v m) = Ok tt.
Proof.
  intros NE A. induction p as [|k p IH]; [congruence|]. intros m.
  destruct p as [|k3 p].
  - split.
    + rewrite path_one. cbn [app]. rewrite at_path_set_same, with_meta_meta. unfold leaf. rewrite A.
      cbn [at_path]. now rewrite sget_sset_same.
    + cbn [assign_path]. destruct (found k m) as [c k0 x w0 coll meta]. cbn [assign_private]. rewrite A. reflexivity.
  - destruct (IH ltac:(discriminate) (a_meta (found k m))) as [I1 I2]. split.
    + rewrite path_more. cbn [app]. rewrite at_path_set_same, with_meta_meta. exact I1.
    + revert I2. cbn [assign_path]. destruct (found k m) as [c k0 x w0 coll meta]. cbn [assign_private a_meta].
      destruct (assign_private av p v (found k3 meta)) as [s r]. cbn [snd]. auto.
Qed.

(** Errors and passed-over values. *)
Lemma path_result p v : p <> [] -> (exists r, forall m, match av v m with Ok _ => Ok tt | Raise e => Raise e end = r) ->
  forall m m2, snd (assign_path av p v m) = match av v m2 with Ok _ => Ok tt | Raise e => Raise e end.
Proof.
  intros NE [r A]. induction p as [|k p IH]; [congruence|]. intros m m2.
  destruct p as [|k3 p].
  - cbn [assign_path]. destruct (found k m) as [c k0 x w0 coll meta]. cbn [assign_private].
    rewrite (A m2), <- (A meta). destruct (av v meta); reflexivity.
  - rewrite <- (IH ltac:(discriminate) (a_meta (found k m)) m2).
    cbn [assign_path]. destruct (found k m) as [c k0 x w0 coll meta]. cbn [assign_private a_meta].
    destruct (assign_private av p v (found k3 meta)) as [s0 r0]. reflexivity.
Qed.
End Assign.

Lemma nslot_written n (v : pyval) : written_key (nslot n) = nkey n. Proof. destruct n; reflexivity. Qed.

Lemma assign_nested_slot n l m : assign_nested n l m = assign_nested_values (slot_assign (nslot n)) l m.
Proof. destruct n; reflexivity. Qed.

Lemma leaf_cases n v : forall m, only_at (nkey n) m (leaf (slot_assign (nslot n)) v m) \/ leaf (slot_assign (nslot n)) v m = m.
Proof.
  intros m. unfold leaf. destruct (slot_effect (nslot n) v m) as [(_ & _ & ->)|[(_ & _ & ->)|(_ & _ & ->)]]; auto.
  left. rewrite (nslot_written n v). apply sset_only_at.
Qed.

Lemma prefix_key_absent {A} (p q : list A) key : ~ In key q -> prefix_of (p ++ [key]) q -> False.
Proof. intros NI [r ->]. apply NI. rewrite <- app_assoc. apply in_or_app. right. now left. Qed.
Lemma prefix_both {A} (p q : list A) key : ~ In key q -> prefix_of (p ++ [key]) (q ++ [key]) -> p = q.
Proof.
  intros NI [r E]. destruct r as [|x r _] using rev_ind.
  - rewrite app_nil_r in E. now apply app_inj_tail in E.
  - exfalso. rewrite app_assoc in E. apply app_inj_tail in E. destruct E as [E _]. apply NI. rewrite E.
    rewrite <- app_assoc. apply in_or_app. right. now left.
Qed.

Lemma nested_all n : forall l m,
  (forall p v, In (p, v) l -> p <> [] /\ ~ In (nkey n) p /\ admissible (nslot n) v) ->
  NoDup (map fst l) ->
  exists m', assign_nested n l m = (m', Ok tt)
    /\ (forall p v, In (p, v) l -> at_path (p ++ [nkey n]) m' = Some (written (nslot n) v))
    /\ (forall p v q, In (p, v) l -> q <> [] -> prefix_of q p -> kept_or_made q m m')
    /\ (forall q, (forall p v, In (p, v) l -> ~ prefix_of q p /\ ~ prefix_of (p ++ [nkey n]) q) -> at_path q m' = at_path q m).
Proof.
  induction l as [|[p v] l IH]; intros m OKl ND.
  - exists m. rewrite assign_nested_slot. cbn. split; [reflexivity|]. split; [intros ? ? []|]. split; [intros ? ? ? []|auto].
  - destruct (OKl p v (or_introl eq_refl)) as (NE & NK & AD).
    inversion ND as [|? ? NI ND']; subst.
    set (av := slot_assign (nslot n)) in *.
    assert (AV : forall m0, av v m0 = Ok (sset (nkey n) (written (nslot n) v) m0)).
    { intros m0. unfold av. rewrite (slot_adm _ v m0 AD), (nslot_written n v). reflexivity. }
    destruct (path_leaf av (nkey n) _ p v NE AV m) as [L1 L2].
    pose proof (path_made av p v m) as PM.
    pose proof (path_frame av (nkey n) p v NE (leaf_cases n v) m) as PF.
    destruct (assign_path av p v m) as [m1 r] eqn:EP. cbn [fst snd] in *. subst r.
    destruct (IH m1 (fun p0 v0 H => OKl p0 v0 (or_intror H)) ND') as (m' & R & S1 & S2 & S3).
    exists m'. split; [|split; [|split]].
    + rewrite assign_nested_slot. cbn [assign_nested_values]. fold av. rewrite EP. rewrite assign_nested_slot in R. exact R.
    + intros p0 v0 [[= <- <-]|I0]; [|now apply S1]. rewrite S3; [exact L1|].
      intros p2 v2 I2. destruct (OKl p2 v2 (or_intror I2)) as (_ & NK2 & _).
      split; [exact (fun X => prefix_key_absent p p2 (nkey n) NK2 X)|].
      intros X. apply (prefix_both p2 p (nkey n) NK) in X. subst p2. apply NI. change p with (fst (p, v2)). now apply in_map.
    + intros p0 v0 q I0 NQ PQ.
      assert (D : (exists p2 v2, In (p2, v2) l /\ prefix_of q p2) \/ ~ (exists p2 v2, In (p2, v2) l /\ prefix_of q p2)).
      { assert (PD : forall p2, {prefix_of q p2} + {~ prefix_of q p2}).
        { clear. induction q as [|a q IHq]; intros p2; [left; exists p2; reflexivity|].
          destruct p2 as [|b p2]; [right; intros [r [=]]|].
          destruct (list_eq_dec N.eq_dec a b) as [<-|N0]; [|right; intros [r [= -> _]]; auto].
          destruct (IHq p2) as [Y|Y]; [left; destruct Y as [r ->]; exists r; reflexivity|right; intros [r [= ->]]; apply Y; exists r; reflexivity]. }
        clear - PD. induction l as [|[p2 v2] l IHl]; [right; intros (? & ? & [] & _)|].
        destruct (PD p2) as [Y|Y]; [left; exists p2, v2; split; [now left|auto]|].
        destruct IHl as [(p3 & v3 & I3 & Y3)|N0]; [left; exists p3, v3; split; [now right|auto]|].
        right. intros (p3 & v3 & [[= <- <-]|I3] & Y3); [auto|]. apply N0. eauto. }
      assert (K1 : prefix_of q p -> kept_or_made q m m1) by (intros X; now apply PM).
      destruct D as [(p2 & v2 & I2 & P2)|ND2].
      * destruct (S2 p2 v2 q I2 NQ P2) as (a & A & SH). exists a. split; [exact A|].
        assert (QK : ~ In (nkey n) q).
        { destruct (OKl p2 v2 (or_intror I2)) as (_ & NK2 & _). destruct P2 as [r ->]. intros X. apply NK2. apply in_or_app. now left. }
        destruct (list_eq_dec (list_eq_dec N.eq_dec) q (firstn (List.length q) p)) as [Eq|Nq].
        -- destruct K1 as (b & B & SB); [exists (skipn (List.length q) p); rewrite Eq at 1; now rewrite firstn_skipn|].
           rewrite B in SH. destruct (at_path q m).
           ++ unfold same_shell in *. intuition congruence.
           ++ unfold same_shell in *. intuition congruence.
        -- rewrite (PF q) in SH; [exact SH| |].
           ++ intros [r ->]. apply Nq. now rewrite firstn_app, Nat.sub_diag, firstn_all, firstn_O, app_nil_r.
           ++ exact (fun X => prefix_key_absent p q (nkey n) QK X).
      * destruct I0 as [[= <- <-]|I0]; [|destruct ND2; eauto].
        destruct (K1 PQ) as (a & A & SH). exists a. split; [|exact SH].
        rewrite S3; [exact A|]. intros p2 v2 I2. split; [intros X; apply ND2; eauto|].
        intros X. apply (prefix_key_absent p2 p (nkey n) NK). destruct X as [r ->]. destruct PQ as [r2 ->].
        exists (r ++ r2). now rewrite app_assoc.
    + intros q HQ. rewrite S3 by (intros p2 v2 I2; apply (HQ p2 v2); now right).
      destruct (HQ p v (or_introl eq_refl)). now apply PF.
Qed.
