(** Classifiers that change while they are keys. *)
From Coq Require Import String NArith ZArith List Bool Lia.
From Verif Require Import Base.PyBase Base.PyVal Model.Attr Model.Log Model.Classify Model.Renamed Spec.Renamed Proofs.BaseFacts Proofs.ClassFacts.
Import ListNotations.

Section Facts.
Context (hk : list pystr -> Z) (hs : pystr -> Z).
Notation hash c r := (hash_of hk hs c r).
Notation dict c rs := (summary_dict hk hs c rs).
Notation classes c d q := (classes_of hk hs c d q).

Lemma key_is_iff c a b : key_is c a b = true <-> a = b \/ c a = c b.
Proof. unfold key_is. rewrite orb_true_iff, Nat.eqb_eq, cl_eqb_eq. reflexivity. Qed.
Lemma key_is_same c a b : key_is c a b = true <-> c a = c b.
Proof. rewrite key_is_iff. split; [intros [-> | H]; auto|auto]. Qed.

(** The entries of the dictionary. *)
Definition entries_ok (c : contents) (rs : list nat) (d : cdict) : Prop :=
  (forall g k v, In (g, k, v) d -> g = hash c k /\ first_of c rs k /\ In v rs /\ c v = c k)
  /\ (forall r, In r rs -> exists k v, In (hash c k, k, v) d /\ c k = c r).

Lemma first_more c rs r x : first_of c rs r -> first_of c (rs ++ [x]) r.
Proof. intros (a & b & -> & H). exists a, (b ++ [x]). split; [now rewrite <- app_assoc|exact H]. Qed.

Lemma cput_in c h r v d x : In x (cput c h r v d) ->
  In x d \/ (exists k y, In (h, k, y) d /\ c k = c r /\ x = (h, k, v))
  \/ (x = (h, r, v) /\ forall k y, In (h, k, y) d -> c k <> c r).
Proof.
  induction d as [|[[g k] y] d IH]; cbn.
  - intros [<- | []]. right. right. split; [reflexivity|intros k y []].
  - destruct (Z.eqb g h && key_is c k r) eqn:M.
    + apply andb_prop in M. destruct M as [M1 M2]. apply Z.eqb_eq in M1. subst g. apply key_is_same in M2.
      intros [<- | I]; [|auto]. right. left. exists k, y. auto.
    + intros [<- | I]; [auto|]. destruct (IH I) as [H | [(k' & y' & H1 & H2) | [H1 H2]]]; auto.
      * right. left. exists k', y'. auto.
      * right. right. split; [exact H1|]. intros k' y' [[= -> -> ->] | J]; [|eauto]. intros Q.
        rewrite Z.eqb_refl, (proj2 (key_is_same c k' r) Q) in M. discriminate.
Qed.
Lemma cput_has c h r v d : exists k, In (h, k, v) (cput c h r v d) /\ c k = c r.
Proof.
  induction d as [|[[g k] y] d IH]; cbn; [exists r; auto|]. destruct (Z.eqb g h && key_is c k r) eqn:M.
  - apply andb_prop in M. destruct M as [M1 M2]. apply Z.eqb_eq in M1. subst g. apply key_is_same in M2. exists k. split; [now left|exact M2].
  - destruct IH as (k' & I & Q). exists k'. split; [now right|exact Q].
Qed.
Lemma cput_keeps c h r v d g k y : In (g, k, y) d -> exists y', In (g, k, y') (cput c h r v d).
Proof.
  induction d as [|[[g' k'] x] d IH]; cbn; [easy|]. intros [[= -> -> ->] | I].
  - destruct (Z.eqb g h && key_is c k r); [exists v; now left|exists y; now left].
  - destruct (Z.eqb g' h && key_is c k' r); [exists y; now right|]. destruct (IH I) as [y' J]. exists y'. now right.
Qed.

Lemma put_ok c rs d r : entries_ok c rs d -> entries_ok c (rs ++ [r]) (cput c (hash c r) r r d).
Proof.
  intros [A B]. split.
  - intros g k v I. apply cput_in in I. destruct I as [I | [(k' & y & I & Q & [= -> -> ->]) | [[= -> -> ->] N]]].
    + destruct (A _ _ _ I) as (H1 & H2 & H3 & H4). split; [exact H1|]. split; [now apply first_more|].
      split; [apply in_or_app; now left|exact H4].
    + destruct (A _ _ _ I) as (H1 & H2 & H3 & H4). split; [exact H1|]. split; [now apply first_more|].
      split; [apply in_or_app; right; now left|congruence].
    + split; [reflexivity|]. split; [|split; [apply in_or_app; right; now left|reflexivity]].
      exists rs, []. split; [reflexivity|]. intros x I Q. destruct (B x I) as (k & y & J & E).
      assert (X : hash c k = hash c r) by (unfold hash_of; congruence). rewrite X in J. apply (N k y J). congruence.
  - intros x I. apply in_app_or in I. destruct I as [I | [-> | []]].
    + destruct (B x I) as (k & y & J & E). destruct (cput_keeps c (hash c r) r r d _ _ _ J) as [y' J']. exists k, y'. auto.
    + destruct (cput_has c (hash c x) x x d) as (k & J & E). exists k, x. split; [|exact E].
      replace (hash c k) with (hash c x) by (unfold hash_of; congruence). exact J.
Qed.

Lemma dict_ok c rs : entries_ok c rs (dict c rs).
Proof.
  induction rs as [|r rs IH] using rev_ind.
  - split; [intros g k v []|intros r []].
  - unfold summary_dict. rewrite fold_left_app. cbn [fold_left]. now apply put_ok.
Qed.

(** The key of each equality class is the first one. *)
Lemma first_key c rs r : first_of c rs r -> exists v, In (hash c r, r, v) (dict c rs).
Proof.
  intros F. destruct (dict_ok c rs) as [A B]. destruct F as (a & b & E & N).
  assert (I : In r rs) by (rewrite E; apply in_or_app; right; now left).
  destruct (B r I) as (k & v & J & Q). exists v. destruct (A _ _ _ J) as (_ & (a' & b' & E' & N') & _).
  replace r with k; [exact J|]. clear - E E' N N' Q. rewrite E in E'. clear E. revert a' E' N'.
  induction a as [|x a IH]; intros [|y a'] E' N'; cbn in E'.
  - now injection E'.
  - injection E' as <- _. exfalso. apply (N' r (or_introl eq_refl)). now symmetry.
  - injection E' as <- _. exfalso. apply (N x (or_introl eq_refl)). exact Q.
  - injection E' as <- E'. apply (IH (fun z I => N z (or_intror I)) a' E' (fun z I => N' z (or_intror I))).
Qed.

Lemma classes_some c d q t : classes c d q = Some t ->
  exists k, In (hash c q, k, t) d /\ (k = q \/ c k = c q).
Proof.
  unfold classes_of, cget. destruct (find _ d) as [[[g k] v]|] eqn:F; [|discriminate]. intros [= <-].
  apply find_some in F. destruct F as [I M]. cbn in M. apply andb_prop in M. destruct M as [M1 M2].
  apply Z.eqb_eq in M1. subst g. apply key_is_iff in M2. exists k. auto.
Qed.
Lemma classes_there c d q k v : In (hash c q, k, v) d -> k = q \/ c k = c q -> exists t, classes c d q = Some t.
Proof.
  intros I Q. unfold classes_of, cget. destruct (find _ d) as [x|] eqn:F; [eauto|]. exfalso.
  apply (find_none _ _ F) in I. cbn in I. rewrite Z.eqb_refl, (proj2 (key_is_iff c k q) Q) in I. discriminate.
Qed.

Lemma answered c0 c1 rs q :
  (exists t, classes c1 (dict c0 rs) q = Some t)
  <-> exists r, first_of c0 rs r /\ hash c0 r = hash c1 q /\ (r = q \/ c1 r = c1 q).
Proof.
  destruct (dict_ok c0 rs) as [A _]. split.
  - intros [t H]. apply classes_some in H. destruct H as (k & I & Q). destruct (A _ _ _ I) as (E & F & _).
    exists k. auto.
  - intros (r & F & E & Q). destruct (first_key c0 rs r F) as [v I]. rewrite E in I. eapply classes_there; eauto.
Qed.
Lemma answer_made c0 c1 rs q t : classes c1 (dict c0 rs) q = Some t ->
  exists r, In r rs /\ In t rs /\ c0 t = c0 r /\ hash c0 r = hash c1 q /\ (r = q \/ c1 r = c1 q).
Proof.
  intros H. apply classes_some in H. destruct H as (k & I & Q). destruct (dict_ok c0 rs) as [A _].
  destruct (A _ _ _ I) as (E & (a & b & -> & _) & V & X). exists k. repeat split; auto. apply in_or_app. right. now left.
Qed.

Lemma first_exists c rs q : In q rs -> exists r, first_of c rs r /\ c r = c q.
Proof.
  intros I. destruct (dict_ok c rs) as [A B]. destruct (B q I) as (k & v & J & E). exists k. split; [|exact E]. now apply (A _ _ _ J).
Qed.
Lemma unchanged_answer c rs q :
  (forall t, classes c (dict c rs) q = Some t -> In t rs /\ c t = c q)
  /\ (classes c (dict c rs) q = None <-> forall r, In r rs -> c r <> c q).
Proof.
  split.
  - intros t H. destruct (answer_made _ _ _ _ _ H) as (r & _ & I & E & _ & [<- | Q]); split; auto; congruence.
  - destruct (classes c (dict c rs) q) as [t|] eqn:H.
    + split; [discriminate|]. intros N. exfalso. destruct (answer_made _ _ _ _ _ H) as (r & I & _ & _ & _ & [-> | Q]); eapply N; eauto.
    + split; [|reflexivity]. intros _ r I Q. destruct (first_exists c rs r I) as (k & F & E).
      destruct (proj2 (answered c c rs q)) as [t X]; [|congruence]. exists k. split; [exact F|].
      split; [unfold hash_of; congruence|right; congruence].
Qed.

Lemma get_put c r q d : (forall g k v, In (g, k, v) d -> g = hash c k) ->
  classes c (cput c (hash c r) r r d) q = if cl_eqb (c r) (c q) then Some r else classes c d q.
Proof.
  unfold classes_of, cget. induction d as [|[[g k] v] d IH]; intros H; cbn [cput find fst snd].
  - destruct (cl_eqb (c r) (c q)) eqn:E.
    + apply cl_eqb_eq in E. rewrite (proj2 (Z.eqb_eq _ _)) by (unfold hash_of; congruence).
      rewrite (proj2 (key_is_same c r q) E). reflexivity.
    + destruct (key_is c r q) eqn:K; [apply key_is_same, cl_eqb_eq in K; congruence|]. now rewrite andb_false_r.
  - assert (G : g = hash c k) by (apply (H g k v); now left).
    assert (H' : forall g k v, In (g, k, v) d -> g = hash c k) by (intros ? ? ? I; eapply H; right; exact I).
    specialize (IH H'). destruct (Z.eqb g (hash c r) && key_is c k r) eqn:M; cbn [find fst snd].
    + apply andb_prop in M. destruct M as [_ M]. apply key_is_same in M. destruct (cl_eqb (c r) (c q)) eqn:E.
      * apply cl_eqb_eq in E. rewrite (proj2 (Z.eqb_eq _ _)) by (rewrite G; unfold hash_of; congruence).
        rewrite (proj2 (key_is_same c k q)) by congruence. reflexivity.
      * destruct (key_is c k q) eqn:K; [|now rewrite andb_false_r]. apply key_is_same in K.
        rewrite (proj2 (cl_eqb_eq _ _)) in E by congruence. discriminate.
    + destruct (Z.eqb g (hash c q) && key_is c k q) eqn:K; [|exact IH]. apply andb_prop in K. destruct K as [_ K].
      apply key_is_same in K. destruct (cl_eqb (c r) (c q)) eqn:E; [|reflexivity]. apply cl_eqb_eq in E.
      rewrite (proj2 (Z.eqb_eq _ _)) in M by (rewrite G; unfold hash_of; congruence).
      rewrite (proj2 (key_is_same c k r)) in M by congruence. discriminate.
Qed.
Lemma unchanged_last c rs q t : classes c (dict c rs) q = Some t <-> last_of c rs t /\ c t = c q.
Proof.
  induction rs as [|r rs IH] using rev_ind.
  - split; [discriminate|]. intros [(a & b & E & _) _]. destruct a; discriminate.
  - unfold summary_dict in *. rewrite fold_left_app. cbn [fold_left]. rewrite get_put.
    + destruct (cl_eqb (c r) (c q)) eqn:E.
      * apply cl_eqb_eq in E. split.
        -- intros [= <-]. split; [|exact E]. exists rs, []. split; [reflexivity|intros x []].
        -- intros [(a & b & X & N) Q]. destruct b as [|y b] using rev_ind.
           ++ apply app_inj_tail in X. destruct X as [_ ->]. reflexivity.
           ++ exfalso. rewrite app_comm_cons, app_assoc in X. apply app_inj_tail in X. destruct X as [_ <-].
              apply (N r); [apply in_or_app; right; now left|congruence].
      * rewrite IH. split.
        -- intros [(a & b & -> & N) Q]. split; [|exact Q]. exists a, (b ++ [r]). split; [now rewrite <- app_assoc|].
           intros x I. apply in_app_or in I. destruct I as [I | [<- | []]]; [auto|]. intros X.
           rewrite (proj2 (cl_eqb_eq _ _)) in E by congruence. discriminate.
        -- intros [(a & b & X & N) Q]. split; [|exact Q]. destruct b as [|y b] using rev_ind.
           ++ exfalso. apply app_inj_tail in X. destruct X as [_ ->]. rewrite (proj2 (cl_eqb_eq _ _) Q) in E. discriminate.
           ++ rewrite app_comm_cons, app_assoc in X. apply app_inj_tail in X. destruct X as [-> <-].
              exists a, b. split; [reflexivity|]. intros x I. apply N, in_or_app. now left.
    + intros g k v I. now apply (proj1 (dict_ok c rs)) in I.
Qed.
Lemma unchanged_full c rs q :
  (forall t, classes c (dict c rs) q = Some t <-> last_of c rs t /\ c t = c q)
  /\ (classes c (dict c rs) q = None <-> forall r, In r rs -> c r <> c q).
Proof. split; [intros t; apply unchanged_last|apply unchanged_answer]. Qed.

Lemma changed_lost c rs q n ks : (forall r, In r rs -> cl_hash hk hs (c r) <> cl_hash hk hs (mk_cl n ks)) ->
  classes (changed q n ks c) (dict c rs) q = None.
Proof.
  intros N. destruct (classes _ _ q) as [t|] eqn:H; [|reflexivity]. exfalso.
  destruct (answer_made _ _ _ _ _ H) as (r & I & _ & _ & E & _). apply (N r I). unfold hash_of in E. rewrite E.
  unfold changed. now rewrite Nat.eqb_refl.
Qed.

Lemma found_back c0 c1 rs q : first_of c0 rs q -> c1 q = c0 q -> exists t, classes c1 (dict c0 rs) q = Some t
  /\ ((forall r, In r rs -> cl_hash hk hs (c0 r) = cl_hash hk hs (c0 q) -> c0 r = c0 q) -> c0 t = c0 q).
Proof.
  intros F Q. destruct (proj2 (answered c0 c1 rs q)) as [t T].
  - exists q. split; [exact F|]. split; [unfold hash_of; congruence|now left].
  - exists t. split; [exact T|]. intros NC. destruct (answer_made _ _ _ _ _ T) as (r & I & _ & E & H & _).
    rewrite E. apply NC; [exact I|]. unfold hash_of in H. congruence.
Qed.

(** ** The summary kept by a log *)
Context (standard name resource transition : nat).
Notation info := (log_info hk hs standard name resource transition).

Lemma changes_keep h : forall w, rw_cache (fold_left change h w) = rw_cache w /\ rw_infos (fold_left change h w) = rw_infos w.
Proof. induction h as [|[[r n] ks] h IH]; intros w; cbn [fold_left]; [auto|]. destruct (IH (change w (r, n, ks))) as [-> ->]. auto. Qed.

Lemma find_app {X} (f : X -> bool) l m : find f (l ++ m) = match find f l with Some x => Some x | None => find f m end.
Proof. induction l as [|x l IH]; cbn; [reflexivity|]. now destruct (f x). Qed.
Lemma changes_last h : forall w r, rw_cl (fold_left change h w) r = at_last h r (rw_cl w r).
Proof.
  induction h as [|[[k n] ks] h IH]; intros w r; cbn [fold_left]; [reflexivity|]. rewrite IH. unfold at_last.
  cbn [rev]. rewrite find_app. destruct (find _ (rev h)) as [[[k' n'] ks']|]; [reflexivity|].
  cbn. unfold changed. rewrite (Nat.eqb_sym k r). now destruct (Nat.eqb r k).
Qed.

Lemma info_cached q w h : rw_cache w = None ->
  let w1 := fst (info (Some q) w) in let i := snd (info (Some q) w) in
  let w2 := fold_left change h w1 in
  (forall r, rw_cl w2 r = at_last h r (rw_cl w r))
  /\ info (Some q) w2 = (w2, i)
  /\ (default_classes hk hs w2 i = None <->
      forall r, first_of (rw_cl w) [q; name; resource; transition] r -> hash (rw_cl w) r = hash (rw_cl w2) q ->
                r <> q /\ rw_cl w2 r <> rw_cl w2 q).
Proof.
  intros C w1 i w2. assert (W1 : w1 = mk_rw (rw_cl w) (Some (q, i)) (rw_infos w ++ [(q, dict (rw_cl w) [q; name; resource; transition])])).
  { unfold w1, i, log_info. now rewrite C. }
  assert (I : i = List.length (rw_infos w)) by (unfold i, log_info; now rewrite C).
  destruct (changes_keep h w1) as [K1 K2]. fold w2 in K1, K2. rewrite W1 in K1, K2. cbn in K1, K2. split; [|split].
  - intros r. unfold w2. rewrite changes_last. now rewrite W1.
  - unfold log_info. rewrite K1. now rewrite (proj2 (cl_eqb_eq _ _) eq_refl).
  - unfold default_classes. rewrite K2, I, nth_error_app2, Nat.sub_diag by lia. cbn [nth_error].
    pose proof (answered (rw_cl w) (rw_cl w2) [q; name; resource; transition] q) as A. set (x := classes_of _ _ _ _ _) in *.
    split.
    + intros X r F E. split; intros Q; destruct (proj2 A) as [t T]; try congruence; eauto.
    + intros N. destruct x as [t|]; [|reflexivity]. exfalso. destruct (proj1 A (ex_intro _ t eq_refl)) as (r & F & E & [Q | Q]);
        destruct (N r F E); contradiction.
Qed.
End Facts.
