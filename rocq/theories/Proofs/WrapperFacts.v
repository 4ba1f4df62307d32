(** Wrappers refine plain names. *)
From Coq Require Import Arith NArith List Bool Lia.
From Verif Require Proofs.CloneMain.
From Verif Require Import Base.PyBase Base.PyVal Model.Attr Model.StdExt Model.Wrapper Spec.Wrapper Spec.Ids Proofs.BaseFacts Proofs.IdFacts.
Import ListNotations.

Lemma nth_update {A} (f : A -> A) l i j : nth_error (update i f l) j =
  if Nat.eqb i j then option_map f (nth_error l j) else nth_error l j.
Proof.
  revert i j. induction l as [|x l IH]; intros [|i] [|j]; cbn; auto; try now destruct (Nat.eqb _ _).
Qed.
Lemma nth_error_ext' {A} (l l' : list A) : (forall i, nth_error l i = nth_error l' i) -> l = l'.
Proof.
  revert l'. induction l as [|x l IH]; intros [|y l'] H; auto.
  - specialize (H 0). discriminate.
  - specialize (H 0). discriminate.
  - pose proof (H 0) as H0. cbn in H0. injection H0 as ->. f_equal. apply IH. intros i. apply (H (S i)).
Qed.

Section Facts.
Context `{C : Clock} (draw : nat -> N).

(** Every event has a map of its own that exists; wrappers stand for events that exist. *)
Definition w_ok (w : world) (s : simple) : Prop :=
  NoDup (map snd (w_events w)) /\ Forall (fun p => snd p < List.length (w_maps w)) (w_events w)
  /\ (forall e, event_map w e = nth_error (s_events s) e)
  /\ map snd (w_wraps w) = s_names s
  /\ Forall (fun e => e < List.length (w_events w)) (s_names s)
  /\ List.length (s_events s) = List.length (w_events w)
  /\ own_draws draw (w_drawn w) (map fst (w_wraps w) ++ map fst (w_events w)).

Lemma map_exists w s e : w_ok w s -> e < List.length (w_events w) ->
  exists i m d, nth_error (w_events w) e = Some (i, m) /\ nth_error (w_maps w) m = Some d /\ nth_error (s_events s) e = Some d.
Proof.
  intros (_ & B & E & _) L. apply nth_error_Some in L. destruct (nth_error (w_events w) e) as [[i m]|] eqn:H; [|easy].
  rewrite Forall_forall in B. specialize (B _ (nth_error_In _ _ H)). cbn in B. apply nth_error_Some in B.
  destruct (nth_error (w_maps w) m) as [d|] eqn:M; [|easy]. exists i, m, d. split; [easy|]. split; [easy|].
  rewrite <- E. unfold event_map. now rewrite H.
Qed.

Lemma no_event w s e : w_ok w s -> ~ e < List.length (w_events w) ->
  nth_error (w_events w) e = None /\ nth_error (s_events s) e = None.
Proof.
  intros (_ & _ & _ & _ & _ & L & _) N. split; apply nth_error_None; lia.
Qed.

Lemma update_none {A} (f : A -> A) l i : nth_error l i = None -> update i f l = l.
Proof.
  intros H. apply nth_error_ext'. intros j. rewrite nth_update. destruct (Nat.eqb_spec i j) as [->|]; [now rewrite H|easy].
Qed.
Lemma update_id {A} (f : A -> A) l i x : nth_error l i = Some x -> f x = x -> update i f l = l.
Proof.
  intros H F. apply nth_error_ext'. intros j. rewrite nth_update.
  destruct (Nat.eqb_spec i j) as [->|]; [rewrite H; cbn; now rewrite F|easy].
Qed.
Lemma update_const {A} (f : A -> A) l i x : nth_error l i = Some x -> update i f l = update i (fun _ => f x) l.
Proof.
  intros H. apply nth_error_ext'. intros j. rewrite !nth_update.
  destruct (Nat.eqb_spec i j) as [->|]; [now rewrite H|easy].
Qed.

Lemma own_map w s a b i j m : w_ok w s -> nth_error (w_events w) a = Some (i, m) -> nth_error (w_events w) b = Some (j, m) -> a = b.
Proof.
  intros (D & _) A B. apply (map_nth_error snd) in A. apply (map_nth_error snd) in B. cbn in A, B.
  apply (proj1 (NoDup_nth_error _) D a b); [|congruence]. apply nth_error_Some. congruence.
Qed.

Lemma change_ok f e w s : w_ok w s -> w_ok (change_event f e w) (s_change f e s).
Proof.
  intros K. unfold change_event. destruct (lt_dec e (List.length (w_events w))) as [L|L].
  - destruct (map_exists w s e K L) as (i & m & d & He & Hm & Hs). rewrite He, Hm.
    unfold s_change. rewrite (update_const _ _ _ _ Hs). destruct (f d) as [d'|x] eqn:F.
    + pose proof K as K0. destruct K as (D & B & E & N & Bn & Len & O).
      unfold w_ok. cbn [w_maps w_events w_wraps w_drawn s_events s_names]. rewrite !update_length'.
      repeat (split; [easy|]). split; [|easy]. intros e'. unfold event_map. cbn [w_maps w_events].
      rewrite nth_update. specialize (E e'). unfold event_map in E.
      destruct (nth_error (w_events w) e') as [[i' m']|] eqn:He'.
      * rewrite nth_update. destruct (Nat.eqb_spec e e') as [<-|Ne].
        { rewrite He in He'. injection He' as <- <-. rewrite Nat.eqb_refl, Hm, Hs. reflexivity. }
        { destruct (Nat.eqb_spec m m') as [<-|]; [|easy]. exfalso. apply Ne. eapply own_map; eauto. }
      * rewrite <- E. now destruct (Nat.eqb e e').
    + rewrite (update_id (fun _ => d) _ _ _ Hs eq_refl). now destruct s.
  - destruct (no_event w s e K L) as [He Hs]. rewrite He. unfold s_change. rewrite (update_none _ _ _ Hs). now destruct s.
Qed.

Lemma app_nth_last {A} (l : list A) x : nth_error (l ++ [x]) (List.length l) = Some x.
Proof. rewrite nth_error_app2, Nat.sub_diag; auto. Qed.

Lemma add_event w s d i : w_ok w s -> forall n wr,
  Forall (fun e => e < S (List.length (w_events w))) (map snd wr) ->
  own_draws draw n (map fst wr ++ map fst (w_events w) ++ [i]) ->
  w_ok (mk_w (w_maps w ++ [d]) (w_events w ++ [(i, List.length (w_maps w))]) wr n)
       (mk_s (s_events s ++ [d]) (map snd wr)).
Proof.
  intros (D & B & E & _ & _ & Len & _) n wr Bw O.
  unfold w_ok. cbn [w_maps w_events w_wraps w_drawn s_events s_names]. rewrite !map_app, !app_length. cbn [map fst snd List.length].
  split; [|split; [|split; [|split; [|split; [|split]]]]]; auto.
  - apply NoDup_app_make; auto; [constructor; [easy|constructor]|]. intros m M [<-|[]].
    apply in_map_iff in M as (p & P & I). rewrite Forall_forall in B. specialize (B p I). lia.
  - apply Forall_app. split; [|constructor; [cbn; lia|constructor]]. eapply Forall_impl; [|exact B]. cbn. lia.
  - intros e. unfold event_map. cbn [w_maps w_events]. specialize (E e). unfold event_map in E.
    destruct (lt_eq_lt_dec e (List.length (w_events w))) as [[L|L]|L].
    + rewrite nth_error_app1 by easy. rewrite (nth_error_app1 (s_events s)) by lia. rewrite <- E.
      destruct (nth_error (w_events w) e) as [[j m]|] eqn:H; [|easy]. apply nth_error_app1.
      rewrite Forall_forall in B. apply (B _ (nth_error_In _ _ H)).
    + subst e. rewrite !app_nth_last, <- Len. now rewrite app_nth_last.
    + rewrite !(proj2 (nth_error_None _ _)); rewrite ?app_length; cbn; auto; lia.
  - rewrite Nat.add_1_r. exact Bw.
Qed.

Lemma own_draws_perm n l l' : (exists a b c, l = a ++ b ++ c /\ l' = a ++ c ++ b) -> own_draws draw n l -> own_draws draw n l'.
Proof.
  intros (a & b & c & -> & ->) (ks & D & B & E). symmetry in E.
  apply map_eq_app in E as (ka & kbc & -> & <- & E). apply map_eq_app in E as (kb & kc & -> & <- & <-).
  exists (ka ++ kc ++ kb). rewrite !map_app. split; [|split; [|easy]].
  - destruct (NoDup_app_parts _ _ D) as (Da & Dbc & X). destruct (NoDup_app_parts _ _ Dbc) as (Db & Dc & Y).
    apply NoDup_app_make; auto.
    + apply NoDup_app_make; auto. intros x I J. now apply (Y x).
    + intros x I J. apply (X x I). rewrite in_app_iff in *. tauto.
  - rewrite !Forall_app in *. tauto.
Qed.

Lemma own_draws_more n n' l : n <= n' -> own_draws draw n l -> own_draws draw n' l.
Proof. intros H (ks & D & B & E). exists ks. repeat split; auto. eapply Forall_impl; [|exact B]. cbn. lia. Qed.

Lemma wrapper_event w s k a e : w_ok w s -> nth_error (w_wraps w) k = Some (a, e) ->
  nth_error (s_names s) k = Some e /\ e < List.length (w_events w).
Proof.
  intros (_ & _ & _ & N & B & _) H. apply (map_nth_error snd) in H. rewrite N in H. split; [exact H|].
  rewrite Forall_forall in B. apply B. apply (nth_error_In _ _ H).
Qed.
Lemma wrapper_none w s k : w_ok w s -> nth_error (w_wraps w) k = None -> nth_error (s_names s) k = None.
Proof.
  intros (_ & _ & _ & N & _) H. rewrite <- N. apply nth_error_None. rewrite map_length. now apply nth_error_None.
Qed.

Lemma step_ok w s o : w_ok w s -> w_ok (w_step draw w o) (s_step s o).
Proof.
  intros K. pose proof K as (D & B & E & N & Bn & Len & O). destruct o as [|e|k c|e c|k d|k]; cbn [w_step s_step].
  - rewrite <- N. apply add_event; auto.
    + rewrite N. eapply Forall_impl; [|exact Bn]. cbn. lia.
    + rewrite app_assoc. now apply own_draws_new.
  - unfold wrap. destruct (Nat.ltb_spec e (List.length (s_events s))) as [L|L].
    + destruct (map_exists w s e K ltac:(lia)) as (i & m & d & He & _). rewrite He.
      unfold w_ok. cbn [w_maps w_events w_wraps w_drawn s_events s_names]. rewrite !map_app, N. cbn [map fst snd].
      repeat (split; [easy|]). split; [apply Forall_app; split; [easy|constructor; [lia|constructor]]|]. split; [easy|].
      apply own_draws_new in O. eapply own_draws_perm; [|exact O].
      exists (map fst (w_wraps w)), (map fst (w_events w)), [draw (w_drawn w)]. now rewrite <- !app_assoc.
    + rewrite (proj2 (nth_error_None _ _)) by lia. exact K.
  - destruct (nth_error (w_wraps w) k) as [[a e]|] eqn:H.
    + destruct (wrapper_event w s k a e K H) as [-> _]. now apply change_ok.
    + rewrite (wrapper_none w s k K H). exact K.
  - now apply change_ok.
  - destruct (nth_error (w_wraps w) k) as [[a e]|] eqn:H.
    2:{ rewrite (wrapper_none w s k K H). exact K. }
    destruct (wrapper_event w s k a e K H) as [-> L]. destruct (map_exists w s e K L) as (i & m & d0 & He & Hm & Hs).
    unfold w_ok, s_change. cbn [w_maps w_events w_wraps w_drawn s_events s_names].
    rewrite !app_length, !update_length'. cbn [List.length].
    assert (forall j, nth_error (update e (fun p => (fst p, List.length (w_maps w))) (w_events w)) j =
      if Nat.eqb e j then Some (i, List.length (w_maps w)) else nth_error (w_events w) j) as U.
    { intros j. rewrite nth_update. destruct (Nat.eqb_spec e j) as [<-|]; [now rewrite He|easy]. }
    split; [|split; [|split; [|split; [|split; [|split]]]]]; auto.
    + apply NoDup_nth_error. intros x y X H'. rewrite !nth_error_map, !U in H'.
      rewrite map_length, update_length' in X. apply nth_error_Some in X.
      destruct (Nat.eqb_spec e x) as [<-|Nx], (Nat.eqb_spec e y) as [<-|Ny]; auto.
      * destruct (nth_error (w_events w) y) as [[j q]|] eqn:Hy; [|discriminate]. cbn in H'. injection H' as <-.
        rewrite Forall_forall in B. specialize (B _ (nth_error_In _ _ Hy)). cbn in B. lia.
      * destruct (nth_error (w_events w) x) as [[j q]|] eqn:Hx; [|discriminate]. cbn in H'. injection H' as ->.
        rewrite Forall_forall in B. specialize (B _ (nth_error_In _ _ Hx)). cbn in B. lia.
      * apply (proj1 (NoDup_nth_error _) D x y); [now rewrite map_length; apply nth_error_Some|]. now rewrite !nth_error_map.
    + apply Forall_forall. intros p P. apply In_nth_error in P as [j P]. rewrite U in P.
      destruct (Nat.eqb e j); [injection P as <-; cbn; lia|].
      rewrite Forall_forall in B. specialize (B _ (nth_error_In _ _ P)). lia.
    + intros j. unfold event_map. cbn [w_maps w_events]. rewrite U, nth_update. specialize (E j). unfold event_map in E.
      destruct (Nat.eqb_spec e j) as [<-|Nj].
      * rewrite app_nth_last, Hs. reflexivity.
      * rewrite <- E. destruct (nth_error (w_events w) j) as [[q r]|] eqn:Hj; [|easy]. apply nth_error_app1.
        rewrite Forall_forall in B. apply (B _ (nth_error_In _ _ Hj)).
    + replace (map fst (update e (fun p => (fst p, List.length (w_maps w))) (w_events w))) with (map fst (w_events w)); [easy|].
      apply nth_error_ext'. intros j. rewrite !nth_error_map, U. destruct (Nat.eqb_spec e j) as [<-|]; [now rewrite He|easy].
  - destruct (nth_error (w_wraps w) k) as [[a e]|] eqn:H.
    2:{ rewrite (wrapper_none w s k K H). exact K. }
    destruct (wrapper_event w s k a e K H) as [-> L]. destruct (map_exists w s e K L) as (i & m & d & He & Hm & Hs).
    rewrite Hs. unfold copy_event, event_map. rewrite He, Hm. cbn [w_maps w_events w_wraps w_drawn].
    rewrite <- N. rewrite Len. replace (map snd (w_wraps w) ++ [List.length (w_events w)])
      with (map snd (w_wraps w ++ [(draw (S (S (S (w_drawn w)))), List.length (w_events w))])) by (now rewrite map_app).
    apply add_event; auto.
    + rewrite map_app, N. apply Forall_app. split; [eapply Forall_impl; [|exact Bn]; cbn; lia | constructor; [cbn; lia|constructor]].
    + rewrite map_app. cbn [map fst].
      apply (own_draws_more _ (S (w_drawn w))) in O; [|lia]. apply own_draws_new in O.
      apply (own_draws_more _ (S (S (S (w_drawn w))))) in O; [|lia]. apply own_draws_new in O.
      eapply own_draws_perm; [|exact O].
      exists (map fst (w_wraps w)), (map fst (w_events w) ++ [draw (S (w_drawn w))]), [draw (S (S (S (w_drawn w))))].
      now rewrite <- !app_assoc.
Qed.

Lemma run_refines ops : w_ok (w_run draw ops) (s_run ops).
Proof.
  unfold w_run, s_run. assert (w_ok w_init (mk_s [] [])) as K.
  { split; [constructor|]. split; [constructor|]. split; [now intros []|]. split; [easy|]. split; [constructor|]. split; [easy|].
    exists []. repeat split; constructor. }
  revert K. generalize w_init, (mk_s [] []). induction ops as [|o ops IH]; cbn; intros w s K; [easy|]. now apply IH, step_ok.
Qed.

Theorem wrappers_refine ops :
  (forall k, wrapper_map (w_run draw ops) k = s_map (s_run ops) k)
  /\ (forall e, event_map (w_run draw ops) e = nth_error (s_events (s_run ops)) e)
  /\ map snd (w_wraps (w_run draw ops)) = s_names (s_run ops).
Proof.
  pose proof (run_refines ops) as (_ & _ & E & N & _). split; [|split; [exact E|exact N]].
  intros k. unfold wrapper_map, s_map. rewrite <- N, nth_error_map.
  destruct (nth_error (w_wraps (w_run draw ops)) k) as [[a e]|]; cbn; [apply E|easy].
Qed.

Theorem wrapper_ids ops j k : (forall a b, draw a = draw b -> a = b) ->
  j < List.length (w_wraps (w_run draw ops)) -> wrapper_eq (w_run draw ops) j k = true <-> j = k.
Proof.
  intros I L. pose proof (run_refines ops) as (_ & _ & _ & _ & _ & _ & O). apply (own_draws_nodup _ _ _ I) in O.
  destruct (NoDup_app_parts _ _ O) as (D & _ & _). unfold wrapper_eq. set (w := w_run draw ops) in *.
  pose proof L as L0. apply nth_error_Some in L. destruct (nth_error (w_wraps w) j) as [[a e]|] eqn:J; [|easy]. split.
  - destruct (nth_error (w_wraps w) k) as [[b e']|] eqn:Q; [|discriminate]. intros H. apply N.eqb_eq in H. subst b.
    apply (proj1 (NoDup_nth_error _) D j k); [now rewrite map_length|]. now rewrite !nth_error_map, J, Q.
  - intros <-. rewrite J. apply N.eqb_refl.
Qed.

Theorem wrapper_event_ids ops k e i m a b : (forall a b, draw a = draw b -> a = b) ->
  nth_error (w_wraps (w_run draw ops)) k = Some (a, b) -> nth_error (w_events (w_run draw ops)) e = Some (i, m) -> a <> i.
Proof.
  intros I A B ->. pose proof (run_refines ops) as (_ & _ & _ & _ & _ & _ & O). apply (own_draws_nodup _ _ _ I) in O.
  destruct (NoDup_app_parts _ _ O) as (_ & _ & X). apply (X i).
  - apply (map_nth_error fst) in A. apply (nth_error_In _ _ A).
  - apply (map_nth_error fst) in B. apply (nth_error_In _ _ B).
Qed.

(** One more setter call. *)
Theorem setter_visible ops j c d d' k : wrapper_map (w_run draw ops) j = Some d -> wrapper_set c d = Ok d' ->
  wrapper_map (w_step draw (w_run draw ops) (OCall j c)) k =
  if match nth_error (s_names (s_run ops)) j, nth_error (s_names (s_run ops)) k with
     | Some a, Some b => Nat.eqb a b | _, _ => false end
  then Some d' else wrapper_map (w_run draw ops) k.
Proof.
  intros M F. destruct (wrappers_refine ops) as (A & _ & _). destruct (wrappers_refine (ops ++ [OCall j c])) as (B & _ & _).
  unfold w_run, s_run in B. rewrite !fold_left_app in B. cbn [fold_left] in B. fold (w_run draw ops) in B. fold (s_run ops) in B.
  rewrite B, A. rewrite A in M. unfold s_map in *. cbn [s_step]. destruct (nth_error (s_names (s_run ops)) j) as [e|]; [|discriminate].
  unfold s_change. cbn [s_names s_events]. destruct (nth_error (s_names (s_run ops)) k) as [e'|]; [|easy].
  rewrite nth_update. destruct (Nat.eqb_spec e e') as [<-|]; [|easy]. rewrite M. cbn. now rewrite F.
Qed.

Lemma run_snoc ops o : w_run draw (ops ++ [o]) = w_step draw (w_run draw ops) o.
Proof. unfold w_run. now rewrite fold_left_app. Qed.
Lemma s_run_snoc ops o : s_run (ops ++ [o]) = s_step (s_run ops) o.
Proof. unfold s_run. now rewrite fold_left_app. Qed.

(** A clone. *)
Theorem clone_apart ops k d : wrapper_map (w_run draw ops) k = Some d ->
  let j := List.length (w_wraps (w_run draw ops)) in
  let after more := wrapper_map (w_run draw (ops ++ OClone k :: more)) in
  after [] j = Some d /\ after [] k = Some d
  /\ (forall c, after [OCall j c] k = Some d /\ after [OCall k c] j = Some d)
  /\ (forall d', after [OReplace j d'] k = Some d /\ after [OReplace k d'] j = Some d).
Proof.
  intros M. cbv zeta. destruct (wrappers_refine ops) as (A & _ & N). rewrite A in M.
  assert (List.length (w_wraps (w_run draw ops)) = List.length (s_names (s_run ops))) as -> by (now rewrite <- N, map_length).
  unfold s_map in M. destruct (nth_error (s_names (s_run ops)) k) as [e|] eqn:He; [|discriminate].
  assert (s_run (ops ++ [OClone k]) =
    mk_s (s_events (s_run ops) ++ [d]) (s_names (s_run ops) ++ [List.length (s_events (s_run ops))])) as R.
  { rewrite s_run_snoc. cbn [s_step]. now rewrite He, M. }
  assert (nth_error (s_names (s_run ops) ++ [List.length (s_events (s_run ops))]) k = Some e) as He'.
  { rewrite nth_error_app1; [easy|]. apply nth_error_Some. congruence. }
  assert (e < List.length (s_events (s_run ops))) as L by (apply nth_error_Some; congruence).
  assert (nth_error (s_events (s_run ops) ++ [d]) e = Some d) as M' by (now rewrite nth_error_app1).
  assert (forall o x, wrapper_map (w_run draw (ops ++ [OClone k; o])) x = s_map (s_step (s_run (ops ++ [OClone k])) o) x) as S2.
  { intros o x. destruct (wrappers_refine (ops ++ [OClone k; o])) as (Q & _). rewrite Q, <- s_run_snoc, <- app_assoc. reflexivity. }
  split; [|split; [|split]].
  1,2: destruct (wrappers_refine (ops ++ [OClone k])) as (Q & _); rewrite Q, R; unfold s_map; cbn [s_events s_names];
    rewrite ?app_nth_last, ?He', ?M'; try easy; now rewrite app_nth_last.
  - intros c. rewrite !S2, R. cbn [s_step s_names]. rewrite app_nth_last, He'. unfold s_map, s_change.
    cbn [s_events s_names]. rewrite He', app_nth_last, !nth_update. split.
    + destruct (Nat.eqb_spec (List.length (s_events (s_run ops))) e); [lia|exact M'].
    + destruct (Nat.eqb_spec e (List.length (s_events (s_run ops)))); [lia|apply app_nth_last].
  - intros d'. rewrite !S2, R. cbn [s_step s_names]. rewrite app_nth_last, He'. unfold s_map, s_change.
    cbn [s_events s_names]. rewrite He', app_nth_last, !nth_update. split.
    + destruct (Nat.eqb_spec (List.length (s_events (s_run ops))) e); [lia|exact M'].
    + destruct (Nat.eqb_spec e (List.length (s_events (s_run ops)))); [lia|apply app_nth_last].
Qed.
End Facts.

Lemma wrapper_asked (C : Clock) draw ops k d : s_map (s_run ops) k = Some d ->
  (wrapper_has (w_run draw ops) k = Some true <-> exists key a, sget key d = Some a)
  /\ wrapper_extensions (w_run draw ops) k = Some (Ok []).
Proof.
  intros H. destruct (wrappers_refine draw ops) as [W _]. unfold wrapper_has, wrapper_extensions. rewrite W, H. cbn [option_map]. split.
  - destruct d as [|[key a] d]; split; [discriminate|intros (key & a & X); discriminate X| |reflexivity].
    intros _. exists key, a. unfold sget. cbn. now rewrite str_eqb_refl.
  - now rewrite CloneMain.map_get_extensions_nil.
Qed.
