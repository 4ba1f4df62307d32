(** Identifiers as objects. *)
From Coq Require Import NArith ZArith List Bool PeanoNat Lia.
From Verif Require Import Base.PyBase Base.PyVal Model.XidObjects Spec.XidObjects Proofs.BaseFacts Proofs.WrapperFacts.
Import ListNotations.

Section Draw.
Context (draw : nat -> N).
Local Notation step := (id_step draw).
Local Notation run := (id_run draw).

Lemma nth_app {A} (l r : list A) i x : nth_error l i = Some x -> nth_error (l ++ r) i = Some x.
Proof. intros H. rewrite nth_error_app1; [exact H|]. apply nth_error_Some. congruence. Qed.
Lemma nth_new {A} (l : list A) x : nth_error (l ++ [x]) (List.length l) = Some x.
Proof. rewrite nth_error_app2, Nat.sub_diag by lia. reflexivity. Qed.
Lemma nth_set {A} (l : list A) i j x y : nth_error l j = Some x ->
  nth_error (update i (fun _ => y) l) j = Some (if Nat.eqb i j then y else x).
Proof. intros H. rewrite nth_update, H. now destruct (Nat.eqb i j). Qed.

(** One call on existing objects. *)
Lemma step_uuid s c s' r u : step s c = Ok s' -> uuid_at s r = Some u ->
  uuid_at s' r = Some (match gives_uuid r c with Some v => v | None => u end).
Proof.
  unfold uuid_at. intros E H.
  destruct c as [[v|]|t|q|q v|[q|]|e|e q|q|a|a q]; cbn in E |- *;
    try (injection E as <-; cbn; first [exact H|now apply nth_app|rewrite (nth_set _ _ _ _ _ H); now destruct (Nat.eqb q r)]).
  - destruct (uuid_of_str t); [|discriminate]. injection E as <-. cbn. now apply nth_app.
  - injection E as <-. unfold clone_xid, new_xid. destruct (nth_error (i_uuid s) q); cbn; now apply nth_app.
  - injection E as <-. cbn. now apply nth_app, nth_app.
  - injection E as <-. unfold clone_attr. destruct (nth_error (i_attr s) a) as [q|]; [|exact H].
    unfold clone_xid, new_xid. destruct (nth_error (i_uuid s) q); cbn; now apply nth_app.
Qed.
Lemma step_event s c s' e r : step s c = Ok s' -> event_xid s e = Some r ->
  event_xid s' e = Some (match gives_event_id e c with Some q => q | None => r end).
Proof.
  unfold event_xid. intros E H.
  destruct c as [[v|]|t|q|q v|[q|]|f|f q|q|a|a q]; cbn in E |- *;
    try (injection E as <-; cbn; first [exact H|now apply nth_app|rewrite (nth_set _ _ _ _ _ H); now destruct (Nat.eqb f e)]).
  - destruct (uuid_of_str t); [|discriminate]. injection E as <-. exact H.
  - injection E as <-. unfold clone_xid, new_xid. destruct (nth_error (i_uuid s) q); exact H.
  - injection E as <-. cbn. rewrite (nth_set _ _ _ r) by now apply nth_app.
    destruct (Nat.eqb_spec (List.length (i_event s)) e) as [<-|D]; [|reflexivity].
    exfalso. assert (X : List.length (i_event s) < List.length (i_event s)) by (apply nth_error_Some; congruence). lia.
  - injection E as <-. unfold clone_attr. destruct (nth_error (i_attr s) a) as [q|]; [|exact H].
    unfold clone_xid, new_xid. destruct (nth_error (i_uuid s) q); exact H.
Qed.
Lemma step_attr s c s' a r : step s c = Ok s' -> attr_xid s a = Some r ->
  attr_xid s' a = Some (match gives_attr_id a c with Some q => q | None => r end).
Proof.
  unfold attr_xid. intros E H.
  destruct c as [[v|]|t|q|q v|[q|]|f|f q|q|b|b q]; cbn in E |- *;
    try (injection E as <-; cbn; first [exact H|now apply nth_app|rewrite (nth_set _ _ _ _ _ H); now destruct (Nat.eqb b a)]).
  - destruct (uuid_of_str t); [|discriminate]. injection E as <-. exact H.
  - injection E as <-. unfold clone_xid, new_xid. destruct (nth_error (i_uuid s) q); exact H.
  - injection E as <-. unfold clone_attr. destruct (nth_error (i_attr s) b) as [q|]; [|exact H].
    unfold clone_xid, new_xid. destruct (nth_error (i_uuid s) q); cbn; now apply nth_app.
Qed.

(** Programs on existing objects. *)
Lemma run_cons c h s s' : run (c :: h) s = Ok s' -> exists s1, step s c = Ok s1 /\ run h s1 = Ok s'.
Proof. unfold id_run. cbn. destruct (step s c) as [s1|]; [|discriminate]. intros H. exists s1. auto. Qed.
Theorem run_uuid h : forall s s' r u, run h s = Ok s' -> uuid_at s r = Some u ->
  uuid_at s' r = Some (last_given (gives_uuid r) h u).
Proof.
  induction h as [|c h IH]; intros s s' r u E H; [cbn in E; injection E as <-; exact H|].
  apply run_cons in E. destruct E as (s1 & E1 & E2). exact (IH _ _ _ _ E2 (step_uuid _ _ _ _ _ E1 H)).
Qed.
Theorem run_event h : forall s s' e r, run h s = Ok s' -> event_xid s e = Some r ->
  event_xid s' e = Some (last_given (gives_event_id e) h r).
Proof.
  induction h as [|c h IH]; intros s s' r u E H; [cbn in E; injection E as <-; exact H|].
  apply run_cons in E. destruct E as (s1 & E1 & E2). exact (IH _ _ _ _ E2 (step_event _ _ _ _ _ E1 H)).
Qed.
Theorem run_attr h : forall s s' a r, run h s = Ok s' -> attr_xid s a = Some r ->
  attr_xid s' a = Some (last_given (gives_attr_id a) h r).
Proof.
  induction h as [|c h IH]; intros s s' r u E H; [cbn in E; injection E as <-; exact H|].
  apply run_cons in E. destruct E as (s1 & E1 & E2). exact (IH _ _ _ _ E2 (step_attr _ _ _ _ _ E1 H)).
Qed.

(** Programs that name existing objects. *)
Definition fits (s : ids) : Prop :=
  Forall (fun r => r < List.length (i_uuid s)) (i_event s) /\ Forall (fun r => r < List.length (i_uuid s)) (i_attr s).
Lemma fits_more (l : list nat) n m : n <= m -> Forall (fun r => r < n) l -> Forall (fun r => r < m) l.
Proof. intros L. apply Forall_impl. intros. lia. Qed.
Lemma Forall_set {A} (P : A -> Prop) l i x : P x -> Forall P l -> Forall P (update i (fun _ => x) l).
Proof. intros Px H. revert i. induction H as [|y l Py H IH]; intros [|i]; cbn; constructor; auto. Qed.
Lemma Forall_snoc {A} (P : A -> Prop) l x : Forall P l -> P x -> Forall P (l ++ [x]).
Proof. intros H Px. apply Forall_app. auto. Qed.

Lemma step_fits s c s' : fits s -> exists_in s c -> step s c = Ok s' -> fits s'.
Proof.
  intros [F G] X E.
  destruct c as [[v|]|t|q|q v|[q|]|f|f q|q|b|b q]; cbn in E, X.
  all: try (injection E as <-; unfold fits; cbn; rewrite ?app_length, ?update_length; cbn;
    split; try (eapply fits_more; [|eassumption]; lia);
    first [apply Forall_snoc; [eapply fits_more; [|eassumption]; lia|lia]
          |apply Forall_set; [tauto|eapply fits_more; [|eassumption]; lia]]; fail).
  - destruct (uuid_of_str t); [|discriminate]. injection E as <-. unfold fits. cbn. rewrite app_length. cbn.
    split; (eapply fits_more; [|eassumption]; lia).
  - injection E as <-. unfold clone_xid, new_xid. destruct (nth_error (i_uuid s) q); unfold fits; cbn; rewrite app_length; cbn;
      (split; (eapply fits_more; [|eassumption]; lia)).
  - injection E as <-. unfold fits. cbn. rewrite !app_length. cbn. split; [|eapply fits_more; [|eassumption]; lia].
    apply Forall_set; [lia|]. apply Forall_snoc; [eapply fits_more; [|eassumption]; lia|lia].
  - injection E as <-. unfold clone_attr. destruct (nth_error (i_attr s) b) as [q|]; [|split; assumption].
    unfold clone_xid, new_xid. destruct (nth_error (i_uuid s) q); unfold fits; cbn; rewrite app_length; cbn;
      (split; [eapply fits_more; [|eassumption]; lia|apply Forall_snoc; [eapply fits_more; [|eassumption]; lia|lia]]).
Qed.
Lemma program_fits h s : program draw h s -> fits s.
Proof. induction 1 as [|h s c s' P IH X E]; [split; constructor|]. exact (step_fits _ _ _ IH X E). Qed.
Lemma nth_lt {A} (P : A -> Prop) l i x : Forall P l -> nth_error l i = Some x -> P x.
Proof. intros F H. rewrite Forall_forall in F. exact (F _ (nth_error_In _ _ H)). Qed.
Lemma program_holds h s : program draw h s ->
  (forall e, e < List.length (i_event s) -> exists u, event_uuid s e = Some u)
  /\ (forall a, a < List.length (i_attr s) -> exists u, attr_uuid s a = Some u).
Proof.
  intros P. destruct (program_fits _ _ P) as [F G].
  assert (X : forall l i, Forall (fun r => r < List.length (i_uuid s)) l -> i < List.length l ->
    exists u, match nth_error l i with Some r => uuid_at s r | None => None end = Some u).
  { intros l i H L. destruct (nth_error l i) as [r|] eqn:E; [|apply nth_error_None in E; lia].
    assert (R := nth_lt _ _ _ _ H E). cbn in R. unfold uuid_at. destruct (nth_error (i_uuid s) r) as [u|] eqn:U; [eauto|].
    apply nth_error_None in U. lia. }
  split; intros i L; [exact (X _ _ F L)|exact (X _ _ G L)].
Qed.

(** ** New holders *)
Lemma new_event_own h s : program draw h s -> let s' := new_event draw None s in
  let e := List.length (i_event s) in
  exists r, event_xid s' e = Some r /\ uuid_at s' r = Some (draw (i_drawn s)) /\ held_only s' r (Some e) None.
Proof.
  intros P s' e. destruct (program_fits _ _ P) as [F G]. exists (List.length (i_uuid s)). unfold s', e, event_xid, uuid_at. cbn.
  split; [apply nth_new|]. split; [apply nth_new|]. split.
  - intros f H. cbn in H. unfold event_xid in H. cbn in H. destruct (Nat.lt_ge_cases f (List.length (i_event s))) as [L|L].
    + rewrite nth_error_app1 in H by exact L. assert (X := nth_lt _ _ _ _ F H). cbn in X. lia.
    + assert (f < List.length (i_event s ++ [List.length (i_uuid s)])) by (apply nth_error_Some; congruence).
      rewrite app_length in H0. cbn in H0. f_equal. lia.
  - intros b H. unfold attr_xid in H. cbn in H. assert (X := nth_lt _ _ _ _ G H). cbn in X. lia.
Qed.
Lemma clone_event_own h s : program draw h s -> let s' := clone_event draw s in
  let e := List.length (i_event s) in
  exists r, event_xid s' e = Some r /\ uuid_at s' r = Some (draw (S (i_drawn s))) /\ held_only s' r (Some e) None.
Proof.
  intros P s' e. destruct (program_fits _ _ P) as [F G]. exists (S (List.length (i_uuid s))).
  assert (U : i_uuid s' = (i_uuid s ++ [draw (i_drawn s)]) ++ [draw (S (i_drawn s))]) by reflexivity.
  assert (V : i_event s' = i_event s ++ [S (List.length (i_uuid s))]).
  { unfold s'. cbn. rewrite app_length. cbn. rewrite Nat.add_1_r. clear. induction (i_event s) as [|x l IH]; [reflexivity|]. cbn. now rewrite IH. }
  unfold event_xid, uuid_at, held_only, attr_xid. rewrite U, V. split; [apply nth_new|]. split.
  - replace (S (List.length (i_uuid s))) with (List.length (i_uuid s ++ [draw (i_drawn s)])) by (rewrite app_length; cbn; lia). apply nth_new.
  - split.
    + intros f H. unfold event_xid in H. rewrite V in H. destruct (Nat.lt_ge_cases f (List.length (i_event s))) as [L|L].
      * rewrite nth_error_app1 in H by exact L. assert (X := nth_lt _ _ _ _ F H). cbn in X. lia.
      * assert (Y : f < List.length (i_event s ++ [S (List.length (i_uuid s))])) by (apply nth_error_Some; congruence).
        rewrite app_length in Y. cbn in Y. unfold e. f_equal. lia.
    + intros b H. change (i_attr s') with (i_attr s) in H. assert (X := nth_lt _ _ _ _ G H). cbn in X. lia.
Qed.
Lemma clone_attr_own h s a : program draw h s -> a < List.length (i_attr s) -> let s' := clone_attr draw a s in
  let b := List.length (i_attr s) in
  exists r, attr_xid s' b = Some r /\ uuid_at s' r = attr_uuid s a /\ held_only s' r None (Some b).
Proof.
  intros P A s' b. destruct (program_fits _ _ P) as [F G].
  destruct (proj2 (program_holds _ _ P) a A) as [u U]. exists (List.length (i_uuid s)). rewrite U. unfold attr_uuid, attr_xid in U.
  destruct (nth_error (i_attr s) a) as [q|] eqn:Q; [|discriminate].
  assert (E : s' = mk_ids (i_uuid s ++ [u]) (i_event s) (i_attr s ++ [List.length (i_uuid s)]) (i_drawn s)).
  { unfold s', clone_attr. rewrite Q. unfold clone_xid. unfold uuid_at in U. rewrite U. reflexivity. }
  rewrite E. unfold attr_xid, uuid_at, b. cbn. split; [apply nth_new|]. split; [apply nth_new|]. split.
  - intros f H. unfold event_xid in H. cbn in H. assert (X := nth_lt _ _ _ _ F H). cbn in X. lia.
  - intros c H. unfold attr_xid in H. cbn in H. destruct (Nat.lt_ge_cases c (List.length (i_attr s))) as [L|L].
    + rewrite nth_error_app1 in H by exact L. assert (X := nth_lt _ _ _ _ G H). cbn in X. lia.
    + assert (Y : c < List.length (i_attr s ++ [List.length (i_uuid s)])) by (apply nth_error_Some; congruence).
      rewrite app_length in Y. cbn in Y. f_equal. lia.
Qed.

(** ** Equality *)
Lemma event_eq_refl h s e : program draw h s -> e < List.length (i_event s) -> event_eq s e e = true.
Proof. intros P L. destruct (proj1 (program_holds _ _ P) e L) as [u U]. unfold event_eq. rewrite U. apply N.eqb_refl. Qed.
Lemma shared_equal h s e f r hash : program draw h s -> event_xid s e = Some r -> event_xid s f = Some r ->
  event_eq s e f = true /\ event_hash hash s e = event_hash hash s f.
Proof.
  intros P E F. assert (L : e < List.length (i_event s)) by (apply nth_error_Some; unfold event_xid in E; congruence).
  destruct (proj1 (program_holds _ _ P) e L) as [u U]. unfold event_eq, event_hash.
  assert (V : event_uuid s f = Some u) by (unfold event_uuid in *; rewrite F; rewrite E in U; exact U).
  rewrite U, V. split; [apply N.eqb_refl|reflexivity].
Qed.

Lemma equal_uuids s e f : event_eq s e f = true <-> exists u, event_uuid s e = Some u /\ event_uuid s f = Some u.
Proof.
  unfold event_eq. destruct (event_uuid s e) as [u|], (event_uuid s f) as [v|]; try (split; [discriminate|intros (w & A & B); congruence]).
  rewrite N.eqb_eq. split; [intros ->; eauto|intros (w & A & B); congruence].
Qed.
Lemma equal_hash hash s e f : event_eq s e f = true -> event_hash hash s e = event_hash hash s f.
Proof. rewrite equal_uuids. intros (u & A & B). unfold event_hash. now rewrite A, B. Qed.

(** With draws only, different objects have different uuids. *)
Lemma drawn_uuids h s : program draw h s -> forallb draws_only h = true ->
  i_uuid s = map draw (seq 0 (i_drawn s)).
Proof.
  induction 1 as [|h s c s' P IH X E]; intros D; [reflexivity|].
  rewrite forallb_app in D. apply andb_prop in D. destruct D as [D1 D2]. specialize (IH D1). cbn in D2. rewrite andb_true_r in D2.
  assert (N1 : map draw (seq 0 (i_drawn s)) ++ [draw (i_drawn s)] = map draw (seq 0 (S (i_drawn s)))).
  { rewrite seq_S, map_app. reflexivity. }
  destruct c as [[v|]|t|q|q v|[q|]|f|f q|q|b|b q]; try discriminate D2; cbn in E; injection E as <-;
    cbn [i_uuid i_drawn set_event_id new_event clone_event new_xid create_xid add_event add_attr set_attr_value fst snd]; rewrite ?IH; auto.
  rewrite N1, (seq_S (S (i_drawn s))), map_app. reflexivity.
Qed.
Lemma drawn_equal h s e f : (forall i j, draw i = draw j -> i = j) -> program draw h s -> forallb draws_only h = true ->
  e < List.length (i_event s) -> f < List.length (i_event s) ->
  event_eq s e f = true <-> event_xid s e = event_xid s f.
Proof.
  intros I P D Le Lf. assert (U := drawn_uuids _ _ P D).
  destruct (proj1 (program_holds _ _ P) e Le) as [u Ue]. destruct (proj1 (program_holds _ _ P) f Lf) as [v Uf].
  unfold event_eq. rewrite Ue, Uf. unfold event_uuid in Ue, Uf.
  destruct (event_xid s e) as [r|] eqn:Er; [|discriminate]. destruct (event_xid s f) as [q|] eqn:Eq; [|discriminate].
  unfold uuid_at in Ue, Uf. rewrite U in Ue, Uf.
  assert (Z : forall k n w, nth_error (map draw (seq 0 n)) k = Some w -> w = draw k).
  { intros k n w H. assert (K : k < n) by (rewrite <- (seq_length n 0), <- (map_length draw); apply nth_error_Some; congruence).
    rewrite (map_nth_error draw k (seq 0 n) (d := k)) in H; [congruence|]. rewrite (nth_error_nth' _ 0) by (rewrite seq_length; lia). rewrite seq_nth by lia. reflexivity. }
  apply Z in Ue, Uf. subst u v. rewrite N.eqb_eq. split; [intros H; apply I in H; congruence|intros [= ->]; reflexivity].
Qed.
End Draw.
