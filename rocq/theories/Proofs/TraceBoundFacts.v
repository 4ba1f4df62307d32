(** Facts about the dictionary of trace boundaries. *)
From Coq Require Import ZArith NArith List Bool Arith Lia.
From Verif Require Import Base.PyBase Base.PyDate Base.PyVal Model.Attr Model.Log Model.Classify Model.TimeBounds
  Model.LogInfo Model.TraceBounds Spec.Time Spec.TraceBounds Proofs.TraceFacts Proofs.InfoFacts.
Import ListNotations.

Lemma same_list_ids l : forall m, same_list l m = true <-> map ev_id l = map ev_id m.
Proof.
  induction l as [|x l IH]; intros [|y m]; simpl; split; try discriminate; auto.
  - intros H. apply andb_true_iff in H as [H1 H2]. apply N.eqb_eq in H1. apply IH in H2. congruence.
  - intros [= H1 H2]. rewrite H1, N.eqb_refl. now apply IH.
Qed.

Lemma reg_event_inv aw b l e b' : tb_inv aw b l -> tb_reg b (REvent e) = Ok b' ->
  exists aw', tb_inv aw' b' (l ++ contributed (REvent e)).
Proof.
  intros I T.
  assert (P : plain_stamp (REvent e)).
  { intros a G. unfold tb_reg, tb_register, StdExt.extract_timestamp, StdExt.fetch in T. rewrite G in T. unfold get_value in T.
    destruct (is_collection (a_cls a)); auto. discriminate. }
  assert (K : exists aw', tb_inv aw' b l /\ Forall (fun d => is_aware d = aw') (contributed (REvent e))).
  { unfold tb_reg, tb_register, StdExt.extract_timestamp, StdExt.fetch in T. cbn [contributed].
    destruct (sget _ (ev_attrs e)) as [a|] eqn:G; [|exists aw; split; [exact I|constructor]].
    unfold get_value in T. rewrite (P a G) in T.
    destruct (a_val a) as [| | | | |dd| |]; try (exists aw; split; [exact I|solve [constructor]]).
    unfold tb_register_date in T. destruct I as [F I].
    destruct (tb_first b) as [f|] eqn:B.
    - destruct (tb_last b) as [g|] eqn:Bg; [|contradiction]. destruct I as [[I1 E] L].
      assert (A : is_aware f = aw) by (apply (proj1 (Forall_forall _ l) F); exact I1).
      destruct (dt_cmp dd f) eqn:C; [|discriminate].
      unfold dt_cmp in C. destruct (Bool.eqb (is_aware dd) (is_aware f)) eqn:Q; [|discriminate].
      apply Bool.eqb_prop in Q. exists aw. split.
      + split; [exact F|]. rewrite B, Bg. exact (conj (conj I1 E) L).
      + constructor; [congruence|constructor].
    - destruct (tb_last b) eqn:Bg; [contradiction|]. subst l.
      exists (is_aware dd). split; [split; [constructor|rewrite B, Bg; reflexivity]|]. constructor; [reflexivity|constructor]. }
  destruct K as (aw' & I' & F'). exists aw'.
  destruct (tb_register_inv aw' b l (REvent e) I' P F') as (b2 & R & J).
  apply tb_reg_ok in R. congruence.
Qed.

Lemma trace_bounds_from es : forall aw b l b', tb_inv aw b l ->
  fold_res (fun b e => tb_reg b (REvent e)) es b = Ok b' ->
  exists aw', tb_inv aw' b' (l ++ flat_map (fun e => contributed (REvent e)) es).
Proof.
  induction es as [|e es IH]; cbn [fold_res flat_map]; intros aw b l b' I H.
  - injection H as <-. rewrite app_nil_r. now exists aw.
  - destruct (tb_reg b (REvent e)) as [b1|] eqn:T; [|discriminate].
    destruct (reg_event_inv _ _ _ _ _ I T) as [aw1 I1]. rewrite app_assoc. eapply IH; eauto.
Qed.

Lemma trace_bounds_spans t b : trace_bounds t = Ok b -> spans b t.
Proof.
  intros H. destruct (trace_bounds_from _ false _ [] _ (tb_inv_empty false) H) as [aw [_ I]]. exact I.
Qed.

Section Dict.
Context (c : nat -> trace).

Lemma key_match_ids a b : key_match c a b = true <-> event_ids (c a) = event_ids (c b).
Proof.
  unfold key_match, event_ids. rewrite orb_true_iff, Nat.eqb_eq, same_list_ids.
  split; [intros [->|H]; auto|auto].
Qed.

(** Every entry: its hash was used for a trace with the ids of the key, whose bounds are kept. *)
Definition entry_ok (h : nat -> Z) (ts : list nat) (x : Z * nat * tbounds) : Prop :=
  exists n t, nth_error ts n = Some t /\ h n = fst (fst x)
  /\ event_ids (c t) = event_ids (c (snd (fst x))) /\ trace_bounds (c t) = Ok (snd x).

Lemma tput_in hash t b d x : In x (tput c hash t b d) ->
  In x d \/ fst (fst x) = hash /\ event_ids (c t) = event_ids (c (snd (fst x))) /\ snd x = b.
Proof.
  induction d as [|[[g k] v] d IH]; simpl.
  - intros [<-|[]]. right. auto.
  - destruct (Z.eqb g hash && key_match c k t) eqn:M; simpl.
    + intros [<-|H]; auto. right. apply andb_true_iff in M as [M1 M2]. apply Z.eqb_eq in M1.
      apply key_match_ids in M2. cbn. auto.
    + intros [<-|H]; auto. destruct (IH H); auto.
Qed.

Lemma tput_covers hash t b d : exists x, In x (tput c hash t b d) /\ fst (fst x) = hash
  /\ event_ids (c (snd (fst x))) = event_ids (c t).
Proof.
  induction d as [|[[g k] v] d IH]; simpl.
  - exists (hash, t, b). cbn. auto.
  - destruct (Z.eqb g hash && key_match c k t) eqn:M.
    + apply andb_true_iff in M as [M1 M2]. apply Z.eqb_eq in M1. apply key_match_ids in M2.
      exists (g, k, b). cbn. auto.
    + destruct IH as (x & I & E). exists x. cbn. auto.
Qed.

Lemma tput_keeps hash t b d x : In x d -> exists y, In y (tput c hash t b d) /\ fst y = fst x.
Proof.
  induction d as [|[[g k] v] d IH]; simpl; [tauto|]. intros [<-|H].
  - destruct (Z.eqb g hash && key_match c k t); eexists; (split; [left; reflexivity|reflexivity]).
  - destruct (Z.eqb g hash && key_match c k t); [exists x; cbn; auto|].
    destruct (IH H) as (y & I & E). exists y. cbn. auto.
Qed.

Lemma boundaries_inv h all ts : forall pre d d', all = pre ++ ts ->
  trace_boundaries c h (List.length pre) ts d = Ok d' ->
  (forall x, In x d -> entry_ok h all x) ->
  (forall n t, nth_error pre n = Some t -> exists x, In x d /\ fst (fst x) = h n
     /\ event_ids (c (snd (fst x))) = event_ids (c t)) ->
  (forall x, In x d' -> entry_ok h all x)
  /\ (forall n t, nth_error all n = Some t -> exists x, In x d' /\ fst (fst x) = h n
     /\ event_ids (c (snd (fst x))) = event_ids (c t)).
Proof.
  induction ts as [|t ts IH]; intros pre d d' A H S C; cbn [trace_boundaries] in H.
  - injection H as <-. rewrite app_nil_r in A. subst all. auto.
  - destruct (trace_bounds (c t)) as [b|] eqn:B; [|discriminate]. cbn [bind] in H.
    apply (IH (pre ++ [t]) (tput c (h (List.length pre)) t b d)).
    + rewrite <- app_assoc. exact A.
    + rewrite app_length, Nat.add_1_r. exact H.
    + intros x I. apply tput_in in I as [I|(E1 & E2 & E3)]; auto.
      exists (List.length pre), t. split; [|split; [|split]]; auto.
      * rewrite A, nth_error_app2, Nat.sub_diag; [reflexivity|lia].
      * now rewrite E3.
    + intros n u N'. destruct (Nat.lt_ge_cases n (List.length pre)) as [L|L].
      * rewrite nth_error_app1 in N' by exact L. destruct (C n u N') as (x & I & E1 & E2).
        destruct (tput_keeps (h (List.length pre)) t b d x I) as (y & J & E).
        exists y. rewrite E. auto.
      * rewrite nth_error_app2 in N' by exact L.
        destruct (n - List.length pre) eqn:Z0; cbn in N'; [|destruct n0; discriminate].
        injection N' as <-. assert (n = List.length pre) by lia. subst n.
        apply tput_covers.
Qed.

Lemma boundaries_spec h ts d : trace_boundaries c h 0 ts [] = Ok d ->
  (forall x, In x d -> entry_ok h ts x)
  /\ (forall n t, nth_error ts n = Some t -> exists x, In x d /\ fst (fst x) = h n
     /\ event_ids (c (snd (fst x))) = event_ids (c t)).
Proof.
  intros H. apply (boundaries_inv h ts ts [] [] d eq_refl H).
  - intros x [].
  - intros [|n] t; discriminate.
Qed.

Theorem bounds_found h ts d hq q b : trace_boundaries c h 0 ts [] = Ok d ->
  get_trace_time_boundaries c hq q d = Some b ->
  exists t, In t ts /\ event_ids (c t) = event_ids (c q) /\ spans b (c t).
Proof.
  intros H G. unfold get_trace_time_boundaries, tget in G.
  destruct (find _ d) as [x|] eqn:F; [|discriminate]. injection G as <-.
  apply find_some in F as [I M]. apply andb_true_iff in M as [_ M]. apply key_match_ids in M.
  destruct (proj1 (boundaries_spec _ _ _ H) x I) as (n & t & Nt & _ & E & B).
  exists t. split; [eapply nth_error_In; eauto|]. split; [congruence|]. now apply trace_bounds_spans.
Qed.

Lemma stamps_of_agree l : forall m, map ev_id l = map ev_id m ->
  (forall e f, In e l -> In f m -> ev_id e = ev_id f -> contributed (REvent e) = contributed (REvent f)) ->
  flat_map (fun e => contributed (REvent e)) l = flat_map (fun e => contributed (REvent e)) m.
Proof.
  induction l as [|x l IH]; intros [|y m]; cbn [map flat_map]; try discriminate; auto.
  intros [= E1 E2] A. rewrite (A x y); cbn; auto. f_equal. apply IH; auto. intros; apply A; cbn; auto.
Qed.

Theorem bounds_own h ts d hq q b : trace_boundaries c h 0 ts [] = Ok d ->
  (forall t, In t ts -> stamps_agree (c t) (c q)) ->
  get_trace_time_boundaries c hq q d = Some b -> spans b (c q).
Proof.
  intros H A G. destruct (bounds_found _ _ _ _ _ _ H G) as (t & I & E & S).
  unfold spans, trace_stamps in *. now rewrite <- (stamps_of_agree _ _ E (A t I)).
Qed.

Theorem bounds_answer h ts d hq q : trace_boundaries c h 0 ts [] = Ok d ->
  ((exists b, get_trace_time_boundaries c hq q d = Some b) <->
   exists n t, nth_error ts n = Some t /\ h n = hq /\ event_ids (c t) = event_ids (c q)).
Proof.
  intros H. destruct (boundaries_spec _ _ _ H) as [S C]. unfold get_trace_time_boundaries, tget. split.
  - intros [b G]. destruct (find _ d) as [x|] eqn:F; [|discriminate].
    apply find_some in F as [I M]. apply andb_true_iff in M as [M1 M]. apply key_match_ids in M. apply Z.eqb_eq in M1.
    destruct (S x I) as (n & t & Nt & Hn & E & _). exists n, t. repeat split; congruence.
  - intros (n & t & Nt & Hn & E). destruct (C n t Nt) as (x & I & E1 & E2).
    destruct (find (fun x => Z.eqb (fst (fst x)) hq && key_match c (snd (fst x)) q) d) as [y|] eqn:F; [eauto|].
    exfalso. apply (find_none _ _ F) in I. apply andb_false_iff in I as [I|I].
    + apply Z.eqb_neq in I. congruence.
    + assert (key_match c (snd (fst x)) q = true) by (apply key_match_ids; congruence). congruence.
Qed.

(** *** The dictionary exists with the summary *)

Section Exists.
Context `{FIO : FloatIO} (draw : level -> pystr -> N).

Lemma fold_reg_event_bounds es : forall s tb s' tb', fold_res (reg_event draw) es (s, tb) = Ok (s', tb') ->
  fold_res (fun b e => tb_reg b (REvent e)) es tb = Ok tb'.
Proof.
  induction es as [|e es IH]; cbn [fold_res]; intros s tb s' tb' H.
  - injection H as <- <-. reflexivity.
  - destruct (reg_event draw (s, tb) e) as [[s1 tb1]|] eqn:R; [|discriminate].
    unfold reg_event in R. destruct (reg_attrs draw LvEvent (ev_attrs e) (inc_events s)); [|discriminate].
    cbn [bind] in R. destruct (reg_classes (li_classes a) e); [|discriminate]. cbn [bind] in R.
    destruct (tb_reg tb (REvent e)) as [tb2|]; [|discriminate]. injection R as <- <-. eapply IH; eauto.
Qed.

Lemma reg_trace_bounds s t s' : reg_trace draw s t = Ok s' -> exists b, trace_bounds t = Ok b.
Proof.
  unfold reg_trace. destruct (reg_attrs draw LvTrace (tr_attrs t) (inc_traces s)); [|discriminate]. cbn [bind].
  destruct (fold_res (reg_event draw) (tr_events t) (a, tb_empty)) as [[s1 tb]|] eqn:F; [|discriminate].
  intros _. exists tb. eapply fold_reg_event_bounds; eauto.
Qed.

Lemma boundaries_exist h ts : forall n d s s', fold_res (reg_trace draw) (map c ts) s = Ok s' ->
  exists d', trace_boundaries c h n ts d = Ok d'.
Proof.
  induction ts as [|t ts IH]; cbn [map fold_res trace_boundaries]; intros n d s s' H; [eauto|].
  destruct (reg_trace draw s (c t)) as [s1|] eqn:R; [|discriminate].
  destruct (reg_trace_bounds _ _ _ R) as [b ->]. cbn [bind]. eapply IH; eauto.
Qed.

Theorem summary_has_boundaries h l ts default extra s : lg_traces l = map c ts ->
  create_info draw l default extra = Ok s -> exists d, trace_boundaries c h 0 ts [] = Ok d.
Proof.
  intros L. rewrite create_is_make. unfold make_info.
  destruct (reg_attrs draw LvLog (lg_attrs l) _) as [s1|]; [|discriminate]. cbn [bind].
  destruct (fold_res (reg_trace draw) (lg_traces l) s1) as [s2|] eqn:F; [|discriminate]. intros _.
  rewrite L in F. eapply boundaries_exist; eauto.
Qed.
End Exists.
End Dict.
