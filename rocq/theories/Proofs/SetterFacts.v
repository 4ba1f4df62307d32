(** Lemmas about the extension setters and getters. *)
From Coq Require Import String NArith ZArith List Bool Lia.
From Verif Require Import Base.Unicode Base.PyBase Base.PyDate Base.PyVal Model.Attr Model.StdExt
  Spec.Setters Proofs.BaseFacts Proofs.StrFacts.
Import ListNotations.

Lemma sset_only_at {V} k (v : V) m : only_at k m (sset k v m).
Proof.
  split; [intros k' H; apply sget_sset_other; congruence|].
  rewrite sset_keys. destruct (smem k m) eqn:E.
  - left; split; [now apply smem_in|auto].
  - right; split; [intros H; apply smem_in in H; congruence|auto].
Qed.

Lemma strip_nil_iff s : strip s = [] <-> Forall (fun c => is_space c = true) s.
Proof.
  unfold strip, strip_by. split.
  - intros H. apply (f_equal (@rev N)) in H. rewrite rev_involutive in H. cbn in H.
    apply dropwhile_nil_iff in H. apply Forall_rev in H. rewrite rev_involutive in H.
    destruct (dropwhile_suffix is_space s) as (pre & E & P). rewrite E. apply Forall_app; auto.
  - intros H. apply dropwhile_nil_iff in H. now rewrite H.
Qed.

Lemma nonblank_true s : nonblank s = true <-> exists c, In c s /\ is_space c = false.
Proof.
  unfold nonblank. split.
  - intros H. destruct (strip s) as [|c t] eqn:E; [discriminate|].
    exists c. destruct (strip_by_decomp is_space s) as (a & b & D & _).
    pose proof (strip_by_trimmed is_space s) as [T _]. unfold strip in E.
    split; [rewrite D, E; apply in_or_app; right; now left|exact (T c t E)].
  - intros (c & I1 & S). destruct (strip s) eqn:E; [|reflexivity].
    apply strip_nil_iff in E. rewrite Forall_forall in E. rewrite (E c I1) in S. discriminate.
Qed.
Lemma nonblank_false s : nonblank s = false <-> Forall (fun c => is_space c = true) s.
Proof. unfold nonblank. rewrite <- strip_nil_iff. destruct (strip s); split; congruence. Qed.

Lemma num_zero : num_of (PInt 0) = Some (NFin 0 0). Proof. reflexivity. Qed.

Lemma py_gt_zero v n : num_of v = Some n ->
  py_gt v (PInt 0) = Ok (match num_cmp n (NFin 0 0) with Some Gt => true | _ => false end).
Proof. intros H. unfold py_gt. now rewrite H, num_zero. Qed.
Lemma py_ge_zero v n : num_of v = Some n ->
  py_ge v (PInt 0) = Ok (match num_cmp n (NFin 0 0) with Some Gt | Some Eq => true | _ => false end).
Proof. intros H. unfold py_ge. now rewrite H, num_zero. Qed.
Lemma py_gt_notnum v : num_of v = None ->
  py_gt v (PInt 0) = Raise (match v with PXid _ => AttributeError | _ => TypeError end).
Proof. intros H. unfold py_gt. rewrite H, num_zero. destruct v; try reflexivity; discriminate. Qed.
Lemma py_ge_notnum v : num_of v = None ->
  py_ge v (PInt 0) = Raise (match v with PXid _ => AttributeError | _ => TypeError end).
Proof. intros H. unfold py_ge. rewrite H, num_zero. destruct v; try reflexivity; discriminate. Qed.

Lemma number_cmp0_iff v n c : num_of v = Some n -> (number_cmp0 v c <-> num_cmp n (NFin 0 0) = Some c).
Proof.
  intros H. unfold number_cmp0. split; [intros (n2 & E & R)|intros R; eauto].
  rewrite E in H. injection H as ->. exact R.
Qed.
Lemma number_cmp0_none v c : num_of v = None -> ~ number_cmp0 v c.
Proof. intros H (n & E & _). congruence. Qed.
Lemma is_number_none v : num_of v = None -> ~ is_number v.
Proof. intros H (n & E). congruence. Qed.

Definition effect (sl : slot) (v : pyval) (m : sdict attr) (r : res (sdict attr)) : Prop :=
  (admissible sl v /\ ~ passed_over sl v /\ r = Ok (sset (written_key sl) (written sl v) m))
  \/ (passed_over sl v /\ ~ admissible sl v /\ r = Ok m)
  \/ (~ admissible sl v /\ ~ passed_over sl v /\ r = Raise (slot_error sl v)).

Lemma text_effect (v : pyval) m (k : pystr) (a : pyval -> attr) r :
  (forall s, v = PStr s -> nonblank s = true -> r = Ok (sset k (a v) m)) ->
  (forall s, v = PStr s -> nonblank s = false -> r = Ok m) ->
  (v = PNone -> r = Ok m) ->
  (usable v = Raise AttributeError -> r = Raise AttributeError) ->
  let pass := v = PNone \/ exists s, v = PStr s /\ Forall (fun c => is_space c = true) s in
  (nonblank_text v /\ ~ pass /\ r = Ok (sset k (a v) m))
  \/ (pass /\ ~ nonblank_text v /\ r = Ok m)
  \/ (~ nonblank_text v /\ ~ pass /\ r = Raise AttributeError).
Proof.
  intros A B C D pass.
  assert (NT : (forall s, v <> PStr s) -> ~ nonblank_text v) by (intros Q (s & E & _); exact (Q s E)).
  destruct v as [| s | | | | | |];
    try (right; right; split; [apply NT; discriminate|]; split; [intros [[=]|(s0 & [=] & _)]|];
         apply D; reflexivity).
  - right; left. split; [now left|]. split; [apply NT; discriminate|auto].
  - destruct (nonblank s) eqn:E.
    + left. pose proof E as E2. apply nonblank_true in E2. split; [exists s; auto|].
      split; [|apply (A s); auto]. intros [[=]|(s0 & [= <-] & F)].
      apply nonblank_false in F. congruence.
    + right; left. pose proof E as F. apply nonblank_false in F. split; [right; exists s; auto|].
      split; [|apply (B s); auto]. intros (s0 & [= <-] & N0). apply nonblank_true in N0. congruence.
Qed.

Lemma positive_effect (v : pyval) m (k : pystr) (a : pyval -> attr) r :
  (v <> PNone -> r = let! b := py_gt v (PInt 0) in if b then Ok (sset k (a v) m) else Ok m) ->
  (v = PNone -> r = Ok m) ->
  let pass := v = PNone \/ (is_number v /\ ~ number_cmp0 v Gt) in
  (number_cmp0 v Gt /\ ~ pass /\ r = Ok (sset k (a v) m))
  \/ (pass /\ ~ number_cmp0 v Gt /\ r = Ok m)
  \/ (~ number_cmp0 v Gt /\ ~ pass /\ r = Raise (match v with PXid _ => AttributeError | _ => TypeError end)).
Proof.
  intros A B pass. destruct (num_of v) as [n|] eqn:E.
  - assert (V : v <> PNone) by (intros ->; discriminate E). specialize (A V).
    rewrite (py_gt_zero v n E) in A. cbn [bind] in A.
    pose proof (number_cmp0_iff v n Gt E) as Q.
    destruct (num_cmp n (NFin 0 0)) as [[]|] eqn:C.
    all: try (right; left; assert (~ number_cmp0 v Gt) by (rewrite Q; discriminate);
              split; [right; split; [exists n; auto|auto]|split; auto]).
    left. split; [now apply Q|]. split; [|exact A]. intros [->|[_ F]]; [now apply V|]. apply F. now apply Q.
  - destruct (match v with PNone => true | _ => false end) eqn:V.
    + destruct v; try discriminate. right; left. split; [now left|]. split; [now apply number_cmp0_none|auto].
    + right; right. split; [now apply number_cmp0_none|].
      assert (V' : v <> PNone) by (intros ->; discriminate V).
      split; [intros [->|[F _]]; [now apply V'|exact (is_number_none v E F)]|].
      rewrite (A V'), (py_gt_notnum v E). reflexivity.
Qed.

Lemma slot_effect sl v m : effect sl v m (slot_assign sl v m).
Proof.
  unfold effect.
  destruct sl.
  - apply (text_effect v m _ (written SName)); intros; subst; cbn; try rewrite H0; try reflexivity.
    unfold assign_name, assign_text. now rewrite H.
  - apply (text_effect v m _ (written SInstance)); intros; subst; cbn; try rewrite H0; try reflexivity.
    unfold assign_instance, assign_text. now rewrite H.
  - apply (text_effect v m _ (written SResource)); intros; subst; cbn; try rewrite H0; try reflexivity.
    unfold assign_resource, assign_text. now rewrite H.
  - apply (text_effect v m _ (written SRole)); intros; subst; cbn; try rewrite H0; try reflexivity.
    unfold assign_role, assign_text. now rewrite H.
  - apply (text_effect v m _ (written SGroup)); intros; subst; cbn; try rewrite H0; try reflexivity.
    unfold assign_group, assign_text. now rewrite H.
  - apply (text_effect v m _ (written SModel)); intros; subst; cbn; try rewrite H0; try reflexivity.
    unfold assign_model, assign_stripped. now rewrite H.
  - apply (text_effect v m _ (written STransition)); intros; subst; cbn; try rewrite H0; try reflexivity.
    unfold assign_transition, assign_stripped. now rewrite H.
  - apply (positive_effect v m _ (written STotal)); [|intros ->; reflexivity].
    intros V. destruct v; try (now destruct V); reflexivity.
  - apply (text_effect v m _ (written SCurrency)); intros; subst; cbn; try rewrite H0; try reflexivity.
    unfold assign_currency, assign_text. now rewrite H.
  - apply (positive_effect v m _ (written SAmount)); [|intros ->; reflexivity].
    intros V. destruct v; try (now destruct V); reflexivity.
  - apply (text_effect v m _ (written SDriver)); intros; subst; cbn; try rewrite H0; try reflexivity.
    unfold assign_driver, assign_text. now rewrite H.
  - apply (text_effect v m _ (written SType)); intros; subst; cbn; try rewrite H0; try reflexivity.
    unfold assign_type. now rewrite H.
  - (* id *)
    cbn [admissible passed_over].
    destruct (match v with PNone => true | _ => false end) eqn:V.
    + destruct v; try discriminate. right; left. split; [reflexivity|]. split; [now intros []|reflexivity].
    + left. assert (V' : v <> PNone) by (intros ->; discriminate V). split; [exact V'|]. split; [exact V'|].
      destruct v; try reflexivity. now destruct V'.
  - (* level *)
    cbn [admissible passed_over]. cbn [slot_assign]. unfold assign_level.
    destruct (num_of v) as [n|] eqn:E.
    + rewrite (py_gt_zero v n E). cbn [bind]. pose proof (number_cmp0_iff v n Gt E) as Q.
      destruct (num_cmp n (NFin 0 0)) as [[]|] eqn:C.
      all: try (right; left; assert (~ number_cmp0 v Gt) by (rewrite Q; discriminate);
              split; [split; [exists n; auto|auto]|split; auto]).
      left. split; [now apply Q|]. split; [|reflexivity]. intros [_ F]. apply F. now apply Q.
    + right; right. split; [now apply number_cmp0_none|].
      split; [intros [F _]; exact (is_number_none v E F)|].
      rewrite (py_gt_notnum v E). reflexivity.
  - (* length *)
    cbn [admissible passed_over]. cbn [slot_assign]. unfold assign_length.
    destruct (num_of v) as [n|] eqn:E.
    + rewrite (py_ge_zero v n E). cbn [bind].
      pose proof (number_cmp0_iff v n Gt E) as Q. pose proof (number_cmp0_iff v n Eq E) as Q2.
      destruct (num_cmp n (NFin 0 0)) as [[]|] eqn:C.
      all: try (right; left; assert (~ (number_cmp0 v Gt \/ number_cmp0 v Eq)) by (rewrite Q, Q2; intros [|]; discriminate);
              split; [split; [exists n; auto|auto]|split; auto]).
      * left. split; [right; now apply Q2|]. split; [|reflexivity]. intros [_ F]. apply F. right. now apply Q2.
      * left. split; [left; now apply Q|]. split; [|reflexivity]. intros [_ F]. apply F. left. now apply Q.
    + right; right. split; [intros [F|F]; eapply number_cmp0_none; eauto|].
      split; [intros [F _]; exact (is_number_none v E F)|].
      rewrite (py_ge_notnum v E). reflexivity.
Qed.

Lemma slot_adm sl v m : admissible sl v ->
  slot_assign sl v m = Ok (sset (written_key sl) (written sl v) m).
Proof. intros A. destruct (slot_effect sl v m) as [(_ & _ & E)|[(_ & F & _)|(F & _)]]; tauto. Qed.
Lemma slot_pass sl v m : passed_over sl v -> slot_assign sl v m = Ok m.
Proof. intros A. destruct (slot_effect sl v m) as [(_ & F & E)|[(_ & F & E)|(F & N0 & _)]]; tauto. Qed.
Lemma slot_err sl v m : ~ admissible sl v -> ~ passed_over sl v -> slot_assign sl v m = Raise (slot_error sl v).
Proof. intros A B. destruct (slot_effect sl v m) as [(F & _)|[(F & _)|(_ & _ & E)]]; tauto. Qed.
Lemma adm_not_pass sl v : admissible sl v -> passed_over sl v -> False.
Proof. intros A B. destruct (slot_effect sl v []) as [(_ & F & _)|[(_ & F & _)|(F & _)]]; tauto. Qed.


Lemma extract_fetch sl m :
  slot_extract sl m = fetch (slot_key sl) (match sl with SLevel => PInt (-1) | _ => PNone end) m.
Proof. destruct sl; reflexivity. Qed.

Lemma fetch_some k d m a : sget k m = Some a -> fetch k d m = get_value a.
Proof. intros E. unfold fetch. now rewrite E. Qed.

Lemma getters_give m :
  (forall sl, sget (slot_key sl) m = None -> slot_extract sl m = Ok (absent_value sl))
  /\ (forall sl a, sget (slot_key sl) m = Some a ->
       slot_extract sl m = if match a_cls a with CList | CContainer => true | _ => false end
                           then Raise AttributeError else Ok (a_val a))
  /\ extract_timestamp m = match sget (py "time:timestamp") m with
                           | Some a => slot_extract SName [(py "concept:name", a)] | None => Ok (PInt (-1)) end
  /\ extract_parent_id m = match sget (py "micro:parentId") m with
                           | Some a => slot_extract SName [(py "concept:name", a)] | None => Raise KeyError end.
Proof.
  split; [|split; [|split; reflexivity]].
  - intros sl E. rewrite extract_fetch. unfold fetch. rewrite E. reflexivity.
  - intros sl a E. rewrite extract_fetch. unfold fetch. rewrite E. unfold get_value, is_collection. now destruct (a_cls a).
Qed.

Lemma regular_key sl : ~ odd_slot sl -> written_key sl = slot_key sl /\ sl <> SType.
Proof. unfold odd_slot. intros H. split; [destruct sl; auto; exfalso; auto|intros ->; auto]. Qed.

Lemma written_value sl v : sl <> SType -> get_value (written sl v) = Ok (kept sl v).
Proof. intros H. destruct sl; try reflexivity. now destruct H. Qed.

Lemma assign_extract sl v m : ~ odd_slot sl -> admissible sl v ->
  exists m', slot_assign sl v m = Ok m'
    /\ slot_extract sl m' = Ok (kept sl v)
    /\ sget (slot_key sl) m' = Some (mk_attr (slot_class sl) (slot_key sl) (Some (slot_ext sl)) (kept sl v) [] [])
    /\ only_at (slot_key sl) m m'.
Proof.
  intros R A. destruct (regular_key sl R) as [K NT].
  exists (sset (slot_key sl) (written sl v) m). rewrite (slot_adm sl v m A), K.
  pose proof (sget_sset_same (slot_key sl) (written sl v) m) as G.
  split; [reflexivity|]. split; [|split; [|apply sset_only_at]].
  - rewrite extract_fetch, (fetch_some _ _ _ _ G). now apply written_value.
  - rewrite G. unfold written. destruct sl; try reflexivity. now destruct NT.
Qed.

(** ** Histories *)
Lemma run_snoc calls c m : run_assigns (calls ++ [c]) m = let! m1 := run_assigns calls m in slot_assign (fst c) (snd c) m1.
Proof.
  unfold run_assigns. rewrite fold_res_app. destruct (fold_res _ calls m); cbn; [|reflexivity].
  destruct (slot_assign _ _ _); reflexivity.
Qed.

Lemma history calls m m' : run_assigns calls m = Ok m' -> forall k,
  (exists a, last_write calls k a /\ sget k m' = Some a) \/ (no_write calls k /\ sget k m' = sget k m).
Proof.
  revert m'. induction calls as [|[sl v] calls IH] using rev_ind; intros m' R k.
  - injection R as <-. right. split; [intros ? ? []|reflexivity].
  - rewrite run_snoc in R. apply bind_ok in R. destruct R as (m1 & R1 & R2). cbn [fst snd] in R2.
    specialize (IH m1 R1 k).
    destruct (slot_effect sl v m1) as [(A & NP & E)|[(P & NA & E)|(_ & _ & E)]]; rewrite E in R2; [| |discriminate].
    + injection R2 as <-. destruct (list_eq_dec N.eq_dec (written_key sl) k) as [<-|NK].
      * left. exists (written sl v). split; [|apply sget_sset_same].
        exists calls, sl, v, []. repeat split; auto. intros ? ? [].
      * rewrite (sget_sset_other _ _ _ _ NK).
        destruct IH as [(a & (b & s2 & v2 & af & -> & W & A2 & Wa & L) & G)|(NW & G)].
        -- left. exists a. split; [|exact G]. exists b, s2, v2, (af ++ [(sl, v)]).
           rewrite <- app_assoc. cbn. repeat split; auto.
           intros s3 v3 I3 W3. apply in_app_or in I3. destruct I3 as [I3|[[= <- <-]|[]]]; [eauto|congruence].
        -- right. split; [|exact G]. intros s3 v3 I3 W3. apply in_app_or in I3.
           destruct I3 as [I3|[[= <- <-]|[]]]; [eauto|congruence].
    + injection R2 as <-.
      destruct IH as [(a & (b & s2 & v2 & af & -> & W & A2 & Wa & L) & G)|(NW & G)].
      * left. exists a. split; [|exact G]. exists b, s2, v2, (af ++ [(sl, v)]).
        rewrite <- app_assoc. cbn. repeat split; auto.
        intros s3 v3 I3 W3. apply in_app_or in I3. destruct I3 as [I3|[[= <- <-]|[]]]; [eauto|exact P].
      * right. split; [|exact G]. intros s3 v3 I3 W3. apply in_app_or in I3.
        destruct I3 as [I3|[[= <- <-]|[]]]; [eauto|exact P].
Qed.

Lemma last_write_extract calls m m' sl v before after : run_assigns calls m = Ok m' ->
  ~ odd_slot sl -> calls = before ++ (sl, v) :: after -> admissible sl v ->
  (forall sl2 v2, In (sl2, v2) after -> written_key sl2 = slot_key sl -> passed_over sl2 v2) ->
  slot_extract sl m' = Ok (kept sl v).
Proof.
  intros R O E A L. destruct (regular_key sl O) as [K NT].
  assert (G : sget (slot_key sl) m' = Some (written sl v)).
  { unfold run_assigns in R. rewrite E, fold_res_app in R. 
    destruct (fold_res _ before m) as [m1|]; [|discriminate]. cbn [bind fold_res fst snd] in R.
    rewrite (slot_adm sl v m1 A), K in R.
    destruct (history after (sset (slot_key sl) (written sl v) m1) m' R (slot_key sl))
      as [(a & (b & s2 & v2 & af & E2 & W & A2 & _ & _) & G)|(_ & G)].
    - exfalso. apply (adm_not_pass s2 v2 A2). apply L; [|exact W]. rewrite E2. apply in_or_app. right. now left.
    - rewrite G. apply sget_sset_same. }
  rewrite extract_fetch, (fetch_some _ _ _ _ G). now apply written_value.
Qed.

(** ** Removing *)
Lemma sget_sdel_other {V} k k2 (m : sdict V) : k2 <> k -> sget k2 (sdel k m) = sget k2 m.
Proof.
  intros N0. induction m as [|[k' v] t IH]; [reflexivity|]. unfold sdel, sget in *. cbn [dict_del dict_get].
  destruct (str_eqb k k') eqn:E.
  - apply str_eqb_eq in E. subst k'. destruct (str_eqb k2 k) eqn:E2; [apply str_eqb_eq in E2; contradiction|reflexivity].
  - cbn [dict_get]. destruct (str_eqb k2 k'); [reflexivity|exact IH].
Qed.
Lemma sget_sdel_same {V} k (m : sdict V) : dict_wf m -> sget k (sdel k m) = None.
Proof.
  unfold dict_wf. induction m as [|[k' v] t IH]; intros W; [reflexivity|]. inversion W as [|? ? NI W']; subst.
  unfold sdel, sget in *. cbn [dict_del]. destruct (str_eqb k k') eqn:E.
  - apply str_eqb_eq in E. subst k'. now apply sget_none.
  - cbn [dict_get]. rewrite E. now apply IH.
Qed.
Lemma remove_key_spec k m : dict_wf m -> sget k (remove_key k m) = None
  /\ forall k2, k2 <> k -> sget k2 (remove_key k m) = sget k2 m.
Proof.
  intros W. unfold remove_key. destruct (smem k m) eqn:E.
  - split; [now apply sget_sdel_same|intros; now apply sget_sdel_other].
  - split; [|auto]. apply sget_none. intros H. apply smem_in in H. congruence.
Qed.
