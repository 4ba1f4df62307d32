(** Lemmas about lifecycle transitions, model references and time stamps. *)
From Coq Require Import String NArith ZArith List Bool Lia.
From Verif Require Import Base.Unicode Base.PyBase Base.PyDate Base.PyVal Model.Attr Model.StdExt
  Spec.Setters Proofs.BaseFacts Proofs.StrFacts Proofs.LowerFacts Proofs.SetterFacts.
Import ListNotations.

(** ** Lifecycle *)
Lemma decode_standard s : standard_transition (decode s).
Proof.
  unfold decode. destruct (find _ lifecycle_values) eqn:F; [exact (proj1 (find_some _ _ F))|].
  unfold standard_transition. cbn [In]. tauto.
Qed.
Lemma decode_hit s w : standard_transition w -> lower (strip s) = w -> decode s = w.
Proof.
  intros S0 E. unfold decode. rewrite E.
  destruct (find (str_eqb w) lifecycle_values) as [x|] eqn:F.
  - apply find_some in F. destruct F as [_ F]. apply str_eqb_eq in F. auto.
  - exfalso. pose proof (find_none _ _ F w S0) as N0. rewrite str_eqb_refl in N0. discriminate.
Qed.
Lemma decode_known s : decode s <> py "unknown" -> lower (strip s) = decode s.
Proof.
  unfold decode. destruct (find _ lifecycle_values) as [x|] eqn:F; [|congruence].
  intros _. apply find_some in F. destruct F as [_ F]. now apply str_eqb_eq.
Qed.
Lemma standard_lower w : standard_transition w -> lower w = w /\ strip w = w.
Proof. intros H. repeat (destruct H as [<-|H]; [vm_compute; auto|]). destruct H. Qed.
Lemma decode_fixed w : standard_transition w -> decode w = w.
Proof.
  intros H. apply decode_hit; [exact H|]. destruct (standard_lower w H) as [L T]. now rewrite T, L.
Qed.
Lemma decode_case s t : same_but_case s t -> decode s = decode t.
Proof.
  unfold same_but_case. intros H. unfold decode. now rewrite <- !strip_lower, H.
Qed.
Lemma decode_blank s t : blank_around s t -> decode t = decode s.
Proof. intros (a & b & -> & A & B). unfold decode. now rewrite (strip_around _ _ _ A B). Qed.
Lemma decode_exact s w : standard_transition w -> w <> py "unknown" ->
  (decode s = w <-> exists t, blank_around t s /\ same_but_case t w).
Proof.
  intros S0 U. split.
  - intros E. exists (strip s). split.
    + destruct (strip_by_decomp is_space s) as (a & b & D & A & B). exists a, b. auto.
    + unfold same_but_case. rewrite (decode_known s) by congruence.
      destruct (standard_lower w S0) as [L _]. congruence.
  - intros (t & B & C). rewrite (decode_blank t s B), (decode_case t w C). now apply decode_fixed.
Qed.
Lemma decode_unknown s : decode s = py "unknown" <->
  forall w, standard_transition w -> w <> py "unknown" -> ~ exists t, blank_around t s /\ same_but_case t w.
Proof.
  split.
  - intros E w S0 U H. apply (decode_exact s w S0 U) in H. congruence.
  - intros H. destruct (list_eq_dec N.eq_dec (decode s) (py "unknown")) as [E|E]; [exact E|exfalso].
    apply (H (decode s) (decode_standard s) E). now apply decode_exact; [apply decode_standard| |].
Qed.

Lemma decode_nonblank s : nonblank (decode s) = true /\ strip (decode s) = decode s.
Proof.
  pose proof (decode_standard s) as S0. destruct (standard_lower _ S0) as [_ T]. split; [|exact T].
  unfold nonblank. rewrite T. repeat (destruct S0 as [E|S0]; [rewrite <- E; reflexivity|]). destruct S0.
Qed.
Lemma standard_round t m : exists m', assign_standard_transition (PStr t) m = Ok m'
  /\ extract_standard_transition m' = Ok (PStr (decode t))
  /\ extract_transition m' = Ok (PStr (decode t))
  /\ only_at (py "lifecycle:transition") m m'.
Proof.
  destruct (decode_nonblank t) as [NB T].
  eexists. cbn [assign_standard_transition decode_val bind]. unfold assign_standard_transition. cbn [decode_val bind].
  unfold assign_transition, assign_stripped. cbn [usable bind]. rewrite NB. cbn [stripped bind]. rewrite T.
  split; [reflexivity|].
  assert (X : forall a, extract_transition (sset (py "lifecycle:transition") a m) = get_value a).
  { intros a. apply (fetch_some _ _ _ _ (sget_sset_same _ _ _)). }
  split; [|split; [|apply sset_only_at]].
  - unfold extract_standard_transition. rewrite X. cbn [get_value is_collection a_cls set_value bind decode_val a_val ATTR_TRANSITION].
    rewrite (decode_fixed (decode t)) by apply decode_standard. reflexivity.
  - rewrite X. reflexivity.
Qed.

(** ** Splitting at any separator *)
Lemma split_skip sep p acc t : split_aux sep (List.length p) acc (p ++ t) = split_aux sep 0 acc t.
Proof. induction p as [|c p IH]; [reflexivity|]. cbn. exact IH. Qed.

Lemma join_cons sep a l : l <> [] -> join sep (a :: l) = a ++ sep ++ join sep l.
Proof. destruct l; [congruence|reflexivity]. Qed.

Lemma join_split_aux x sep : forall n s acc, (List.length s <= n)%nat ->
  join (x :: sep) (split_aux (x :: sep) 0 acc s) = rev acc ++ s.
Proof.
  induction n as [|n IH]; intros s acc L.
  - destruct s; [|cbn in L; lia]. cbn. now rewrite app_nil_r.
  - destruct s as [|c t]; [cbn; now rewrite app_nil_r|]. cbn [split_aux].
    destruct (starts_with (x :: sep) (c :: t)) eqn:W.
    + apply starts_with_spec in W. destruct W as [u E]. injection E as -> ->.
      cbn [List.length]. rewrite Nat.sub_succ, Nat.sub_0_r, split_skip.
      rewrite join_cons by apply split_aux_nonnil.
      rewrite IH by (cbn in L; rewrite app_length in L; lia). cbn. reflexivity.
    + rewrite IH by (cbn in L; lia). cbn. now rewrite <- app_assoc.
Qed.
Lemma join_split x sep s : join (x :: sep) (split (x :: sep) s) = s.
Proof. unfold split. now rewrite (join_split_aux x sep (List.length s)). Qed.

Lemma split_chars sep s (P : N -> Prop) : Forall P s -> Forall (Forall P) (split sep s).
Proof.
  unfold split. intros H. assert (G : forall skip acc, Forall P acc -> Forall (Forall P) (split_aux sep skip acc s)).
  { induction H as [|c t Pc Pt IH]; intros skip acc A.
    - cbn. constructor; [now apply Forall_rev|constructor].
    - cbn [split_aux]. destruct skip as [|k]; [|now apply IH].
      destruct (starts_with sep (c :: t)).
      + constructor; [now apply Forall_rev|]. now apply IH.
      + apply IH. now constructor. }
  now apply G.
Qed.

Lemma split_none sep s : sep <> [] -> contains sep s = false -> split sep s = [s].
Proof.
  intros NE. assert (G : forall acc, contains sep s = false -> split_aux sep 0 acc s = [rev acc ++ s]).
  { induction s as [|c t IH]; intros acc C.
    - cbn. now rewrite app_nil_r.
    - cbn [contains] in C. apply orb_false_iff in C. destruct C as [C1 C2].
      cbn [split_aux]. rewrite C1, (IH _ C2). cbn. now rewrite <- app_assoc. }
  intros C. exact (G [] C).
Qed.

(** ** Model references *)
Lemma map_id_in {A} (f : A -> A) l : Forall (fun a => f a = a) l -> map f l = l.
Proof. induction 1 as [|a l E _ IH]; [reflexivity|]. cbn. now rewrite E, IH. Qed.
Lemma lower_pieces sep s : map lower (split sep (lower s)) = split sep (lower s).
Proof.
  apply map_id_in. pose proof (split_chars sep (lower s) _ (lower_fixed s)) as H.
  revert H. apply Forall_impl. exact fixed_text_lower.
Qed.

Lemma map_text refs : map_res text_of (map PStr refs) = Ok refs.
Proof. induction refs as [|r t IH]; [reflexivity|]. cbn. now rewrite IH. Qed.

Lemma assign_refs refs m : refs <> [] ->
  assign_model_references (map PStr refs) m
  = Ok (sset (py "semantic:modelReference") (attr_reference (ref_text refs)) m).
Proof.
  intros NE. unfold assign_model_references. rewrite map_text. cbn [bind]. fold (ref_text refs).
  destruct (lower (ref_text refs)) eqn:L; [|reflexivity].
  exfalso. apply (proj1 (lower_nil_iff _)) in L. destruct refs as [|r t]; [auto|]. cbn in L.
  apply app_eq_nil in L. destruct L as [L _]. apply app_eq_nil in L. destruct L; discriminate.
Qed.

Lemma refs_round refs m : refs <> [] ->
  exists m', assign_model_references (map PStr refs) m = Ok m'
    /\ extract_model_references m' = Ok (split (py "\s") (lower (ref_text refs)))
    /\ only_at (py "semantic:modelReference") m m'.
Proof.
  intros NE. eexists. rewrite (assign_refs refs m NE). split; [reflexivity|]. split; [|apply sset_only_at].
  unfold extract_model_references. rewrite sget_sset_same. cbn [get_value attr_reference literal is_collection a_cls a_val bind].
  now rewrite lower_pieces.
Qed.

(** Text that is its own lower-case form up to some point continues with the lower-case form
    of the rest. *)
Lemma lower_prefix r : forall p x y, r ++ x = lower_from p (r ++ y) -> exists q, x = lower_from q y.
Proof.
  induction r as [|c r IH]; intros p x y; [intros H; now exists p|]. cbn. intros H. symmetry in H.
  pose proof (low_first _ c _ _ _ H) as E. rewrite E in H. cbn in H. injection H as H. symmetry in H. exact (IH _ _ _ H).
Qed.

Lemma refs_never refs : refs <> [] -> split (py "\s") (lower (ref_text refs)) <> refs.
Proof.
  intros NE H.
  assert (J : join (py "\s") refs = lower (ref_text refs)).
  { rewrite <- H at 1. change (py "\s") with (92%N :: [115%N]). apply join_split. }
  destruct refs as [|r [|r2 t]]; [auto| |].
  - cbn in J. rewrite app_nil_r in J. rewrite <- (app_nil_r r) in J at 1. apply lower_prefix in J. destruct J as [q J]. discriminate.
  - rewrite join_cons in J by discriminate. unfold ref_text in J. cbn [flat_map] in J. rewrite <- app_assoc in J.
    apply lower_prefix in J. destruct J as [q J]. discriminate.
Qed.

(** ** Time stamps *)
Lemma timestamp_date `{Clock} d m : reads_back d ->
  exists m', assign_timestamp (PDate d) m = Ok m'
    /\ extract_timestamp m' = Ok (PDate (clock_reading d))
    /\ only_at (py "time:timestamp") m m'.
Proof.
  intros (x & E & (n & Nx) & R). eexists. unfold assign_timestamp. rewrite E. cbn [bind]. rewrite Nx, R. cbn [bind].
  split; [reflexivity|]. split; [|apply sset_only_at].
  unfold extract_timestamp. rewrite (fetch_some _ _ _ _ (sget_sset_same _ _ _)). reflexivity.
Qed.
Lemma timestamp_number `{Clock} v d m : is_number v -> from_ms v = Ok d ->
  exists m', assign_timestamp v m = Ok m'
    /\ extract_timestamp m' = Ok (PDate d)
    /\ only_at (py "time:timestamp") m m'.
Proof.
  intros (n & Nx) R. eexists. unfold assign_timestamp.
  assert (E : match v with PDate d0 => mktime_ms d0 | _ => Ok v end = Ok v) by (destruct v; try reflexivity; discriminate).
  rewrite E. cbn [bind]. rewrite Nx, R. cbn [bind].
  split; [reflexivity|]. split; [|apply sset_only_at].
  unfold extract_timestamp. rewrite (fetch_some _ _ _ _ (sget_sset_same _ _ _)). reflexivity.
Qed.
Lemma timestamp_other `{Clock} v m : ~ is_number v -> (forall d, v <> PDate d) -> assign_timestamp v m = Raise TypeError.
Proof.
  intros N D. unfold assign_timestamp.
  assert (E : match v with PDate d => mktime_ms d | _ => Ok v end = Ok v) by (destruct v as [| | | | |d| |]; try reflexivity; now destruct (D d)).
  rewrite E. cbn [bind]. destruct (num_of v) as [n|] eqn:Nx; [|reflexivity]. destruct N. now exists n.
Qed.
Lemma clock_reading_id d : clock_reading d = d <-> us d = 0%Z /\ tz d = None.
Proof.
  destruct d. unfold clock_reading. cbn. split; [intros [= <- <-]; auto|intros [-> ->]; reflexivity].
Qed.
Lemma clock_reading_eq d : dt_eqb (clock_reading d) d = true <-> us d = 0%Z /\ tz d = None.
Proof.
  unfold dt_eqb, is_aware, instant. cbn [tz clock_reading]. destruct (tz d) eqn:T.
  - cbn. split; [discriminate|intros [_ [=]]].
  - cbn [Bool.eqb andb]. rewrite Z.eqb_eq. unfold wall_us. cbn [yr mo dy hh mi ss us clock_reading]. split; [intros H|intros [-> _]; reflexivity].
    split; [lia|reflexivity].
Qed.

(** ** References given and read as URIs *)
Lemma uris_round {U} (urlparse : pystr -> option U) (geturl : U -> pystr) refs m : refs <> [] ->
  let texts := split (py "\s") (lower (ref_text (map geturl refs))) in
  exists m', assign_model_reference_uris geturl refs m = Ok m'
    /\ only_at (py "semantic:modelReference") m m'
    /\ match extract_model_reference_uris urlparse m' with
       | Ok us => map urlparse texts = map Some us
       | Raise e => e = ValueError /\ exists t, In t texts /\ urlparse t = None
       end.
Proof.
  intros NE texts. destruct (refs_round (map geturl refs) m) as (m' & A & X & O).
  { destruct refs; [now destruct NE|discriminate]. }
  exists m'. split; [unfold assign_model_reference_uris; rewrite <- map_map; exact A|]. split; [exact O|].
  unfold extract_model_reference_uris. rewrite X. cbn [bind]. fold texts. clearbody texts. clear.
  induction texts as [|t l IH]; [reflexivity|]. cbn [map_res map]. destruct (urlparse t) as [u|] eqn:P; cbn [bind].
  - destruct (map_res _ l) as [us|e]; cbn [bind].
    + cbn [map]. now rewrite IH.
    + destruct IH as (-> & x & I & N0). split; [reflexivity|]. exists x. split; [now right|exact N0].
  - split; [reflexivity|]. exists t. split; [now left|exact P].
Qed.

(** ** The standard lifecycle model *)
Lemma uses_standard m :
  (uses_standard_model m = Ok true
   <-> exists a s, sget (py "lifecycle:model") m = Some a /\ get_value a = Ok (PStr s) /\ blank_around (py "standard") s)
  /\ (forall e, uses_standard_model m = Raise e ->
       e = AttributeError /\ exists a, sget (py "lifecycle:model") m = Some a /\ forall s, get_value a <> Ok (PStr s)).
Proof.
  unfold uses_standard_model, extract_model, fetch.
  destruct (sget (py "lifecycle:model") m) as [a|]; cbn [bind].
  2:{ split; [split; [discriminate|intros (a & s & H & _); discriminate]|discriminate]. }
  destruct (get_value a) as [v|e] eqn:G; cbn [bind].
  - destruct v as [|s| | | | | |]; (split; [split|]); try discriminate;
      try (intros (a' & s' & [= <-] & H & _); rewrite G in H; discriminate);
      try (intros e [= <-]; split; [reflexivity|]; exists a; split; [reflexivity|]; congruence).
    + intros [= H]. apply str_eqb_eq in H. exists a, s. split; [reflexivity|]. split; [exact G|].
      destruct (strip_by_decomp is_space s) as (x & y & D & X & Y). exists x, y. fold (strip s) in D. rewrite H in D. auto.
    + intros (a' & s' & [= <-] & H & (x & y & E & X & Y)). rewrite G in H. injection H as <-.
      rewrite E, (strip_around _ _ _ X Y). reflexivity.
  - split; [split; [discriminate|]|].
    + intros (a' & s' & [= <-] & H & _). congruence.
    + intros e' [= <-]. assert (e = AttributeError) as -> by (unfold get_value in G; destruct (is_collection (a_cls a)); congruence).
      split; [reflexivity|]. exists a. split; [reflexivity|]. congruence.
Qed.

(** ** XExtendedEvent *)
Lemma xe_set_otherwise m :
  (forall s, (forall c, In c s -> is_space c = true) ->
     xe_set_resource (PStr s) m = Ok m /\ xe_set_role (PStr s) m = Ok m /\ xe_set_group (PStr s) m = Ok m)
  /\ (forall v, (forall s, v <> PStr s) ->
     xe_set_resource v m = Raise AttributeError /\ xe_set_role v m = Raise AttributeError
     /\ xe_set_group v m = Raise AttributeError).
Proof.
  split.
  - intros s H. assert (L : lower s = s).
    { rewrite <- (app_nil_r s) at 1. rewrite lower_spaces_front by now apply Forall_forall. apply app_nil_r. }
    assert (B : strip s = []).
    { rewrite <- (app_nil_r s). exact (strip_around s [] [] (proj2 (Forall_forall _ _) H) (Forall_nil _)). }
    unfold xe_set_resource, xe_set_role, xe_set_group, lowered, assign_resource, assign_role, assign_group, assign_text, usable, nonblank.
    cbn [bind]. rewrite L, B. auto.
  - intros v H. destruct v; try (repeat split; reflexivity). now destruct (H s).
Qed.

Lemma standard_others :
  (forall v m, (forall s, v <> PStr s) -> assign_standard_transition v m = Raise AttributeError)
  /\ (forall m, sget (py "lifecycle:transition") m = None -> extract_standard_transition m = Ok PNone)
  /\ (forall m a v, sget (py "lifecycle:transition") m = Some a -> get_value a = Ok v ->
       (forall s, v = PStr s -> extract_standard_transition m = Ok (PStr (decode s)))
       /\ (v = PNone -> extract_standard_transition m = Ok PNone)
       /\ (v <> PNone -> (forall s, v <> PStr s) -> extract_standard_transition m = Raise AttributeError)).
Proof.
  unfold assign_standard_transition, extract_standard_transition, extract_transition, fetch, decode_val.
  split; [|split].
  - intros v m H. destruct v; try reflexivity. now destruct (H s).
  - intros m ->. reflexivity.
  - intros m a v -> G. rewrite G. cbn [bind]. split; [now intros s ->|]. split; [now intros ->|].
    intros NN NS. destruct v; try reflexivity; [easy|]. now destruct (NS s).
Qed.

Lemma refs_not_text :
  (forall refs m, assign_model_references refs m = Raise TypeError <-> exists v, In v refs /\ forall s, v <> PStr s)
  /\ (forall m a v, sget (py "semantic:modelReference") m = Some a -> get_value a = Ok v -> (forall s, v <> PStr s) ->
       extract_model_references m = Raise AttributeError).
Proof.
  split.
  - intros refs m.
    assert (A : (exists l, map_res text_of refs = Ok l) /\ ~ (exists v, In v refs /\ forall s, v <> PStr s)
                \/ map_res text_of refs = Raise TypeError /\ exists v, In v refs /\ forall s, v <> PStr s).
    { induction refs as [|v refs IH]; [left; split; [now exists []|now intros (v & [] & _)]|].
      destruct (text_of v) as [t|e] eqn:T.
      - assert (v = PStr t) as -> by (destruct v; cbn in T; congruence).
        destruct IH as [[[l E] N]|[E (v & I & N)]].
        + left. split; [cbn [map_res text_of bind]; rewrite E; now eexists|]. intros (v & [<-|I] & H); [now apply (H t)|].
          apply N. now exists v.
        + right. split; [cbn [map_res text_of bind]; now rewrite E|]. exists v. split; [now right|exact N].
      - right. assert (e = TypeError /\ forall s, v <> PStr s) as [-> NS] by (destruct v; cbn in T; split; congruence).
        split; [cbn [map_res]; now rewrite T|]. exists v. split; [now left|exact NS]. }
    unfold assign_model_references. destruct A as [[[l ->] N]|[-> E]]; cbn [bind]; [|tauto].
    split; [|tauto]. destruct (lower _); [discriminate|]. unfold store. cbn [attr_clone]. discriminate.
  - intros m a v S0 G H. unfold extract_model_references. rewrite S0, G. cbn [bind]. destruct v; try reflexivity. now destruct (H s).
Qed.
