(** Proofs about random logs. *)
From Coq Require Import String NArith ZArith List Bool SpecFloat Lia.
From Verif Require Import Base.PyBase Base.PyDate Base.PyVal Model.Attr Model.Log Model.StdExt Model.RandomLog
  Model.Registry Model.XesWrite Model.XesRead
  Spec.DateText Spec.Xes Spec.XmlNorm Spec.Survive Spec.People Spec.FileTexts Spec.RandomLog
  Proofs.BaseFacts Proofs.PeopleFacts Proofs.FileTextFacts.
Import ListNotations.

Section Random.
Context `{C : Clock}.
Variables (windows : bool) (draw : nat -> N) (zero : datetime).
Hypothesis Z0 : from_ms (PInt (if windows then 86400000 else 0)) = Ok zero.

Lemma random_attr_made n o : In o random_options ->
  exists n' a, random_attr windows draw n o = Ok (n', a) /\ made_for zero o a
    /\ (n' = n /\ (forall u, a_val a <> PXid u) \/ n' = S n /\ a_val a = PXid (draw n)).
Proof.
  intros I. cbn in I. unfold made_for, plain_attr.
  repeat destruct I as [<-|I]; try contradiction.
  - do 2 eexists. split; [reflexivity|]. split; [tauto|]. left. split; [reflexivity|discriminate].
  - exists n, (mk_attr CTimestamp (py "date") None (PDate zero) [] []). split.
    + unfold random_attr, create_timestamp, timestamp_ms. cbn [str_eqb]. 
      change (str_eqb (py "date") (py "string")) with false. change (str_eqb (py "date") (py "date")) with true. cbn iota.
      destruct windows; cbn [andb]; [change (0 <? 86400000)%Z with true; cbn iota|]; rewrite Z0; reflexivity.
    + split; [tauto|]. left. split; [reflexivity|discriminate].
  - do 2 eexists. split; [reflexivity|]. split; [tauto|]. left. split; [reflexivity|discriminate].
  - do 2 eexists. split; [reflexivity|]. split; [tauto|]. left. split; [reflexivity|discriminate].
  - do 2 eexists. split; [reflexivity|]. split; [tauto|]. left. split; [reflexivity|discriminate].
  - do 2 eexists. split; [reflexivity|]. split; [|right; split; reflexivity].
    right; right; right; right; right; left. split; [reflexivity|]. eexists; reflexivity.
  - do 2 eexists. split; [reflexivity|]. split; [tauto|]. left. split; [reflexivity|discriminate].
  - do 2 eexists. split; [reflexivity|]. split; [tauto|]. left. split; [reflexivity|discriminate].
Qed.

(** The ids of a list are draws from [lo] to [hi], none twice. *)
Definition drawn_between (lo hi : nat) (l : list N) : Prop :=
  exists ks, l = map draw ks /\ NoDup ks /\ forall k, In k ks -> lo <= k < hi.

Lemma between_nil lo hi : drawn_between lo hi [].
Proof. exists []. split; [reflexivity|]. split; [constructor|]. intros k []. Qed.
Lemma between_app lo mid hi l m : lo <= mid -> mid <= hi -> drawn_between lo mid l -> drawn_between mid hi m -> drawn_between lo hi (l ++ m).
Proof.
  intros A B (ks & -> & N1 & R1) (js & -> & N2 & R2). exists (ks ++ js). split; [symmetry; apply map_app|]. split.
  - clear - N1 N2 R1 R2. induction ks as [|k ks IH]; [exact N2|]. cbn.
    inversion_clear N1. constructor.
    + rewrite in_app_iff. intros [I|I]; [contradiction|]. specialize (R1 k (or_introl eq_refl)). specialize (R2 k I). lia.
    + apply IH; auto. intros x I. apply R1. now right.
  - intros k I. apply in_app_iff in I as [I|I]; [specialize (R1 k I) | specialize (R2 k I)]; lia.
Qed.


Lemma id_values_sset k a m : forall ks f, id_values m = map draw ks -> NoDup (f ++ ks) ->
  (f = [] /\ (forall u, a_val a <> PXid u)) \/ (exists n, f = [n] /\ a_val a = PXid (draw n)) ->
  exists ks', id_values (sset k a m) = map draw ks' /\ NoDup ks' /\ incl ks' (f ++ ks).
Proof.
  induction m as [|[j b] m IH]; intros ks f E N F.
  - destruct ks; [|discriminate]. exists f. cbn [sset dict_set]. unfold id_values. cbn [flat_map snd].
    destruct F as [[-> F]|(n & -> & F)].
    + split; [|split; [constructor|apply incl_appl, incl_refl]]. destruct (a_val a); try reflexivity. now destruct (F u).
    + rewrite F. split; [reflexivity|]. split; [exact N | apply incl_appl, incl_refl].
  - assert (H : exists h t, ks = h ++ t /\ match a_val b with PXid u => [u] | _ => [] end = map draw h /\ id_values m = map draw t).
    { unfold id_values in E. cbn [flat_map snd] in E. destruct (a_val b); try (exists [], ks; split; [reflexivity|split; [reflexivity|exact E]]).
      destruct ks as [|x ks]; [discriminate|]. cbn in E. injection E as E1 E2. exists [x], ks. cbn. rewrite E1. auto. }
    destruct H as (h & t & -> & Eh & Et).
    unfold sset. cbn [dict_set]. destruct (str_eqb k j).
    + exists (f ++ t). unfold id_values in *. cbn [flat_map snd]. rewrite Et, map_app. split; [|split].
      * f_equal. destruct F as [[-> F]|(n & -> & F)]; [|rewrite F; reflexivity]. destruct (a_val a); try reflexivity. now destruct (F u).
      * clear - N. induction f as [|x f IH]; cbn in *.
        -- induction h as [|y h IH]; [exact N|]. inversion_clear N. auto.
        -- inversion_clear N. constructor; [|auto]. rewrite in_app_iff in *. rewrite in_app_iff in H. tauto.
      * intros x I. rewrite !in_app_iff in *. tauto.
    + destruct (IH t f Et) as (ks' & E' & N' & I').
      * clear - N. induction f as [|x f IH]; cbn in *.
        -- induction h as [|y h IH]; [exact N|]. inversion_clear N. auto.
        -- inversion_clear N. constructor; [|auto]. rewrite !in_app_iff in *. tauto.
      * exact F.
      * exists (h ++ ks'). unfold id_values in *. cbn [flat_map snd]. fold (@sset attr k a m). rewrite E', map_app, Eh. split; [reflexivity|]. split.
        -- assert (D : forall x, In x h -> ~ In x (f ++ t)).
           { intros x Ix J.
             rewrite in_app_iff in J. destruct J as [J|J].
             - clear - N Ix J. induction f as [|y f IH]; [destruct J|]. cbn in N. inversion_clear N. destruct J as [->|J]; [|auto].
               apply H. rewrite !in_app_iff. tauto.
             - assert (N2 : NoDup (h ++ t)) by (clear - N; induction f as [|y f IH]; [exact N | inversion_clear N; auto]).
               clear - N2 Ix J. induction h as [|y h IH]; [destruct Ix|]. cbn in N2. inversion_clear N2. destruct Ix as [->|Ix]; [|auto].
               apply H. rewrite in_app_iff. tauto. }
           assert (Nh : NoDup h).
           { clear - N. induction f as [|y f IH]; [|inversion_clear N; auto]. induction h as [|y h IH]; [constructor|]. cbn in N. inversion_clear N.
             constructor; [rewrite in_app_iff in H; tauto | auto]. }
           clear - Nh N' D I'. induction h as [|x h IH]; [exact N'|]. cbn. inversion_clear Nh. constructor.
           ++ rewrite in_app_iff. intros [J|J]; [contradiction|]. apply (D x (or_introl eq_refl)), I', J.
           ++ apply IH; [intros y Iy; apply D; now right | assumption].
        -- intros x I. rewrite !in_app_iff in *. destruct I as [I|I]; [tauto|]. apply I' in I. rewrite in_app_iff in I. tauto.
Qed.

Lemma made_keys o a : made_for zero o a -> a_key a = o.
Proof. unfold made_for, plain_attr. intros H. destruct H as [[-> H]|[[-> H]|[[-> H]|[[-> H]|[[-> H]|[[-> [u H]]|[[-> H]|[-> H]]]]]]]]; rewrite H; reflexivity. Qed.

(** The attributes of one event. *)
Definition put_ok (n0 : nat) (opts : list pystr) (st : nat * sdict attr) : Prop :=
  n0 <= fst st /\ map fst (snd st) = distinct_texts opts /\ Forall (fun kv => made_for zero (fst kv) (snd kv)) (snd st)
  /\ drawn_between n0 (fst st) (id_values (snd st)).

Lemma distinct_snoc l x : distinct_texts (l ++ [x]) = distinct_texts l ++ (if existsb (str_eqb x) (distinct_texts l) then [] else [x]).
Proof.
  rewrite <- !keys_nil. unfold count_all. rewrite fold_left_app. cbn [fold_left]. rewrite keys_one. f_equal.
  destruct (smem x _) eqn:S; symmetry.
  - apply smem_in in S. replace (existsb _ _) with true; [reflexivity|]. symmetry. apply existsb_exists. exists x. split; [exact S | apply str_eqb_refl].
  - replace (existsb _ _) with false; [reflexivity|]. symmetry. apply Bool.not_true_iff_false. intros E. apply existsb_exists in E as (y & I & E).
    apply str_eqb_eq in E as <-. apply smem_in in I. congruence.
Qed.

Lemma sset_made o a m : made_for zero o a -> Forall (fun kv => made_for zero (fst kv) (snd kv)) m ->
  Forall (fun kv => made_for zero (fst kv) (snd kv)) (sset o a m).
Proof.
  intros H. unfold sset. induction 1 as [|[k b] m Hb Hm IH]; cbn [dict_set]; [constructor; [exact H | constructor]|].
  destruct (str_eqb o k) eqn:E; constructor; auto. apply str_eqb_eq in E as <-. exact H.
Qed.

Lemma put_step n0 opts st o : In o random_options -> put_ok n0 opts st ->
  exists st', random_put windows draw st o = Ok st' /\ put_ok n0 (opts ++ [o]) st'.
Proof.
  destruct st as [n m]. intros I (L & K & M & (ks & E & N & B)). cbn [fst snd] in *.
  destruct (random_attr_made n o I) as (n' & a & R & Ma & D). unfold random_put. cbn [fst snd]. rewrite R. cbn [bind fst snd].
  eexists. split; [reflexivity|]. unfold put_ok. cbn [fst snd].
  assert (X : exists f, NoDup (f ++ ks) /\ (forall k, In k f -> n0 <= k < n') /\
     ((f = [] /\ (forall u, a_val a <> PXid u)) \/ (exists n, f = [n] /\ a_val a = PXid (draw n)))).
  { destruct D as [[-> D]|[-> D]]; [exists []; split; [exact N|split; [intros k []|left; auto]]|].
    exists [n]. split; [|split; [intros k [<-|[]]; lia|right; exists n; auto]].
    constructor; [|exact N]. intros J. specialize (B n J). lia. }
  destruct X as (f & Nf & Bf & F). destruct (id_values_sset o a m ks f E Nf F) as (ks' & E' & N' & I').
  assert (Ln : n <= n') by (destruct D as [[-> _]|[-> _]]; lia).
  split; [lia|]. split; [|split; [now apply sset_made|]].
  - rewrite sset_keys, distinct_snoc, K. unfold smem, dict_mem.
    assert (Q : existsb (str_eqb o) (distinct_texts opts) = smem o m).
    { apply Bool.eq_iff_eq_true. rewrite smem_in, K, existsb_exists. split.
      - intros (y & J & Ey). apply str_eqb_eq in Ey as <-. exact J.
      - intros J. exists o. split; [exact J | apply str_eqb_refl]. }
    rewrite Q. unfold smem, dict_mem. destruct (dict_get str_eqb o m); [now rewrite app_nil_r | reflexivity].
  - exists ks'. split; [exact E'|]. split; [exact N'|]. intros k J. apply I' in J. rewrite in_app_iff in J.
    destruct J as [J|J]; [now apply Bf | specialize (B k J); lia].
Qed.

Lemma puts_ok n0 : forall opts done st, Forall (fun o => In o random_options) opts -> put_ok n0 done st ->
  exists st', fold_res (random_put windows draw) opts st = Ok st' /\ put_ok n0 (done ++ opts) st'.
Proof.
  induction opts as [|o opts IH]; intros done st F P.
  - exists st. split; [reflexivity|]. now rewrite app_nil_r.
  - inversion_clear F. destruct (put_step n0 done st o H P) as (st1 & E1 & P1).
    destruct (IH (done ++ [o]) st1 H0 P1) as (st2 & E2 & P2). exists st2. cbn [fold_res]. rewrite E1. split; [exact E2|].
    rewrite <- app_assoc in P2. exact P2.
Qed.

Lemma event_ok n0 es opts : Forall (fun o => In o random_options) opts ->
  exists n e, random_event windows draw (n0, es) opts = Ok (n, es ++ [e]) /\ n0 <= n /\ event_of zero opts e
    /\ drawn_between n0 n (ids_in e).
Proof.
  intros F. assert (P : put_ok (S n0) [] (S n0, [])).
  { split; [cbn; lia|]. split; [reflexivity|]. split; [constructor|]. apply between_nil. }
  destruct (puts_ok (S n0) opts [] _ F P) as ([n m] & E & (L & K & M & D)). cbn [fst snd app] in *.
  unfold random_event. cbn [fst snd]. rewrite E. cbn [bind fst snd]. do 2 eexists. split; [reflexivity|].
  split; [lia|]. split; [split; [exact K | exact M]|].
  unfold ids_in. cbn [ev_id ev_attrs]. change (draw n0 :: id_values m) with ([draw n0] ++ id_values m).
  apply (between_app n0 (S n0) n); [lia | lia | | exact D].
  exists [n0]. split; [reflexivity|]. split; [repeat constructor; intros []|]. intros k [<-|[]]; lia.
Qed.

Lemma events_ok : forall choices n0 es0, Forall (Forall (fun o => In o random_options)) choices ->
  exists n es, fold_res (random_event windows draw) choices (n0, es0) = Ok (n, es0 ++ es) /\ n0 <= n
    /\ Forall2 (event_of zero) choices es /\ drawn_between n0 n (flat_map ids_in es).
Proof.
  induction choices as [|opts choices IH]; intros n0 es0 F.
  - exists n0, []. rewrite app_nil_r. repeat split; [lia | constructor | apply between_nil].
  - inversion_clear F. destruct (event_ok n0 es0 opts H) as (n1 & e & E1 & L1 & X1 & D1).
    destruct (IH n1 (es0 ++ [e]) H0) as (n2 & es & E2 & L2 & X2 & D2).
    exists n2, (e :: es). cbn [fold_res]. rewrite E1, E2, <- app_assoc. split; [reflexivity|]. split; [lia|].
    split; [constructor; assumption|]. cbn [flat_map]. now apply (between_app n0 n1 n2).
Qed.

Lemma traces_ok : forall choices n0 ts0, choices_ok choices ->
  exists n ts, fold_res (random_trace windows draw) choices (n0, ts0) = Ok (n, ts0 ++ ts) /\ n0 <= n
    /\ Forall2 (trace_of zero) choices ts /\ drawn_between n0 n (flat_map ids_in (flat_map tr_events ts)).
Proof.
  induction choices as [|c choices IH]; intros n0 ts0 F.
  - exists n0, []. rewrite app_nil_r. repeat split; [lia | constructor | apply between_nil].
  - inversion_clear F. destruct (events_ok c n0 [] H) as (n1 & es & E1 & L1 & X1 & D1). cbn [app] in E1.
    destruct (IH n1 (ts0 ++ [mk_trace [] es]) H0) as (n2 & ts & E2 & L2 & X2 & D2).
    exists n2, (mk_trace [] es :: ts). cbn [fold_res]. unfold random_trace at 1. cbn [fst snd]. rewrite E1. cbn [bind fst snd].
    rewrite E2, <- app_assoc. split; [reflexivity|]. split; [lia|].
    split; [constructor; [split; [reflexivity | exact X1] | assumption]|]. cbn [flat_map tr_events].
    rewrite flat_map_app. now apply (between_app n0 n1 n2).
Qed.

Lemma random_log_ok choices : choices_ok choices ->
  exists ts, random_log windows draw choices = Ok (mk_log [] ts [] [] [] [] [])
    /\ Forall2 (trace_of zero) choices ts
    /\ ((forall i j, draw i = draw j -> i = j) -> NoDup (flat_map ids_in (flat_map tr_events ts)))
    /\ Forall (fun u => exists k, u = draw k) (flat_map ids_in (flat_map tr_events ts)).
Proof.
  intros F. destruct (traces_ok choices 0 [] F) as (n & ts & E & _ & X & (ks & D & N & _)). cbn [app] in E.
  exists ts. unfold random_log. rewrite E. cbn [bind snd]. split; [reflexivity|]. split; [exact X|]. rewrite D. split.
  - intros Inj. clear - N Inj. induction N as [|k ks I N IH]; [constructor|]. cbn. constructor; [|exact IH].
    intros J. apply in_map_iff in J as (j & Ej & Ij). apply Inj in Ej as ->. contradiction.
  - apply Forall_map, Forall_forall. intros k _. now exists k.
Qed.

(** ** The file *)
Section File.
Context `{FIO : FloatIO}.
Hypothesis zero_float : float_of_str (float_repr (S754_zero false)) = Some (S754_zero false).
Hypothesis zero_text : legal_text (float_repr (S754_zero false)) = true /\ calm (float_repr (S754_zero false)) = true.
Hypothesis zero_date : valid_dt zero = true /\ minute_zone zero.
Hypothesis uuids : forall k, (draw k < 2 ^ 128)%N.

Lemma made_fine o a : made_for zero o a -> (forall u, a_val a = PXid u -> (u < 2 ^ 128)%N) ->
  readable a /\ well_keyed a /\ Forall (fun s => legal_text s = true) (attr_texts a) /\ Forall (fun s => calm s = true) (attr_texts a).
Proof.
  unfold made_for, plain_attr. intros H U.
  assert (K : forall c k v, is_collection c = false -> well_keyed (mk_attr c k None v [] [])).
  { intros c k v E. apply well_keyed_plain; [exact E | split; constructor | constructor]. }
  assert (L : forall c k v, is_collection c = true -> well_keyed (mk_attr c k None v [] [])).
  { intros c k v E. apply well_keyed_coll; [exact E | constructor]. }
  destruct H as [[-> H]|[[-> H]|[[-> H]|[[-> H]|[[-> H]|[[-> [u H]]|[[-> H]|[-> H]]]]]]]]; subst a;
    (split; [constructor; [|constructor]|]); try exact I;
    try (split; [first [apply K; reflexivity | apply L; reflexivity]|split; repeat constructor]); try apply zero_text.
  - exact zero_date.
  - exact zero_float.
  - exact (U u eq_refl).
Qed.

Lemma event_fine opts e : event_of zero opts e -> Forall (fun u => exists k, u = draw k) (ids_in e) ->
  readable_map (ev_attrs e) /\ keyed_deep (ev_attrs e)
  /\ Forall (fun s => legal_text s = true) (event_texts e) /\ Forall (fun s => calm s = true) (event_texts e).
Proof.
  intros [K M] U.
  assert (P : Forall (fun kv => made_for zero (fst kv) (snd kv) /\ readable (snd kv) /\ well_keyed (snd kv)
     /\ Forall (fun s => legal_text s = true) (attr_texts (snd kv)) /\ Forall (fun s => calm s = true) (attr_texts (snd kv))) (ev_attrs e)).
  { rewrite Forall_forall in M |- *. intros kv I. split; [now apply M|]. apply (made_fine (fst kv)); [now apply M|].
    intros u V. unfold ids_in in U. apply Forall_inv_tail in U. rewrite Forall_forall in U.
    destruct (U u) as (k & ->); [|apply uuids]. unfold id_values. apply in_flat_map. exists kv. split; [exact I|]. rewrite V. now left. }
  split; [|split; [split; [split|]|split]].
  - unfold readable_map. apply Forall_map. eapply Forall_impl; [|exact P]. cbn. tauto.
  - eapply Forall_impl; [|exact M]. intros kv H. symmetry. now apply made_keys.
  - rewrite K. apply distinct_nodup.
  - apply Forall_map. eapply Forall_impl; [|exact P]. cbn. tauto.
  - unfold event_texts, map_texts. apply Forall_flat_map. eapply Forall_impl; [|exact P]. cbn. tauto.
  - unfold event_texts, map_texts. apply Forall_flat_map. eapply Forall_impl; [|exact P]. cbn. tauto.
Qed.

Lemma random_fine choices ts : Forall2 (trace_of zero) choices ts ->
  Forall (fun u => exists k, u = draw k) (flat_map ids_in (flat_map tr_events ts)) ->
  let l := mk_log [] ts [] [] [] [] [] in readable_log l /\ keyed_log l /\ legal_log l /\ smooth_log l.
Proof.
  intros T U.
  assert (P : Forall (fun t => tr_attrs t = [] /\ Forall (fun e => readable_map (ev_attrs e) /\ keyed_deep (ev_attrs e)
     /\ Forall (fun s => legal_text s = true) (event_texts e) /\ Forall (fun s => calm s = true) (event_texts e)) (tr_events t)) ts).
  { induction T as [|c t cs ts [A X] T IH]; [constructor|]. cbn [flat_map] in U. rewrite flat_map_app in U. apply Forall_app in U as [U1 U2].
    constructor; [|now apply IH]. split; [exact A|]. clear - X U1 zero_float zero_text zero_date uuids.
    induction X as [|o e os es X F IH]; [constructor|]. cbn [flat_map] in U1. apply Forall_app in U1 as [U1 U2].
    constructor; [now apply (event_fine o) | now apply IH]. }
  assert (E0 : readable_map [] /\ keyed_deep []) by (split; [constructor | split; [split; constructor | constructor]]).
  cbn zeta. split; [|split; [|split]].
  - split; [constructor|]. split; [constructor|]. split; [constructor|]. cbn. eapply Forall_impl; [|exact P].
    intros t [-> F]. split; [constructor|]. eapply Forall_impl; [|exact F]. cbn. tauto.
  - split; [apply E0|]. cbn. eapply Forall_impl; [|exact P]. intros t [-> F]. split; [apply E0|].
    eapply Forall_impl; [|exact F]. cbn. tauto.
  - unfold legal_log, log_texts. cbn. apply Forall_flat_map. eapply Forall_impl; [|exact P]. intros t [A F].
    unfold trace_texts. rewrite A. cbn. apply Forall_flat_map. eapply Forall_impl; [|exact F]. cbn. tauto.
  - unfold smooth_log, log_texts. cbn. apply Forall_flat_map. eapply Forall_impl; [|exact P]. intros t [A F].
    unfold trace_texts. rewrite A. cbn. apply Forall_flat_map. eapply Forall_impl; [|exact F]. cbn. tauto.
Qed.

Lemma random_file mgr urlparse draw2 choices l : choices_ok choices -> random_log windows draw choices = Ok l ->
  exists l', stored mgr urlparse draw2 l l' /\ Forall2 (same_trace mgr) (lg_traces l) (lg_traces l').
Proof.
  intros F E. destruct (random_log_ok choices F) as (ts & E' & X & _ & U). rewrite E in E'. injection E' as ->.
  destruct (random_fine choices ts X U) as (R & K & L & S).
  destruct (file_exists mgr urlparse draw2 _ R K L S) as (l' & St & _ & T). exists l'. auto.
Qed.
End File.

Lemma distinct_length l : List.length (distinct_texts l) <= List.length l.
Proof.
  induction l as [|x l IH]; [reflexivity|]. cbn [distinct_texts List.length].
  assert (H : forall (f : pystr -> bool) q, List.length (filter f q) <= List.length q).
  { intros f q. induction q as [|y q I]; [reflexivity|]. cbn. destruct (f y); cbn; lia. }
  specialize (H (fun y => negb (str_eqb x y)) (distinct_texts l)). lia.
Qed.

Lemma random_sizes choices l : script_choices choices -> random_log windows draw choices = Ok l ->
  List.length (lg_traces l) = 10
  /\ Forall (fun t => 3 <= List.length (tr_events t) <= 7) (lg_traces l)
  /\ 30 <= List.length (all_events [l]) <= 70
  /\ Forall (fun e => 1 <= List.length (ev_attrs e) <= 4) (all_events [l]).
Proof.
  intros (F & L & B) E. destruct (random_log_ok choices F) as (ts & E' & X & _). rewrite E in E'. injection E' as ->.
  unfold all_events. cbn [flat_map lg_traces]. rewrite app_nil_r.
  assert (Len : forall {A B} (P : A -> B -> Prop) l m, Forall2 P l m -> List.length m = List.length l).
  { intros A B0 P l m H. induction H; cbn; congruence. }
  split; [rewrite (Len _ _ _ _ _ X); exact L|].
  assert (Q : Forall (fun t => 3 <= List.length (tr_events t) <= 7 /\ Forall (fun e => 1 <= List.length (ev_attrs e) <= 4) (tr_events t)) ts).
  { clear - X B Len. induction X as [|c t cs ts [_ X] T IH]; [constructor|]. inversion_clear B. constructor; [|now apply IH].
    destruct H as [H1 H2]. split; [rewrite (Len _ _ _ _ _ X); exact H1|]. clear - X H2.
    induction X as [|o e os es [K _] F IH]; [constructor|]. inversion_clear H2. constructor; [|now apply IH].
    apply (f_equal (@List.length _)) in K. rewrite map_length in K. rewrite K.
    pose proof (distinct_length o). destruct o as [|x o]; [discriminate|]. cbn [distinct_texts List.length] in *. lia. }
  split; [eapply Forall_impl; [|exact Q]; cbn; tauto|]. split.
  - assert (S : 3 * List.length ts <= List.length (flat_map tr_events ts) <= 7 * List.length ts).
    { clear - Q. induction Q as [|t ts [H _] Q IH]; [cbn; lia|]. cbn [flat_map List.length]. rewrite app_length. lia. }
    rewrite (Len _ _ _ _ _ X), L in S. lia.
  - apply Forall_flat_map. eapply Forall_impl; [|exact Q]. cbn. tauto.
Qed.
End Random.
