(** Lemmas about extension objects and the extension definition parser. *)
From Coq Require Import String NArith ZArith List Bool Lia SpecFloat.
From Verif Require Import Base.PyBase Base.PyDate Base.PyVal Base.Xml Model.Attr Model.NameMap Model.ExtParse
  Spec.Registries Spec.ExtDef Proofs.BaseFacts Proofs.RegistryFacts.
Import ListNotations.

(** ** Sets of attributes *)
Lemma aset_add_in a s b : In b (aset_add a s) -> b = a \/ In b s.
Proof. unfold aset_add, set_add. destruct (existsb _ s); auto. rewrite in_app_iff. cbn. intuition. Qed.
Lemma aset_add_old a s b : In b s -> In b (aset_add a s).
Proof. unfold aset_add, set_add. destruct (existsb _ s); auto. rewrite in_app_iff. auto. Qed.
Lemma aset_add_new a s : represented a (aset_add a s).
Proof.
  unfold aset_add, set_add, represented. destruct (existsb (attr_eq false a) s) eqn:E.
  - apply existsb_exists in E. destruct E as (b & I0 & E). eauto.
  - exists a. rewrite in_app_iff. cbn. auto.
Qed.
Lemma aset_update_in t : forall s b, In b (aset_update s t) -> In b s \/ In b t.
Proof.
  induction t as [|a t IH]; intros s b H; [auto|]. cbn in H. apply IH in H. destruct H as [H|H]; [|right; now right].
  apply aset_add_in in H. destruct H as [->|H]; [right; now left|now left].
Qed.
Lemma aset_update_old t : forall s b, In b s -> In b (aset_update s t).
Proof. induction t as [|a t IH]; intros s b H; [exact H|]. cbn. apply IH. now apply aset_add_old. Qed.
Lemma aset_update_new t : forall s a, In a t -> represented a (aset_update s t).
Proof.
  induction t as [|x t IH]; intros s a H; [destruct H|]. cbn. destruct H as [->|H]; [|now apply IH].
  destruct (aset_add_new a s) as (b & I0 & E). exists b. split; [now apply aset_update_old|exact E].
Qed.

(** ** get_defined_attributes *)
Lemma xo_run_all h : forall x, (exists s, xo_all x = Some s) -> xo_all (xo_run h x) = xo_all x.
Proof.
  induction h as [|o h IH]; intros x [s E]; [reflexivity|]. cbn. rewrite IH.
  - destruct o as [l f|]; cbn; [destruct x, l; reflexivity|]. unfold xo_defined. now rewrite E.
  - exists s. destruct o as [l f|]; cbn; [destruct x, l; exact E|]. unfold xo_defined. now rewrite E.
Qed.
Lemma levels_apart h : forall x l, xo_level l (xo_run h x) = fold_left (fun s f => f s) (edits_of l h) (xo_level l x).
Proof.
  induction h as [|o h IH]; intros x l; [reflexivity|]. cbn [xo_run fold_left edits_of flat_map]. unfold xo_run in IH. rewrite IH.
  rewrite fold_left_app. f_equal. destruct o as [[] f|].
  1-4: destruct x, l; reflexivity.
  unfold xo_step, xo_defined. destruct (xo_all x); destruct l; reflexivity.
Qed.
Lemma xo_run_none h : forall x, xo_all x = None -> forallb (fun o => negb (is_query o)) h = true -> xo_all (xo_run h x) = None.
Proof.
  induction h as [|o h IH]; intros x E H; [exact E|]. cbn in H. apply andb_prop in H. destruct H as [H1 H2]. cbn. apply IH; [|exact H2].
  destruct o as [l f|]; [destruct x, l; exact E|discriminate].
Qed.

Theorem defined_frozen x h h' : xo_all x = None -> forallb (fun o => negb (is_query o)) h = true ->
  let x1 := xo_run h x in
  let d := snd (xo_defined x1) in
  (forall a, In a d -> exists l, In a (xo_level l x1))
  /\ (forall l a, In a (xo_level l x1) -> represented a d)
  /\ snd (xo_defined (xo_run (h ++ XQuery :: h') x)) = d.
Proof.
  intros E Q x1 d. pose proof (xo_run_none h x E Q) as N1. fold x1 in N1.
  assert (D : d = aset_update (aset_update (aset_update (aset_update [] (xo_log x1)) (xo_trace x1)) (xo_event x1)) (xo_meta x1)).
  { unfold d, xo_defined. now rewrite N1. }
  split; [|split].
  - intros a I0. rewrite D in I0. apply aset_update_in in I0. destruct I0 as [I0|I0]; [|now exists LMeta].
    apply aset_update_in in I0. destruct I0 as [I0|I0]; [|now exists LEvent].
    apply aset_update_in in I0. destruct I0 as [I0|I0]; [|now exists LTrace].
    apply aset_update_in in I0. destruct I0 as [[]|I0]. now exists LLog.
  - intros l a I0. rewrite D.
    assert (K : forall s t, represented a s -> represented a (aset_update s t)).
    { intros s t (b & J & B). exists b. split; [now apply aset_update_old|exact B]. }
    destruct l; cbn in I0; repeat (first [apply aset_update_new; exact I0|apply K]).
  - unfold xo_run. rewrite fold_left_app. cbn [fold_left]. fold (xo_run h x). fold x1. fold (xo_run h' (xo_step x1 XQuery)).
    cbn [xo_step]. assert (A1 : xo_all (fst (xo_defined x1)) = Some d).
    { unfold d, xo_defined. rewrite N1. reflexivity. }
    pose proof (xo_run_all h' (fst (xo_defined x1)) (ex_intro _ d A1)) as F. rewrite A1 in F.
    unfold xo_defined at 1. now rewrite F.
Qed.

(** ** Tags *)
Lemma decl_tag_spec t c : decl_tag (lower t) = Some c <-> tag_class t c.
Proof.
  unfold decl_tag, tag_class. cbn [In].
  assert (P : forall (a b : pystr) (c1 c2 : acls), (a, c1) = (b, c2) <-> a = b /\ c1 = c2).
  { intros. split; [intros [= -> ->]; auto|intros [-> ->]; reflexivity]. }
  split.
  - repeat (let E := fresh "E" in destruct (str_eqb (lower t) _) eqn:E; [apply str_eqb_eq in E; rewrite E; intros [= <-]; tauto|clear E]). discriminate.
  - intros H. repeat (destruct H as [H|H]; [apply (proj1 (P _ _ _ _)) in H; destruct H as [<- <-]; vm_compute; reflexivity|]). destruct H.
Qed.
Lemma level_tag_spec t : level_tag (lower t) = true <-> In (lower t) [py "log"; py "trace"; py "event"; py "meta"].
Proof.
  unfold level_tag. rewrite !orb_true_iff, !str_eqb_eq. cbn [In].
  split; [intros [[[->| ->]| ->]| ->]; tauto|intros [<-|[<-|[<-|[<-|[]]]]]; tauto].
Qed.
Lemma decl_not_ext t : decl_tag t <> None -> str_eqb t (py "xesextension") = false /\ level_tag t = false /\ str_eqb t (py "alias") = false.
Proof.
  unfold decl_tag. intros H.
  repeat (let E := fresh "E" in destruct (str_eqb t _) eqn:E; [apply str_eqb_eq in E; subst t; split; [|split]; vm_compute; reflexivity|clear E]). now destruct H.
Qed.

(** ** The parser *)
Section Parser.
Variables (urlparse : pystr -> res pystr) (urlopen : nat -> pystr -> opened) (draw : nat -> N) (epoch : datetime).
Notation step := (ext_step urlparse urlopen draw epoch).
Notation run := (ext_run urlparse urlopen draw epoch).

Lemma step_tried s e s' : step s e = Ok s' -> e_tried s' = tries [e] + e_tried s.
Proof.
  destruct e as [t a|t|c]; cbn [ext_step]; unfold tries; cbn [filter].
  - unfold ext_start. destruct (str_eqb (lower t) (py "xesextension")) eqn:E; cbn [List.length].
    + unfold ext_start_extension. unfold get_val. destruct (sget _ a); [|discriminate]. cbn [bind]. destruct (sget _ a); [|discriminate].
      cbn [bind]. destruct (sget _ a); [|discriminate]. cbn [bind]. destruct (urlparse _); [|discriminate]. cbn [bind].
      destruct (urlopen _ _); intros Q; try discriminate Q; injection Q as <-; reflexivity.
    + destruct (level_tag _); [destruct (e_ext s); intros Q; try discriminate Q; injection Q as <-; reflexivity|].
      destruct (decl_tag _) as [c|].
      * unfold ext_start_attr. destruct (e_ext s); [|discriminate]. destruct (get_val _ a); [|discriminate]. cbn [bind]. intros Q; injection Q as <-. reflexivity.
      * destruct (str_eqb (lower t) (py "alias")); [|intros Q; injection Q as <-; reflexivity]. unfold ext_start_alias. destruct (e_cur s); [|intros Q; injection Q as <-; reflexivity].
        destruct (get_val _ a); [|discriminate]. cbn [bind]. destruct (get_val _ a); [|discriminate]. cbn [bind]. intros Q; injection Q as <-. reflexivity.
  - intros Q; injection Q as <-. unfold ext_end. destruct (decl_tag _); reflexivity.
  - intros Q; injection Q as <-. reflexivity.
Qed.
Lemma tries_app a b : tries (a ++ b) = tries a + tries b.
Proof. unfold tries. now rewrite filter_app, app_length. Qed.
Lemma run_tried es : forall s s', run es s = Ok s' -> e_tried s' = tries es + e_tried s.
Proof.
  unfold ext_run. induction es as [|e es IH]; intros s s' H; [now injection H as <-|].
  cbn [fold_res] in H. destruct (step s e) as [s1|] eqn:E; [|discriminate].
  apply IH in H. apply step_tried in E. rewrite H, E, (tries_app [e] es : tries (e :: es) = _). lia.
Qed.

(** A step either reaches an extension, or keeps the extension and adds at most one attribute. *)
Lemma step_reached s e s' x : step s e = Ok s' -> reached urlparse urlopen (e_tried s) e x ->
  e_ext s' = Some (xo_new x) /\ e_names s' = e_names s /\ e_cur s' = e_cur s.
Proof.
  intros H (t & a & u & -> & T & N0 & P & U & R & O). cbn [ext_step] in H. unfold ext_start in H. rewrite T in H.
  rewrite str_eqb_refl in H. unfold ext_start_extension, get_val in H. rewrite N0, P, U in H. cbn [bind] in H. rewrite R in H. cbn [bind] in H.
  rewrite O in H. injection H as <-. destruct x. cbn. auto.
Qed.
Definition decl_attr (x : xext) (n : nat) (e : sax) : list attr :=
  match e with
  | SStart t a => match decl_tag (lower t), sget (py "key") a with
                  | Some c, Some k => [mk_attr c (x_prefix x ++ py ":" ++ k) (Some x) (decl_value draw epoch c n) [] []]
                  | _, _ => []
                  end
  | _ => []
  end.
Lemma step_kept s e s' : step s e = Ok s' -> (forall x, ~ reached urlparse urlopen (e_tried s) e x) ->
  e_ext s' = option_map (fun x => xo_edit LLog (fun l => aset_update l (decl_attr (xo_id x) (e_drawn s) e)) x) (e_ext s)
  /\ (e_ext s = None -> ~ is_level e /\ forall t a, e = SStart t a -> decl_tag (lower t) = None).
Proof.
  assert (SAME : option_map (fun x => xo_edit LLog (fun l => aset_update l []) x) (e_ext s) = e_ext s)
    by (destruct (e_ext s) as [[]|]; reflexivity).
  destruct e as [t a|t|c]; cbn [ext_step].
  - unfold ext_start, decl_attr. destruct (str_eqb (lower t) (py "xesextension")) eqn:E.
    + assert (TD : decl_tag (lower t) = None).
      { destruct (decl_tag (lower t)) eqn:D; [|reflexivity]. destruct (decl_not_ext (lower t)) as [X _]; [congruence|]. congruence. }
      assert (TL : ~ is_level (SStart t a)).
      { apply str_eqb_eq in E. intros (t0 & a0 & [= <- <-] & I0). rewrite E in I0. cbn [In] in I0.
        repeat (destruct I0 as [I0|I0]; [discriminate|]). exact I0. }
      rewrite TD. intros H NR. split; [rewrite SAME|intros _; split; [exact TL|intros t1 a1 [= <- <-]; exact TD]].
      unfold ext_start_extension, get_val in H.
      destruct (sget (py "name") a) as [n|] eqn:G1; [|discriminate]. destruct (sget (py "prefix") a) as [p|] eqn:G2; [|discriminate].
      destruct (sget (py "uri") a) as [u|] eqn:G3; [|discriminate]. cbn [bind] in H. destruct (urlparse u) as [uri|] eqn:G4; [|discriminate]. cbn [bind] in H.
      destruct (urlopen (e_tried s) u) eqn:G5; try discriminate; injection H as <-; [|reflexivity].
      exfalso. apply (NR (mk_xext n p uri)). apply str_eqb_eq in E. exists t, a, u. cbn. auto 8.
    + destruct (level_tag (lower t)) eqn:L.
      * assert (TD : decl_tag (lower t) = None).
        { destruct (decl_tag (lower t)) eqn:D; [|reflexivity]. destruct (decl_not_ext (lower t)) as (_ & X & _); [congruence|]. congruence. }
        rewrite TD, SAME. intros H NR. split; [destruct (e_ext s) eqn:EX; [injection H as <-; exact EX|discriminate H]|]. intros N0. rewrite N0 in H. discriminate.
      * assert (TL : ~ is_level (SStart t a)).
        { intros (t0 & a0 & [= <- <-] & I0). apply level_tag_spec in I0. congruence. }
        destruct (decl_tag (lower t)) as [c|] eqn:D.
        -- unfold ext_start_attr. destruct (e_ext s) as [x|] eqn:X; [|discriminate]. unfold get_val.
           destruct (sget (py "key") a) as [k|]; [|discriminate]. cbn [bind]. intros Q NR; injection Q as <-. split; [reflexivity|discriminate].
        -- intros H NR. rewrite SAME. split; [|intros _; split; [exact TL|intros t1 a1 [= <- <-]; exact D]].
           destruct (str_eqb (lower t) (py "alias")); [|now injection H as <-]. unfold ext_start_alias in H. destruct (e_cur s); [|now injection H as <-].
           destruct (get_val _ a); [|discriminate]. cbn [bind] in H. destruct (get_val _ a); [|discriminate]. cbn [bind] in H. injection H as <-. reflexivity.
  - intros Q NR; injection Q as <-. unfold decl_attr. rewrite SAME. split; [unfold ext_end; destruct (decl_tag _); reflexivity|].
    intros _. split; [intros (? & ? & [=] & _)|discriminate].
  - intros Q NR; injection Q as <-. unfold decl_attr. rewrite SAME. split; [reflexivity|].
    intros _. split; [intros (? & ? & [=] & _)|discriminate].
Qed.

Definition no_reach (n : nat) (es : list sax) : Prop :=
  forall b e c x, es = b ++ e :: c -> ~ reached urlparse urlopen (n + tries b) e x.

Lemma no_reach_cons n e es : no_reach n (e :: es) -> (forall x, ~ reached urlparse urlopen n e x) /\ no_reach (n + tries [e]) es.
Proof.
  intros H. split.
  - intros x. specialize (H [] e es x eq_refl). now rewrite Nat.add_0_r in H.
  - intros b e' c x ->. specialize (H (e :: b) e' c x eq_refl).
    rewrite (tries_app [e] b : tries (e :: b) = _), Nat.add_assoc in H. exact H.
Qed.

(** After an extension: what is added to its log attributes. *)
Inductive collected (x : xext) : list sax -> list attr -> Prop :=
| col_nil : collected x [] []
| col_cons e es n l : collected x es l -> collected x (e :: es) (decl_attr x n e ++ l).

Lemma aset_update_app s a b : aset_update s (a ++ b) = aset_update (aset_update s a) b.
Proof. apply fold_left_app. Qed.

Lemma run_kept es : forall s s' x, run es s = Ok s' -> no_reach (e_tried s) es -> e_ext s = Some x ->
  exists l, collected (xo_id x) es l /\ e_ext s' = Some (xo_edit LLog (fun l0 => aset_update l0 l) x).
Proof.
  unfold ext_run. induction es as [|e es IH]; intros s s' x H NR X.
  - injection H as <-. exists []. split; [constructor|]. rewrite X. destruct x. reflexivity.
  - cbn [fold_res] in H. destruct (step s e) as [s1|] eqn:E; [|discriminate].
    apply no_reach_cons in NR. destruct NR as [NR1 NR2]. destruct (step_kept s e s1 E NR1) as [X1 _]. rewrite X in X1. cbn [option_map] in X1.
    pose proof (step_tried _ _ _ E) as T. rewrite Nat.add_comm, <- T in NR2.
    destruct (IH s1 s' _ H NR2 X1) as (l & C & X'). exists (decl_attr (xo_id x) (e_drawn s) e ++ l). split.
    + constructor. destruct x. exact C.
    + rewrite X'. destruct x. cbn. now rewrite aset_update_app.
Qed.
Lemma run_none es : forall s s', run es s = Ok s' -> no_reach (e_tried s) es -> e_ext s = None ->
  e_ext s' = None /\ forall e, In e es -> ~ is_level e /\ forall t a, e = SStart t a -> decl_tag (lower t) = None.
Proof.
  unfold ext_run. induction es as [|e es IH]; intros s s' H NR X.
  - injection H as <-. split; [exact X|]. intros e [].
  - cbn [fold_res] in H. destruct (step s e) as [s1|] eqn:E; [|discriminate].
    apply no_reach_cons in NR. destruct NR as [NR1 NR2]. destruct (step_kept s e s1 E NR1) as [X1 L]. specialize (L X). rewrite X in X1. cbn [option_map] in X1.
    pose proof (step_tried _ _ _ E) as T. rewrite Nat.add_comm, <- T in NR2.
    destruct (IH s1 s' H NR2 X1) as (X' & F). split; [exact X'|]. intros e0 [<-|I0]; auto.
Qed.

Lemma collected_in x es l : collected x es l -> forall b, In b l ->
  exists t a c k, In (SStart t a) es /\ tag_class t c /\ sget (py "key") a = Some k /\ declared_as x c k b /\ default_value epoch b.
Proof.
  induction 1 as [|e es n l C IH]; intros b I0; [destruct I0|]. apply in_app_iff in I0. destruct I0 as [I0|I0].
  - destruct e as [t a|t|s]; try destruct I0. unfold decl_attr in I0. destruct (decl_tag (lower t)) as [c|] eqn:D; [|destruct I0].
    destruct (sget (py "key") a) as [k|] eqn:K; [|destruct I0]. destruct I0 as [<-|[]].
    exists t, a, c, k. split; [now left|]. apply decl_tag_spec in D. split; [exact D|]. split; [exact K|]. split; [unfold declared_as; cbn; auto|].
    unfold default_value. cbn. unfold tag_class in D. cbn [In] in D.
    repeat (destruct D as [D|D]; [injection D; intros <- _; cbn; eauto|]). destruct D.
  - destruct (IH b I0) as (t & a & c & k & I1 & R). exists t, a, c, k. split; [now right|exact R].
Qed.
Lemma collected_all x es l : collected x es l -> forall t a c k, In (SStart t a) es -> tag_class t c -> sget (py "key") a = Some k ->
  exists b, In b l /\ declared_as x c k b.
Proof.
  induction 1 as [|e es n l C IH]; intros t a c k I0 T K; [destruct I0|]. destruct I0 as [->|I0].
  - eexists. split; [apply in_app_iff; left; unfold decl_attr; apply decl_tag_spec in T; rewrite T, K; now left|]. unfold declared_as. cbn. auto.
  - destruct (IH t a c k I0 T K) as (b & I1 & D). exists b. split; [apply in_app_iff; now right|exact D].
Qed.

(** An Ok run consumed every declaration with a key. *)
Lemma step_key s t a s' c : step s (SStart t a) = Ok s' -> tag_class t c -> exists k, sget (py "key") a = Some k.
Proof.
  intros H T. apply decl_tag_spec in T. cbn [ext_step] in H. unfold ext_start in H.
  destruct (decl_not_ext (lower t)) as (E1 & E2 & _); [congruence|]. rewrite E1, E2, T in H.
  unfold ext_start_attr, get_val in H. destruct (e_ext s); [|discriminate]. destruct (sget _ a) as [k|]; [eauto|discriminate].
Qed.
Lemma run_key es : forall s s' t a c, run es s = Ok s' -> In (SStart t a) es -> tag_class t c -> exists k, sget (py "key") a = Some k.
Proof.
  unfold ext_run. induction es as [|e es IH]; intros s s' t a c H I0 T; [destruct I0|].
  cbn [fold_res] in H. destruct (step s e) as [s1|] eqn:E; [|discriminate]. destruct I0 as [->|I0]; [eapply step_key; eauto|eapply IH; eauto].
Qed.

Lemma represented_declared x c k a l : is_collection c = false -> declared_as x c k a ->
  (forall b, In b l -> a_ext b = Some x /\ a_coll b = [] /\ a_meta b = []) -> represented a l -> exists b, In b l /\ declared_as x c k b.
Proof.
  intros NC (A1 & A2 & A3 & A4 & A5) F (b & I0 & [->|E]); [exists a; unfold declared_as; auto 8|].
  exists b. split; [exact I0|]. destruct (F b I0) as (B1 & B2 & B3). unfold declared_as. rewrite B1, B2, B3.
  unfold attr_eq in E. rewrite A1, NC in E. destruct (acls_eqb c (a_cls b)) eqn:C; [|discriminate]. cbn in E.
  apply andb_prop in E. destruct E as [E _]. apply str_eqb_eq in E.
  split; [destruct c, (a_cls b); try discriminate; reflexivity|]. split; [congruence|auto].
Qed.

Theorem last_contents es g s x after : run es (es_init g) = Ok s -> last_reached urlparse urlopen es x after ->
  exists o, e_ext s = Some o /\ xo_id o = x
    /\ xo_trace o = [] /\ xo_event o = [] /\ xo_meta o = []
    /\ (forall b, In b (xo_log o) -> exists t a c k,
          In (SStart t a) after /\ tag_class t c /\ sget (py "key") a = Some k /\ declared_as x c k b /\ default_value epoch b)
    /\ (forall t a c, In (SStart t a) after -> tag_class t c ->
          exists k b, sget (py "key") a = Some k /\ In b (xo_log o) /\ declared_as x c k b).
Proof.
  intros H (before & e & -> & R & NR).
  unfold ext_run in H. rewrite fold_res_app in H. destruct (fold_res step before (es_init g)) as [s1|] eqn:H1; [|discriminate].
  cbn [bind fold_res] in H. destruct (step s1 e) as [s2|] eqn:H2; [|discriminate].
  pose proof (run_tried before _ _ H1) as T1. cbn [es_init e_tried] in T1. rewrite Nat.add_0_r in T1.
  rewrite <- T1 in R. destruct (step_reached s1 e s2 x H2 R) as (X2 & _ & _).
  pose proof (step_tried _ _ _ H2) as T2.
  assert (TE : tries [e] = 1) by (destruct R as (t & a & u & -> & T & _); unfold tries; cbn [filter]; now rewrite T).
  assert (N2 : no_reach (e_tried s2) after).
  { intros b e' c x' E. rewrite T2, TE, T1. apply (NR b e' c x' E). }
  destruct (run_kept after s2 s (xo_new x) H N2 X2) as (l & C & XS). exists (xo_edit LLog (fun l0 => aset_update l0 l) (xo_new x)).
  split; [exact XS|]. cbn. split; [reflexivity|]. split; [reflexivity|]. split; [reflexivity|]. split; [reflexivity|]. split.
  - intros b I0. apply aset_update_in in I0. destruct I0 as [[]|I0]. exact (collected_in _ _ _ C b I0).
  - intros t a c I0 T. destruct (run_key after s2 s t a c H I0 T) as [k K].
    destruct (collected_all _ _ _ C t a c k I0 T K) as (b & I1 & D).
    destruct (represented_declared x c k b (aset_update [] l)) as (b' & I2 & D2).
    + unfold tag_class in T. cbn [In] in T. repeat (destruct T as [T|T]; [injection T; intros <- _; reflexivity|]). destruct T.
    + exact D.
    + intros b0 J. apply aset_update_in in J. destruct J as [[]|J]. destruct (collected_in _ _ _ C b0 J) as (? & ? & ? & ? & _ & _ & _ & (? & ? & ? & ? & ?) & _). auto.
    + now apply aset_update_new.
    + exists k, b'. auto.
Qed.

Theorem none_contents es g s : run es (es_init g) = Ok s -> none_reached urlparse urlopen es ->
  e_ext s = None /\ forall e, In e es -> ~ is_level e /\ forall t a c, e = SStart t a -> ~ tag_class t c.
Proof.
  intros H NR. destruct (run_none es (es_init g) s H) as [A B]; [exact NR|reflexivity|]. split; [exact A|].
  intros e I0. destruct (B e I0) as [B1 B2]. split; [exact B1|]. intros t a c E T. apply decl_tag_spec in T. rewrite (B2 t a E) in T. discriminate.
Qed.

(** Every definition falls under one of the two. *)
Lemma reached_dec n e : (exists x, reached urlparse urlopen n e x) \/ forall x, ~ reached urlparse urlopen n e x.
Proof.
  destruct e as [t a|t|c]; [|right; intros x (? & ? & ? & [=] & _)|right; intros x (? & ? & ? & [=] & _)].
  destruct (str_eqb (lower t) (py "xesextension")) eqn:T;
    [apply str_eqb_eq in T|right; intros x (? & ? & ? & [= <- <-] & Q & _); rewrite Q, str_eqb_refl in T; discriminate].
  destruct (sget (py "name") a) as [nm|] eqn:G1; [|right; intros x (? & ? & ? & [= <- <-] & _ & Q & _); congruence].
  destruct (sget (py "prefix") a) as [p|] eqn:G2; [|right; intros x (? & ? & ? & [= <- <-] & _ & _ & Q & _); congruence].
  destruct (sget (py "uri") a) as [u|] eqn:G3; [|right; intros x (? & ? & ? & [= <- <-] & _ & _ & _ & Q & _); congruence].
  destruct (urlparse u) as [v|] eqn:G4; [|right; intros x (? & ? & u' & [= <- <-] & _ & _ & _ & Q & Q2 & _); rewrite Q in G3; congruence].
  destruct (urlopen n u) eqn:G5; [|right; intros x (? & ? & u' & [= <- <-] & _ & _ & _ & Q & _ & Q2); congruence..].
  left. exists (mk_xext nm p v), t, a, u. cbn. auto 8.
Qed.
Lemma reach_cases es : forall n,
  no_reach n es \/ exists b e c x, es = b ++ e :: c /\ reached urlparse urlopen (n + tries b) e x /\ no_reach (S (n + tries b)) c.
Proof.
  induction es as [|e es IH]; intros n; [left; intros [|] ? ? ? [=]|].
  destruct (IH (n + tries [e])) as [NR|(b & e' & c & x & -> & R & NR)].
  - destruct (reached_dec n e) as [[x R]|R].
    + right. exists [], e, es, x. cbn [app tries filter List.length]. unfold tries in *. cbn [filter List.length]. rewrite Nat.add_0_r. split; [reflexivity|]. split; [exact R|].
      destruct R as (t & a & u & -> & T & _). cbn [filter] in NR. rewrite T, str_eqb_refl in NR. cbn [List.length] in NR.
      now replace (S n) with (n + 1) by lia.
    + left. intros [|e0 b] e' c x E; cbn [app] in E; injection E as <- E.
      * unfold tries. cbn. rewrite Nat.add_0_r. apply R.
      * rewrite (tries_app [e] b : tries (e :: b) = _), Nat.add_assoc. exact (NR b e' c x E).
  - right. exists (e :: b), e', c, x. rewrite (tries_app [e] b : tries (e :: b) = _), Nat.add_assoc. auto.
Qed.
Theorem reached_or_not es : none_reached urlparse urlopen es \/ exists x after, last_reached urlparse urlopen es x after.
Proof.
  destruct (reach_cases es 0) as [H|(b & e & c & x & E & R & NR)]; [left; exact H|right].
  exists x, c, b, e. split; [exact E|]. split; [exact R|]. intros b' e' c' x' E'. exact (NR b' e' c' x' E').
Qed.

(** *** Aliases *)
Lemma named_register g m k n m' k' : gm_inv g ->
  named_map (gm_register g m (KStr k) (PStr n)) m' k'
  = if str_eqb m m' && str_eqb k k' then Some n else named_map g m' k'.
Proof.
  intros I0. unfold gm_register. destruct (gm_get_inv g m I0) as (J & S0 & L). pose proof (get_mapping_named g m m' k' I0) as Nm.
  destruct (gm_get_mapping g m) as [g1 l]. cbn [fst snd] in *. rewrite <- Nm.
  unfold named_map. change (g_maps (gm_map_register g1 l (KStr k) (PStr n))) with (g_maps g1).
  destruct J as (W & ND & F & _). destruct (str_eqb_spec m m') as [<-|N0].
  - rewrite S0, gm_map_register_lookup by auto. cbn [karg_key]. now rewrite Nat.eqb_refl.
  - cbn [andb]. destruct (sget m' (g_maps g1)) as [l'|] eqn:G; [|reflexivity].
    rewrite gm_map_register_lookup by auto. cbn [karg_key].
    assert (D : Nat.eqb l l' = false).
    { apply Nat.eqb_neq. intros <-. apply N0. apply sget_in in S0, G. revert ND S0 G. generalize (g_maps g1). clear.
      induction l0 as [|[a b] t IH]; cbn; [tauto|]. intros ND [E1|I1] [E2|I2]; inversion ND; subst; try congruence; auto.
      - injection E1 as -> ->. exfalso. apply H1. apply in_map_iff. exists (m', l). auto.
      - injection E2 as -> ->. exfalso. apply H1. apply in_map_iff. exists (m, l). auto. }
    rewrite D. reflexivity.
Qed.
Lemma gm_register_inv g m x al : gm_inv g -> gm_inv (gm_register g m x al).
Proof.
  intros I0. unfold gm_register. destruct (gm_get_inv g m I0) as [J _]. destruct (gm_get_mapping g m) as [g1 l]. now apply gm_map_register_inv.
Qed.

(** What a step does to the names. *)
Lemma step_names s e s' : step s e = Ok s' ->
  e_names s' = e_names s
  \/ exists m n a, is_alias_of m e /\ e_cur s = Some a /\ e_names s' = gm_register (e_names s) m (KStr (a_key a)) (PStr n).
Proof.
  destruct e as [t a|t|c]; cbn [ext_step].
  - unfold ext_start. destruct (str_eqb (lower t) (py "xesextension")) eqn:E.
    + unfold ext_start_extension, get_val. destruct (sget _ a); [|discriminate]. cbn [bind]. destruct (sget _ a); [|discriminate].
      cbn [bind]. destruct (sget _ a); [|discriminate]. cbn [bind]. destruct (urlparse _); [|discriminate]. cbn [bind].
      destruct (urlopen _ _); intros Q; try discriminate Q; injection Q as <-; now left.
    + destruct (level_tag _); [destruct (e_ext s); intros Q; try discriminate Q; injection Q as <-; now left|]. destruct (decl_tag _) as [c|].
      * unfold ext_start_attr. destruct (e_ext s); [|discriminate]. destruct (get_val _ a); [|discriminate]. cbn [bind]. intros Q; injection Q as <-. now left.
      * destruct (str_eqb (lower t) (py "alias")) eqn:A; [|intros Q; injection Q as <-; now left]. unfold ext_start_alias. destruct (e_cur s) as [b|]; [|intros Q; injection Q as <-; now left].
        unfold get_val. destruct (sget (py "mapping") a) as [m|] eqn:M; [|discriminate]. cbn [bind]. destruct (sget (py "name") a) as [n|]; [|discriminate]. cbn [bind].
        intros Q; injection Q as <-. right. exists m, n, b. apply str_eqb_eq in A. split; [exists t, a; auto|]. auto.
  - intros Q; injection Q as <-. left. unfold ext_end. destruct (decl_tag _); reflexivity.
  - intros Q; injection Q as <-. now left.
Qed.
Lemma run_names_inv es : forall s s', run es s = Ok s' -> gm_inv (e_names s) -> gm_inv (e_names s').
Proof.
  unfold ext_run. induction es as [|e es IH]; intros s s' H I0; [now injection H as <-|].
  cbn [fold_res] in H. destruct (step s e) as [s1|] eqn:E; [|discriminate]. apply (IH s1 s' H).
  destruct (step_names s e s1 E) as [->|(m & n & a & _ & _ & ->)]; [exact I0|now apply gm_register_inv].
Qed.
Lemma run_names_frame es : forall s s' m k, run es s = Ok s' -> gm_inv (e_names s) -> (forall e, In e es -> ~ is_alias_of m e) ->
  named_map (e_names s') m k = named_map (e_names s) m k.
Proof.
  unfold ext_run. induction es as [|e es IH]; intros s s' m k H I0 NA; [now injection H as <-|].
  cbn [fold_res] in H. destruct (step s e) as [s1|] eqn:E; [|discriminate].
  assert (NE : ~ is_alias_of m e) by (apply NA; now left).
  destruct (step_names s e s1 E) as [Q|(m' & n & a & A & _ & Q)].
  - rewrite (IH s1 s' m k H); [now rewrite Q|now rewrite Q|]. intros e0 J. apply NA. now right.
  - rewrite (IH s1 s' m k H); [|rewrite Q; now apply gm_register_inv|intros e0 J; apply NA; now right].
    rewrite Q, named_register by exact I0. destruct (str_eqb_spec m' m) as [->|]; [contradiction|reflexivity].
Qed.

(** The current attribute stays over elements that are not attributes. *)
Lemma step_cur s e s' : step s e = Ok s' -> ~ is_attribute e -> e_cur s' = e_cur s.
Proof.
  intros H NA. destruct e as [t a|t|c]; cbn [ext_step] in H.
  - unfold ext_start in H. destruct (str_eqb (lower t) (py "xesextension")) eqn:E.
    + revert H. unfold ext_start_extension, get_val. destruct (sget _ a); [|discriminate]. cbn [bind]. destruct (sget _ a); [|discriminate].
      cbn [bind]. destruct (sget _ a); [|discriminate]. cbn [bind]. destruct (urlparse _); [|discriminate]. cbn [bind].
      destruct (urlopen _ _); intros Q; try discriminate Q; injection Q as <-; reflexivity.
    + destruct (level_tag _); [destruct (e_ext s); [now injection H as <-|discriminate H]|]. destruct (decl_tag _) as [c|] eqn:D.
      * exfalso. apply NA. left. exists t, a, c. split; [reflexivity|now apply decl_tag_spec].
      * destruct (str_eqb (lower t) (py "alias")); [|now injection H as <-]. unfold ext_start_alias in H. destruct (e_cur s) as [b|] eqn:C; [|now injection H as <-].
        destruct (get_val _ a); [|discriminate]. cbn [bind] in H. destruct (get_val _ a); [|discriminate]. cbn [bind] in H. injection H as <-. reflexivity.
  - injection H as <-. unfold ext_end. destruct (decl_tag _) as [c|] eqn:D; [|reflexivity].
    exfalso. apply NA. right. exists t, c. split; [reflexivity|now apply decl_tag_spec].
  - now injection H as <-.
Qed.
Lemma run_cur es : forall s s', run es s = Ok s' -> (forall e, In e es -> ~ is_attribute e) -> e_cur s' = e_cur s.
Proof.
  unfold ext_run. induction es as [|e es IH]; intros s s' H NA; [now injection H as <-|].
  cbn [fold_res] in H. destruct (step s e) as [s1|] eqn:E; [|discriminate].
  rewrite (IH s1 s' H); [apply (step_cur s e s1 E); apply NA; now left|]. intros e0 J. apply NA. now right.
Qed.

Theorem alias_registered b ta ka mid tl la c h s x after k m n cl :
  run (b ++ SStart ta ka :: mid ++ SStart tl la :: c) (es_init (nrun h)) = Ok s ->
  last_reached urlparse urlopen b x after ->
  tag_class ta cl -> sget (py "key") ka = Some k ->
  (forall e, In e mid -> ~ is_attribute e) ->
  lower tl = py "alias" -> sget (py "mapping") la = Some m -> sget (py "name") la = Some n ->
  (forall e, In e c -> ~ is_alias_of m e) ->
  named_map (e_names s) m (x_prefix x ++ py ":" ++ k) = Some n.
Proof.
  intros H LR T K NM A M N0 NC. unfold ext_run in H. rewrite fold_res_app in H.
  destruct (fold_res step b (es_init (nrun h))) as [s1|] eqn:H1; [|discriminate]. cbn [bind fold_res] in H.
  destruct (last_contents b (nrun h) s1 x after H1 LR) as (o & X1 & XI & _).
  destruct (step s1 (SStart ta ka)) as [s2|] eqn:H2; [|discriminate]. rewrite fold_res_app in H.
  destruct (fold_res step mid s2) as [s3|] eqn:H3; [|discriminate]. cbn [bind fold_res] in H.
  destruct (step s3 (SStart tl la)) as [s4|] eqn:H4; [|discriminate].
  assert (I1 : gm_inv (e_names s1)) by (apply (run_names_inv b _ _ H1); apply nrun_inv).
  assert (I2 : gm_inv (e_names s2)).
  { apply (run_names_inv [SStart ta ka] s1 s2); [|exact I1]. unfold ext_run. cbn [fold_res]. now rewrite H2. }
  assert (I3 : gm_inv (e_names s3)) by exact (run_names_inv mid _ _ H3 I2).
  assert (I4 : gm_inv (e_names s4)).
  { apply (run_names_inv [SStart tl la] s3 s4); [|exact I3]. unfold ext_run. cbn [fold_res]. now rewrite H4. }
  assert (C2 : exists a, e_cur s2 = Some a /\ a_key a = x_prefix x ++ py ":" ++ k).
  { apply decl_tag_spec in T. cbn [ext_step] in H2. unfold ext_start in H2. destruct (decl_not_ext (lower ta)) as (E1 & E2 & _); [congruence|].
    rewrite E1, E2, T in H2. unfold ext_start_attr, get_val in H2. rewrite X1, K in H2. cbn [bind] in H2. injection H2 as <-.
    eexists. split; [reflexivity|]. cbn. now rewrite XI. }
  destruct C2 as (a & C2 & KA). pose proof (run_cur mid s2 s3 H3 NM) as C3. rewrite C2 in C3.
  assert (E4 : e_names s4 = gm_register (e_names s3) m (KStr (x_prefix x ++ py ":" ++ k)) (PStr n)).
  { cbn [ext_step] in H4. unfold ext_start in H4. rewrite A in H4. change (str_eqb (py "alias") (py "xesextension")) with false in H4.
    change (level_tag (py "alias")) with false in H4. change (decl_tag (py "alias")) with (@None acls) in H4.
    change (str_eqb (py "alias") (py "alias")) with true in H4. cbn [negb] in H4. unfold ext_start_alias, get_val in H4.
    rewrite C3, M, N0 in H4. cbn [bind] in H4. injection H4 as <-. cbn. now rewrite KA. }
  rewrite (run_names_frame c s4 s m _ H I4 NC), E4, named_register by exact I3. now rewrite !str_eqb_refl.
Qed.

(** *** Without a network *)
(** An alias outside attribute elements does nothing. *)
Theorem stray_alias b tl la c g : no_attribute_open b -> lower tl = py "alias" ->
  run (b ++ SStart tl la :: c) (es_init g) = run (b ++ c) (es_init g).
Proof.
  intros O A. unfold ext_run. rewrite !fold_res_app. destruct (fold_res step b (es_init g)) as [s1|] eqn:H1; [|reflexivity].
  cbn [bind fold_res]. assert (C : e_cur s1 = None).
  { destruct O as [NA|(b1 & t & cl & mid & -> & T & NA)].
    - now rewrite (run_cur b _ _ H1 NA).
    - rewrite fold_res_app in H1. destruct (fold_res step b1 (es_init g)) as [s2|] eqn:H2; [|discriminate]. cbn [bind fold_res ext_step] in H1.
      rewrite (run_cur mid _ _ H1 NA). unfold ext_end. apply decl_tag_spec in T. now rewrite T. }
  assert (S : step s1 (SStart tl la) = Ok s1).
  { cbn [ext_step]. unfold ext_start. rewrite A. change (str_eqb (py "alias") (py "xesextension")) with false.
    change (level_tag (py "alias")) with false. change (decl_tag (py "alias")) with (@None acls).
    change (str_eqb (py "alias") (py "alias")) with true. unfold ext_start_alias. now rewrite C. }
  now rewrite S.
Qed.

Lemma offline_from es : (forall n u, urlopen n u = Unreachable) -> (forall e, In e es -> complete_ext urlparse e) ->
  forall s, e_ext s = None -> e_cur s = None ->
  (exists e, In e es /\ (is_level e \/ exists t a c, e = SStart t a /\ tag_class t c)) ->
  run es s = Raise AttributeError.
Proof.
  intros OFF. unfold ext_run. induction es as [|e es IH]; intros CP s X C (e0 & I0 & B); [destruct I0|]. cbn [fold_res].
  assert (STEP : step s e = Raise AttributeError
      \/ (~ (is_level e \/ exists t a c, e = SStart t a /\ tag_class t c) /\ exists s1, step s e = Ok s1 /\ e_ext s1 = None /\ e_cur s1 = None)).
  { destruct e as [t a|t|c]; cbn [ext_step].
    - unfold ext_start. destruct (str_eqb (lower t) (py "xesextension")) eqn:E.
      + right. apply str_eqb_eq in E. split.
        * intros [(t1 & a1 & [= <- <-] & Q)|(t1 & a1 & c1 & [= <- <-] & Q)].
          -- apply level_tag_spec in Q. rewrite E in Q. discriminate.
          -- apply decl_tag_spec in Q. rewrite E in Q. discriminate.
        * destruct (CP (SStart t a) (or_introl eq_refl) t a eq_refl E) as (n & p & u & v & A1 & A2 & A3 & A4).
          unfold ext_start_extension, get_val. rewrite A1, A2, A3. cbn [bind]. rewrite A4. cbn [bind]. rewrite OFF. eexists. split; [reflexivity|]. auto.
      + destruct (level_tag (lower t)) eqn:L; [left; now rewrite X|]. destruct (decl_tag (lower t)) as [c|] eqn:D; [left; unfold ext_start_attr; now rewrite X|].
        right. split.
        * intros [(t1 & a1 & [= <- <-] & Q)|(t1 & a1 & c1 & [= <- <-] & Q)].
          -- apply level_tag_spec in Q. congruence.
          -- apply decl_tag_spec in Q. congruence.
        * exists s. split; [|auto]. destruct (str_eqb (lower t) (py "alias")); [|reflexivity]. unfold ext_start_alias. now rewrite C.
    - right. split; [intros [(? & ? & [=] & _)|(? & ? & ? & [=] & _)]|]. eexists. split; [reflexivity|]. unfold ext_end. destruct (decl_tag _); auto.
    - right. split; [intros [(? & ? & [=] & _)|(? & ? & ? & [=] & _)]|]. eexists. split; [reflexivity|]. auto. }
  destruct STEP as [->|(NB & s1 & -> & X1 & C1)]; [reflexivity|].
  apply (IH (fun e1 I1 => CP e1 (or_intror I1)) s1 X1 C1). destruct I0 as [<-|I0]; [contradiction|]. exists e0. auto.
Qed.
End Parser.
