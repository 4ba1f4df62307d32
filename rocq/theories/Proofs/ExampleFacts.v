(** Lemmas on the example scripts. *)
From Coq Require Import String NArith ZArith List Bool Permutation Lia.
From Verif Require Import Base.PyBase Base.PyDate Base.PyVal Proofs.BaseFacts Model.Attr
  Model.Log Model.Classify Model.Alpha Model.Examples Spec.Transform Proofs.AlphaFacts.
Import ListNotations.

Section WithFloatIO.
Context `{FIO : FloatIO}.

(** ** Variants *)

Lemma same_events_ok c : forall a b u v,
  map_res (class_identity c) a = Ok u -> map_res (class_identity c) b = Ok v ->
  List.length a = List.length b -> same_events c a b = Ok (tuple_eqb u v).
Proof.
  induction a as [| x a IH]; intros [| y b] u v Hu Hv L; try discriminate.
  - injection Hu as <-. injection Hv as <-. reflexivity.
  - cbn [map_res] in Hu, Hv.
    destruct (class_identity c x) as [i |] eqn:Ex; [| discriminate].
    destruct (class_identity c y) as [j |] eqn:Ey; [| discriminate].
    destruct (map_res (class_identity c) a) as [u' |] eqn:Eu; [| discriminate].
    destruct (map_res (class_identity c) b) as [v' |] eqn:Ev; [| discriminate].
    injection Hu as <-. injection Hv as <-. cbn [same_events tuple_eqb].
    unfold same_event_class. rewrite Ex, Ey. cbn [bind].
    destruct (str_eqb i j); [| reflexivity]. apply (IH b u' v'); auto.
Qed.

Lemma map_res_length {A B} (f : A -> res B) l : forall m,
  map_res f l = Ok m -> List.length m = List.length l.
Proof.
  induction l as [| x l IH]; intros m H; cbn in H.
  - now injection H as <-.
  - destruct (f x); [| discriminate]. destruct (map_res f l); [| discriminate].
    injection H as <-. cbn. now rewrite (IH _ eq_refl).
Qed.

Lemma same_trace_ok c a b u v : variant c a = Ok u -> variant c b = Ok v ->
  same_trace c a b = Ok (tuple_eqb u v).
Proof.
  intros Hu Hv. unfold same_trace.
  destruct (Nat.eqb_spec (List.length (tr_events a)) (List.length (tr_events b))) as [E | E].
  - cbn [negb]. now apply same_events_ok.
  - cbn [negb]. f_equal. symmetry. apply not_true_iff_false. intros T.
    apply tuple_eqb_eq in T. subst v. unfold variant in *.
    apply map_res_length in Hu, Hv. lia.
Qed.

Lemma have_trace_ok c a u : variant c a = Ok u -> forall new vs,
  map_res (variant c) new = Ok vs ->
  have_trace c a new = Ok (mem tuple_eqb u vs).
Proof.
  intros Hu. induction new as [| b new IH]; intros vs H; cbn [map_res have_trace] in *.
  - now injection H as <-.
  - destruct (variant c b) as [v |] eqn:Ev; [| discriminate].
    destruct (map_res (variant c) new) as [ws |] eqn:Ew; [| discriminate].
    injection H as <-. rewrite (same_trace_ok c a b u v Hu Ev). cbn [bind mem existsb].
    destruct (tuple_eqb u v); [reflexivity |]. cbn. apply (IH ws eq_refl).
Qed.

Lemma map_res_app {A B} (f : A -> res B) l m u v :
  map_res f l = Ok u -> map_res f m = Ok v -> map_res f (l ++ m) = Ok (u ++ v).
Proof.
  revert u. induction l as [| x l IH]; intros u Hu Hv; cbn in *.
  - injection Hu as <-. exact Hv.
  - destruct (f x); [| discriminate]. destruct (map_res f l) as [w |] eqn:E; [| discriminate].
    injection Hu as <-. now rewrite (IH w eq_refl Hv).
Qed.

(** The kept traces, by variants. *)
Fixpoint kept (seen : list (list pystr)) (l : list (list pystr * trace)) : list (list pystr * trace) :=
  match l with
  | [] => []
  | (v, t) :: r => if mem tuple_eqb v seen then kept seen r else (v, t) :: kept (seen ++ [v]) r
  end.

Lemma filter_gen c ts : forall vs, map_res (variant c) ts = Ok vs ->
  forall new ws, map_res (variant c) new = Ok ws ->
  exists r, fold_res (fun new a => let! h := have_trace c a new in
                         Ok (if h then new else new ++ [a])) ts new
            = Ok (new ++ map snd r) /\ r = kept ws (combine vs ts).
Proof.
  induction ts as [| t ts IH]; intros vs H new ws Hn; cbn [map_res fold_res] in *.
  - injection H as <-. eexists. split; [| reflexivity]. cbn. now rewrite app_nil_r.
  - destruct (variant c t) as [v |] eqn:Ev; [| discriminate].
    destruct (map_res (variant c) ts) as [us |] eqn:Eu; [| discriminate].
    injection H as <-. rewrite (have_trace_ok c t v Ev new ws Hn). cbn [bind combine kept].
    destruct (mem tuple_eqb v ws).
    + destruct (IH us eq_refl new ws Hn) as (r & H & E). exists r. auto.
    + destruct (IH us eq_refl (new ++ [t]) (ws ++ [v])) as (r & H & E).
      { apply map_res_app; [exact Hn |]. cbn. now rewrite Ev. }
      exists ((v, t) :: r). rewrite H, E. cbn. now rewrite <- app_assoc.
Qed.

Lemma kept_NoDup l : forall seen, NoDup seen -> NoDup (seen ++ map fst (kept seen l)).
Proof.
  induction l as [| [v t] l IH]; intros seen N; cbn [kept].
  - cbn. now rewrite app_nil_r.
  - destruct (mem tuple_eqb v seen) eqn:M; [now apply IH |].
    cbn [map fst]. specialize (IH (seen ++ [v])). rewrite <- app_assoc in IH. apply IH.
    apply (Permutation_NoDup (l := v :: seen)); [apply Permutation_cons_append |].
    constructor; [| exact N]. now apply (mem_not _ tuple_eqb_eq) in M.
Qed.

Lemma kept_all l : forall seen v, In v (map fst l) -> In v seen \/ In v (map fst (kept seen l)).
Proof.
  induction l as [| [w t] l IH]; intros seen v H; cbn [map In fst kept] in *; [easy |].
  destruct (mem tuple_eqb w seen) eqn:M.
  - destruct H as [<- | H]; [left; now apply (mem_In _ tuple_eqb_eq) | now apply IH].
  - destruct H as [<- | H]; [right; now left |].
    destruct (IH (seen ++ [w]) v H) as [K | K].
    + apply in_app_iff in K. destruct K as [K | [<- | []]]; [now left | right; now left].
    + right. now right.
Qed.

(** Positions. *)
Lemma kept_pos d l : forall seen,
  exists ps, kept seen l = map (fun i => nth i l d) ps /\
    (forall i, In i ps <-> i < List.length l /\ ~ In (fst (nth i l d)) (seen ++ firstn i (map fst l)))
    /\ NoDup ps /\ (forall i j, i < j < List.length ps -> nth i ps 0 < nth j ps 0).
Proof.
  induction l as [| [v t] l IH]; intros seen; cbn [kept].
  - exists []. cbn. repeat split; try easy; try (intros; lia). constructor.
  - assert (Sh : forall ps, map (fun i => nth i l d) ps
                 = map (fun i => nth i ((v, t) :: l) d) (map S ps)).
    { intros ps. rewrite map_map. reflexivity. }
    assert (Mono : forall ps, (forall i j, i < j < List.length ps -> nth i ps 0 < nth j ps 0) ->
       forall i j, i < j < List.length (map S ps) -> nth i (map S ps) 0 < nth j (map S ps) 0).
    { intros ps H i j L. rewrite map_length in L.
      rewrite (nth_indep _ 0 (S 0)) by (rewrite map_length; lia).
      rewrite (nth_indep (map S ps) (n := j) 0 (S 0)) by (rewrite map_length; lia).
      rewrite !map_nth. apply -> Nat.succ_lt_mono. now apply H. }
    destruct (mem tuple_eqb v seen) eqn:M.
    + destruct (IH seen) as (ps & E & P & N & O). exists (map S ps).
      rewrite E, Sh. split; [reflexivity |]. split; [| split; [| now apply Mono]].
      * apply (mem_In _ tuple_eqb_eq) in M. intros [| i].
        -- split; [intros K; apply in_map_iff in K; destruct K as (? & ? & _); lia |].
           intros [_ K]. exfalso. apply K. rewrite in_app_iff. cbn. auto.
        -- rewrite in_map_iff. cbn [nth List.length map fst firstn]. split.
           ++ intros (j & [= ->] & K). apply P in K. destruct K as [L K]. split; [lia |].
              intros Q. apply K. rewrite in_app_iff in *. cbn in Q.
              destruct Q as [Q | [Q | Q]]; auto. rewrite <- Q. auto.
           ++ intros [L K]. exists i. split; [reflexivity |]. apply P. split; [lia |].
              intros Q. apply K. rewrite in_app_iff in *. cbn. tauto.
      * apply FinFun.Injective_map_NoDup; [| exact N]. intros a b [= ->]. reflexivity.
    + destruct (IH (seen ++ [v])) as (ps & E & P & N & O). exists (0 :: map S ps).
      rewrite E, Sh. split; [reflexivity |]. split; [| split].
      * apply (mem_not _ tuple_eqb_eq) in M. intros [| i].
        -- cbn [In nth List.length fst firstn map]. rewrite app_nil_r.
           split; [intros _; split; [lia | exact M] | now left].
        -- cbn [In nth List.length map fst firstn]. rewrite in_map_iff. split.
           ++ intros [K | (j & [= ->] & K)]; [discriminate |]. apply P in K.
              destruct K as [L K]. split; [lia |]. intros Q. apply K.
              rewrite !in_app_iff in *. cbn in *. tauto.
           ++ intros [L K]. right. exists i. split; [reflexivity |]. apply P. split; [lia |].
              intros Q. apply K. rewrite !in_app_iff in *. cbn in *. tauto.
      * constructor.
        -- intros K. apply in_map_iff in K. destruct K as (? & ? & _). discriminate.
        -- apply FinFun.Injective_map_NoDup; [| exact N]. intros a b [= ->]. reflexivity.
      * intros [| i] [| j] L; try lia.
        -- cbn [nth List.length] in *. rewrite map_length in L.
           rewrite (nth_indep _ 0 (S 0)) by (rewrite map_length; lia). rewrite map_nth. lia.
        -- cbn [nth]. apply (Mono ps O). cbn [List.length] in L. lia.
Qed.

Lemma map_fst_combine {A B} (u : list A) : forall (v : list B),
  List.length u = List.length v -> map fst (combine u v) = u.
Proof.
  induction u as [| x u IH]; intros [| y v] H; cbn in *; try discriminate; [reflexivity |].
  f_equal. apply IH. now injection H.
Qed.

Lemma filter_main c l vs : map_res (variant c) (lg_traces l) = Ok vs ->
  exists ts, filter_log c l = Ok (mk_log (lg_attrs l) ts (lg_exts l) (lg_classifiers l)
                                         (lg_gtrace l) (lg_gevent l) (lg_features l)) /\
    (exists ps, (forall i, In i ps <-> first_at vs i) /\
       (forall i j, i < j < List.length ps -> nth i ps 0 < nth j ps 0) /\
       ts = map (fun i => nth i (lg_traces l) (mk_trace [] [])) ps) /\
    exists ws, map_res (variant c) ts = Ok ws /\ NoDup ws /\ forall v, In v ws <-> In v vs.
Proof.
  intros H. destruct (filter_gen c _ vs H [] [] eq_refl) as (r & E & R). cbn in E.
  exists (map snd r). unfold filter_log, filter_traces. rewrite E. cbn [bind].
  split; [reflexivity |]. pose proof (map_res_length _ _ _ H) as L.
  assert (FC : map fst (combine vs (lg_traces l)) = vs) by (apply map_fst_combine; lia).
  assert (NC : forall i, nth i (combine vs (lg_traces l)) ([], mk_trace [] [])
                         = (nth i vs [], nth i (lg_traces l) (mk_trace [] []))).
  { intros i. apply combine_nth. exact L. }
  split.
  - destruct (kept_pos ([], mk_trace [] []) (combine vs (lg_traces l)) [])
      as (ps & Ep & P & N & O).
    exists ps. split; [| split; [exact O |]].
    + intros i. rewrite P. unfold first_at. cbn [app]. rewrite NC, FC, combine_length.
      cbn [fst]. rewrite L, Nat.min_id. tauto.
    + rewrite R, Ep, map_map. apply map_ext. intros i. now rewrite NC.
  - exists (map fst r). split; [| split].
    + assert (G : forall l' seen, (forall v t, In (v, t) l' -> variant c t = Ok v) ->
        map_res (variant c) (map snd (kept seen l')) = Ok (map fst (kept seen l'))).
      { induction l' as [| [v t] l' IH]; intros seen K; cbn [kept]; [reflexivity |].
        destruct (mem tuple_eqb v seen).
        - apply IH. intros. apply K. now right.
        - cbn [map map_res fst snd]. rewrite (K v t (or_introl eq_refl)), IH; [reflexivity |].
          intros. apply K. now right. }
      rewrite R. apply G.
      clear - H. intros v t K. revert vs H K.
      induction (lg_traces l) as [| t' ts IH]; intros vs H K; cbn in H.
      * injection H as <-. easy.
      * destruct (variant c t') as [v' |] eqn:Ev; [| discriminate].
        destruct (map_res (variant c) ts) as [us |]; [| discriminate]. injection H as <-.
        destruct K as [[= <- <-] | K]; [exact Ev | exact (IH us eq_refl K)].
    + rewrite R. apply (kept_NoDup (combine vs (lg_traces l)) []). constructor.
    + intros v. rewrite R. split; intros K.
      * rewrite <- FC. clear - K. revert K. generalize ([] : list (list pystr)) as seen.
        induction (combine vs (lg_traces l)) as [| [w t] l' IH]; intros seen K; cbn in *; [easy |].
        destruct (mem tuple_eqb w seen); [right; eauto |].
        destruct K as [<- | K]; [now left | right; eauto].
      * rewrite <- FC in K. destruct (kept_all _ [] v K) as [[] | K']. exact K'.
Qed.

Lemma kept_distinct l : NoDup (map fst l) -> kept [] l = l.
Proof.
  intros N. assert (G : forall seen, (forall v, In v seen -> ~ In v (map fst l)) -> kept seen l = l);
    [| apply G; easy].
  induction l as [| [v t] l IH]; intros seen D; [reflexivity |].
  cbn [map fst] in N. inversion_clear N. cbn [kept].
  destruct (mem tuple_eqb v seen) eqn:M.
  - apply (mem_In _ tuple_eqb_eq) in M. exfalso. apply (D v M). now left.
  - f_equal. apply IH; [assumption |]. intros w Hw K. apply in_app_iff in Hw.
    destruct Hw as [Hw | [<- | []]]; [| contradiction]. apply (D w Hw). now right.
Qed.

(** ** Anonymous logs *)

Lemma is_resource_ok a : is_resource a = true <-> hidden_key (a_key a).
Proof.
  unfold is_resource, hidden_key. cbn [existsb]. rewrite orb_false_r, orb_true_iff, !str_eqb_eq.
  tauto.
Qed.

Lemma hide_ok a b : hide a = Ok b -> hidden a b.
Proof.
  unfold hide, hidden. destruct (is_resource a) eqn:E.
  - apply is_resource_ok in E. destruct a as [c k x v co me]. cbn.
    destruct (is_collection c); [discriminate |]. intros [= <-]. right. auto.
  - intros [= <-]. left. split; [| reflexivity]. intros K. apply is_resource_ok in K. congruence.
Qed.

Lemma hide_raise a : (bad a -> hide a = Raise AttributeError) /\ (~ bad a -> exists b, hide a = Ok b).
Proof.
  unfold hide, bad. destruct (is_resource a) eqn:E.
  - pose proof (proj1 (is_resource_ok a) E) as K. destruct a as [c k x v co me]. cbn in *.
    destruct (is_collection c); split; intros H.
    + reflexivity.
    + exfalso. auto.
    + destruct H. discriminate.
    + eauto.
  - split; intros H.
    + destruct H as [K _]. apply is_resource_ok in K. congruence.
    + eauto.
Qed.

Lemma map_res_spec {A B} (f : A -> res B) (P : A -> B -> Prop) (Q : A -> Prop) e
  (ok : forall a b, f a = Ok b -> P a b)
  (ra : forall a, (Q a -> f a = Raise e) /\ (~ Q a -> exists b, f a = Ok b))
  (dec : forall a, Q a \/ ~ Q a) l :
  (forall m, map_res f l = Ok m -> Forall2 P l m) /\
  ((exists a, In a l /\ Q a) -> map_res f l = Raise e) /\
  ((forall a, In a l -> ~ Q a) -> exists m, map_res f l = Ok m).
Proof.
  induction l as [| x l (I1 & I2 & I3)]; cbn [map_res].
  - split; [| split].
    + intros m [= <-]. constructor.
    + intros (a & [] & _).
    + eauto.
  - destruct (dec x) as [D | D].
    + rewrite (proj1 (ra x) D). split; [discriminate |]. split; [reflexivity |].
      intros H. exfalso. exact (H x (or_introl eq_refl) D).
    + destruct (proj2 (ra x) D) as [b E]. rewrite E. split; [| split].
      * intros m H. destruct (map_res f l) as [m' |]; [| discriminate]. injection H as <-.
        constructor; auto.
      * intros (a & [-> | H] & K); [contradiction |]. rewrite I2; [reflexivity |]. eauto.
      * intros H. destruct I3 as [m E']; [intros; apply H; now right |]. rewrite E'. eauto.
Qed.

Lemma bad_dec a : bad a \/ ~ bad a.
Proof.
  unfold bad. destruct (is_resource a) eqn:E.
  - apply is_resource_ok in E. destruct (is_collection (a_cls a)); [left; auto | right].
    intros [_ K]. discriminate.
  - right. intros [K _]. apply is_resource_ok in K. congruence.
Qed.

Lemma ex_dec {A} (Q : A -> Prop) (dec : forall a, Q a \/ ~ Q a) l :
  (exists a, In a l /\ Q a) \/ ~ (exists a, In a l /\ Q a).
Proof.
  induction l as [| x l IH].
  - right. intros (a & [] & _).
  - destruct (dec x) as [D | D]; [left; exists x; cbn; auto |].
    destruct IH as [(a & H & K) | IH]; [left; exists a; cbn; auto |].
    right. intros (a & [-> | H] & K); [auto | apply IH; eauto].
Qed.

Definition bad_map (m : sdict attr) : Prop := exists x, In x m /\ bad (snd x).
Definition bad_event (e : event) : Prop := bad_map (ev_attrs e).
Definition bad_trace (t : trace) : Prop :=
  bad_map (tr_attrs t) \/ exists e, In e (tr_events t) /\ bad_event e.

Lemma hide_map_spec m :
  (forall n, hide_map m = Ok n -> Forall2 hidden_in m n) /\
  (bad_map m -> hide_map m = Raise AttributeError) /\
  (~ bad_map m -> exists n, hide_map m = Ok n).
Proof.
  destruct (map_res_spec (fun '(k, a) => let! b := hide a in Ok (k, b)) hidden_in
              (fun x => bad (snd x)) AttributeError) with (l := m) as (H1 & H2 & H3).
  - intros [k a] y. destruct (hide a) as [b |] eqn:E; [| discriminate].
    intros [= <-]. split; [reflexivity |]. now apply hide_ok.
  - intros [k a]. cbn [snd]. split; intros K.
    + now rewrite (proj1 (hide_raise a) K).
    + destruct (proj2 (hide_raise a) K) as [b ->]. cbn. eauto.
  - intros [k a]. apply bad_dec.
  - split; [exact H1 |]. split; [exact H2 |]. intros N. apply H3. intros x Hx K. apply N.
    now exists x.
Qed.

Lemma bad_map_dec m : bad_map m \/ ~ bad_map m.
Proof. apply ex_dec. intros x. apply bad_dec. Qed.

Lemma hide_events_spec l :
  (forall m, map_res hide_event l = Ok m -> Forall2 hidden_event l m) /\
  ((exists e, In e l /\ bad_event e) -> map_res hide_event l = Raise AttributeError) /\
  ((forall e, In e l -> ~ bad_event e) -> exists m, map_res hide_event l = Ok m).
Proof.
  apply map_res_spec.
  - intros e f. unfold hide_event. destruct (hide_map (ev_attrs e)) as [m |] eqn:E; [| discriminate].
    intros [= <-]. split; [reflexivity |]. now apply hide_map_spec.
  - intros e. unfold hide_event, bad_event. destruct (hide_map_spec (ev_attrs e)) as (_ & H2 & H3).
    split; intros K.
    + now rewrite H2.
    + destruct (H3 K) as [n ->]. cbn. eauto.
  - intros e. apply bad_map_dec.
Qed.

Lemma bad_trace_dec t : bad_trace t \/ ~ bad_trace t.
Proof.
  unfold bad_trace. destruct (bad_map_dec (tr_attrs t)) as [D | D]; [auto |].
  destruct (ex_dec bad_event (fun e => bad_map_dec (ev_attrs e)) (tr_events t)); tauto.
Qed.

Lemma hide_traces_spec l :
  (forall m, map_res hide_trace l = Ok m -> Forall2 hidden_trace l m) /\
  ((exists e, In e l /\ bad_trace e) -> map_res hide_trace l = Raise AttributeError) /\
  ((forall e, In e l -> ~ bad_trace e) -> exists m, map_res hide_trace l = Ok m).
Proof.
  apply map_res_spec.
  - intros t u. unfold hide_trace. destruct (hide_map (tr_attrs t)) as [m |] eqn:E; [| discriminate].
    cbn [bind]. destruct (map_res hide_event (tr_events t)) as [es |] eqn:F; [| discriminate].
    intros [= <-]. split; [now apply hide_map_spec | now apply hide_events_spec].
  - intros t. unfold hide_trace, bad_trace.
    destruct (hide_map_spec (tr_attrs t)) as (_ & H2 & H3).
    destruct (hide_events_spec (tr_events t)) as (_ & E2 & E3).
    destruct (bad_map_dec (tr_attrs t)) as [D | D].
    + rewrite (H2 D). split; [reflexivity | tauto].
    + destruct (H3 D) as [n ->]. cbn [bind]. split; intros K.
      * destruct K as [K | K]; [contradiction |]. now rewrite (E2 K).
      * destruct E3 as [m ->]; [intros e He B; apply K; right; eauto |]. cbn. eauto.
  - apply bad_trace_dec.
Qed.

Lemma hides_spec l :
  (forall m, map_res hide l = Ok m -> Forall2 hidden l m) /\
  ((exists e, In e l /\ bad e) -> map_res hide l = Raise AttributeError) /\
  ((forall e, In e l -> ~ bad e) -> exists m, map_res hide l = Ok m).
Proof. apply map_res_spec; [apply hide_ok | apply hide_raise | apply bad_dec]. Qed.

Lemma top_bad l : (exists a, In a (top_attrs l) /\ bad a) <->
  (exists a, In a (lg_gtrace l) /\ bad a) \/ (exists a, In a (lg_gevent l) /\ bad a)
  \/ (exists t, In t (lg_traces l) /\ bad_trace t).
Proof.
  unfold top_attrs, log_events. split.
  - intros (a & H & B). rewrite !in_app_iff, !in_flat_map in H.
    destruct H as [H | [H | [(t & Ht & H) | (e & He & H)]]].
    + left. eauto.
    + right. left. eauto.
    + right. right. exists t. split; [exact Ht |]. left. apply in_map_iff in H.
      destruct H as (x & <- & H). now exists x.
    + apply in_flat_map in He. destruct He as (t & Ht & He). right. right. exists t.
      split; [exact Ht |]. right. exists e. split; [exact He |]. apply in_map_iff in H.
      destruct H as (x & <- & H). now exists x.
  - intros [(a & H & B) | [(a & H & B) | (t & Ht & [(x & H & B) | (e & He & x & H & B)])]].
    + exists a. rewrite !in_app_iff. auto.
    + exists a. rewrite !in_app_iff. auto.
    + exists (snd x). rewrite !in_app_iff, !in_flat_map. split; [| exact B].
      right. right. left. exists t. split; [exact Ht | now apply in_map].
    + exists (snd x). rewrite !in_app_iff, !in_flat_map. split; [| exact B].
      right. right. right. exists e. split; [apply in_flat_map; eauto | now apply in_map].
Qed.

Lemma anonymize_main l :
  ((exists a, In a (top_attrs l) /\ bad a) -> anonymize l = Raise AttributeError) /\
  (~ (exists a, In a (top_attrs l) /\ bad a) ->
   exists gt ge ts,
     anonymize l = Ok (mk_log (lg_attrs l) ts (lg_exts l) (lg_classifiers l) gt ge (lg_features l))
     /\ Forall2 hidden (lg_gtrace l) gt /\ Forall2 hidden (lg_gevent l) ge
     /\ Forall2 hidden_trace (lg_traces l) ts).
Proof.
  rewrite top_bad. unfold anonymize.
  destruct (hides_spec (lg_gtrace l)) as (T1 & T2 & T3).
  destruct (hides_spec (lg_gevent l)) as (E1 & E2 & E3).
  destruct (hide_traces_spec (lg_traces l)) as (S1 & S2 & S3).
  destruct (ex_dec bad bad_dec (lg_gtrace l)) as [D | D].
  { rewrite (T2 D). split; [reflexivity | tauto]. }
  destruct T3 as [gt Egt]; [intros e He B; apply D; eauto |]. rewrite Egt. cbn [bind].
  destruct (ex_dec bad bad_dec (lg_gevent l)) as [D' | D'].
  { rewrite (E2 D'). split; [reflexivity | tauto]. }
  destruct E3 as [ge Ege]; [intros e He B; apply D'; eauto |]. rewrite Ege. cbn [bind].
  destruct (ex_dec bad_trace bad_trace_dec (lg_traces l)) as [D2 | D2].
  { rewrite (S2 D2). split; [reflexivity | tauto]. }
  destruct S3 as [ts Ets]; [intros e He B; apply D2; eauto |]. rewrite Ets. cbn [bind].
  split; [tauto |]. intros _. exists gt, ge, ts. auto 10.
Qed.

Lemma hidden_left a b : hidden a b -> hidden_key (a_key b) -> a_val b = PStr (py "UNKNOWN").
Proof.
  intros [[N ->] | [_ ->]] K; [contradiction | reflexivity].
Qed.

Lemma Forall2_right {A B} (P : A -> B -> Prop) l m : Forall2 P l m ->
  forall b, In b m -> exists a, In a l /\ P a b.
Proof.
  induction 1; intros z [].
  - subst. eexists. split; [now left | assumption].
  - destruct (IHForall2 z H1) as (a & ? & ?). exists a. split; [now right | assumption].
Qed.

Lemma anonymize_none_left (l l' : xlog) : anonymize l = Ok l' ->
  forall a, In a (top_attrs l') -> hidden_key (a_key a) -> a_val a = PStr (py "UNKNOWN").
Proof.
  intros H a I K.
  destruct (ex_dec bad bad_dec (top_attrs l)) as [D | D].
  { rewrite (proj1 (anonymize_main l) D) in H. discriminate. }
  destruct (proj2 (anonymize_main l) D) as (gt & ge & ts & E & Ht & He & Hs).
  rewrite E in H. injection H as <-. unfold top_attrs, log_events in I.
  cbn [lg_gtrace lg_gevent lg_traces] in I. rewrite !in_app_iff, !in_flat_map in I.
  assert (M : forall m n, Forall2 hidden_in m n -> In a (map snd n) -> a_val a = PStr (py "UNKNOWN")).
  { intros m n F Ia. apply in_map_iff in Ia. destruct Ia as (y & <- & Iy).
    destruct (Forall2_right _ _ _ F y Iy) as (x & _ & _ & Hx). now apply (hidden_left (snd x)). }
  destruct I as [I | [I | [(t & It & I) | (e & Ie & I)]]].
  - destruct (Forall2_right _ _ _ Ht a I) as (x & _ & X). now apply (hidden_left x).
  - destruct (Forall2_right _ _ _ He a I) as (x & _ & X). now apply (hidden_left x).
  - destruct (Forall2_right _ _ _ Hs t It) as (u & _ & Ha & _). exact (M _ _ Ha I).
  - apply in_flat_map in Ie. destruct Ie as (t & It & Ie).
    destruct (Forall2_right _ _ _ Hs t It) as (u & _ & _ & Hev).
    destruct (Forall2_right _ _ _ Hev e Ie) as (f & _ & _ & Ha). exact (M _ _ Ha I).
Qed.

Lemma map_snd_combine {A B} (u : list A) : forall (v : list B),
  List.length u = List.length v -> map snd (combine u v) = v.
Proof.
  induction u as [| x u IH]; intros [| y v] H; cbn in *; try discriminate; [reflexivity |].
  f_equal. apply IH. now injection H.
Qed.

Lemma fold_sset_find (l : list attr) k :
  sget k (fold_left (fun m a => sset (a_key a) a m) l []) = find (fun a => str_eqb k (a_key a)) (rev l).
Proof.
  induction l as [| a l IH] using rev_ind; [reflexivity |].
  rewrite fold_left_app, rev_app_distr. cbn [fold_left rev app find].
  destruct (str_eqb k (a_key a)) eqn:E.
  - apply str_eqb_eq in E. subst k. apply sget_sset_same.
  - rewrite sget_sset_other; [exact IH |]. intros X. subst. rewrite str_eqb_refl in E. discriminate.
Qed.

(** ** Tables *)

Section Csv.
Variable strp : pystr -> pystr -> option datetime.
Variable draw : nat -> N.

(** The events of the rows, numbered from [n]. *)
Fixpoint row_events (types : list pystr) (n : nat) (rows : list pystr) : res (list event) :=
  match rows with
  | [] => Ok []
  | r :: rs => let! e := convert_line strp draw types n (split (py ";") r) in
               let! es := row_events types (S n) rs in Ok (e :: es)
  end.

Lemma csv_gen types c0 rows : forall n es, row_events types n rows = Ok es ->
  forall done cur,
  exists k last, fold_res (csv_step strp draw types c0) rows (n, done, cur) = Ok (k, done ++ removelast (cut c0 cur (combine (map case_of rows) es)), last).
Proof.
  induction rows as [| r rows IH]; intros n es H done cur; cbn [row_events fold_res] in *.
  - injection H as <-. cbn. rewrite app_nil_r. eauto.
  - destruct (convert_line strp draw types n (split (py ";") r)) as [e |] eqn:E; [| discriminate].
    cbn [bind] in H. destruct (row_events types (S n) rows) as [fs |] eqn:F; [| discriminate].
    injection H as <-. unfold csv_step at 1. rewrite E. cbn [bind map combine cut].
    fold (case_of r). destruct (str_eqb (case_of r) c0).
    + apply (IH (S n) fs F).
    + destruct (IH (S n) fs F (done ++ [cur]) [e]) as (k & last & G). exists k, last.
      rewrite G, <- app_assoc. do 4 f_equal.
      assert (NE : cut c0 [e] (combine (map case_of rows) fs) <> []).
      { generalize [e]. generalize (combine (map case_of rows) fs).
        induction l as [| [c a] l IHl]; intros cur'; cbn; [discriminate |].
        destruct (str_eqb c c0); [apply IHl | discriminate]. }
      destruct (cut c0 [e] (combine (map case_of rows) fs)); [contradiction | reflexivity].
Qed.

Lemma csv_raise types c0 rows : forall n ex, row_events types n rows = Raise ex ->
  forall done cur, fold_res (csv_step strp draw types c0) rows (n, done, cur) = Raise ex.
Proof.
  induction rows as [| r rows IH]; intros n ex H done cur; cbn [row_events fold_res] in *.
  - discriminate.
  - unfold csv_step at 1.
    destruct (convert_line strp draw types n (split (py ";") r)) as [e |] eqn:E.
    + cbn [bind] in H |- *.
      destruct (row_events types (S n) rows) as [fs | ex'] eqn:F; [discriminate |].
      injection H as ->. destruct (str_eqb _ _); now apply IH.
    + cbn in *. now injection H as ->.
Qed.

Lemma cut_concat {A} c0 (rows : list (pystr * A)) : forall cur,
  List.concat (cut c0 cur rows) = cur ++ map snd rows.
Proof.
  induction rows as [| [c a] rows IH]; intros cur; cbn.
  - reflexivity.
  - destruct (str_eqb c c0).
    + rewrite IH, <- app_assoc. reflexivity.
    + cbn. now rewrite IH.
Qed.

Lemma cut_nonempty {A} c0 (rows : list (pystr * A)) : forall cur, cur <> [] ->
  Forall (fun g => g <> []) (cut c0 cur rows) /\ cut c0 cur rows <> [].
Proof.
  induction rows as [| [c a] rows IH]; intros cur N; cbn.
  - split; [auto | discriminate].
  - destruct (str_eqb c c0).
    + apply IH. destruct cur; discriminate.
    + destruct (IH [a]) as [F _]; [discriminate |]. split; [auto | discriminate].
Qed.

Lemma cut_first {A} c0 (rows : list (pystr * A)) : forall cur,
  Forall (fun r => fst r = c0) rows -> cut c0 cur rows = [cur ++ map snd rows].
Proof.
  induction rows as [| [c a] rows IH]; intros cur F; cbn.
  - now rewrite app_nil_r.
  - inversion_clear F. cbn in H. subst c. rewrite str_eqb_refl, IH by assumption.
    now rewrite <- app_assoc.
Qed.

(** Fields. *)
Lemma convert_fields_get types : forall texts m m',
  convert_fields strp types texts m = Ok m' ->
  exists l, map_res (fun '(t, s) => convert_field strp t s) (combine types texts) = Ok l /\
    List.length texts <= List.length types /\
    m' = fold_left (fun m a => sset (a_key a) a m) l m.
Proof.
  induction types as [| t types IH]; intros [| s texts] m m' H; cbn in *.
  - injection H as <-. exists []. auto.
  - discriminate.
  - injection H as <-. exists []. split; [reflexivity |]. split; [lia | reflexivity].
  - destruct (convert_field strp t s) as [a |] eqn:E; [| discriminate]. cbn [bind] in H.
    destruct (IH _ _ _ H) as (l & El & L & ->). rewrite El. exists (a :: l).
    split; [reflexivity |]. split; [lia | reflexivity].
Qed.

Lemma convert_field_is t s a : convert_field strp t s = Ok a <-> cell_is strp t s a.
Proof.
  unfold convert_field. destruct (str_eqb_spec t (py "Activity")) as [A|A].
  { cbn [orb]. split; [intros [= <-]; constructor; auto|]. inversion 1; congruence. }
  destruct (str_eqb_spec t (py "Resource")) as [R|R].
  { cbn [orb]. split; [intros [= <-]; constructor; auto|]. inversion 1; congruence. }
  cbn [orb]. destruct (contains (py "%Y") t) eqn:C.
  - destruct (strp s t) as [d|] eqn:D; split; [intros [= <-]; now constructor| |discriminate|]; inversion 1; intuition congruence.
  - destruct (py_int 10 s) as [z|] eqn:D; split; [intros [= <-]; now constructor| |discriminate|]; inversion 1; intuition congruence.
Qed.
Lemma convert_cells l : forall r, map_res (fun '(t, s) => convert_field strp t s) l = Ok r -> Forall2 (fun '(t, s) a => cell_is strp t s a) l r.
Proof.
  induction l as [|[t s] l IH]; intros r; cbn [map_res]; [intros [= <-]; constructor|].
  destruct (convert_field strp t s) as [a|] eqn:E; [|discriminate]. destruct (map_res _ l) as [r'|]; [|discriminate].
  intros [= <-]. constructor; [now apply convert_field_is|now apply IH].
Qed.
Lemma convert_fields_ok types : forall texts m, (exists m', convert_fields strp types texts m = Ok m') <->
  List.length texts <= List.length types /\ Forall (fun '(t, s) => exists a, cell_is strp t s a) (combine types texts).
Proof.
  induction types as [|t types IH]; intros [|s texts] m; cbn [convert_fields combine List.length].
  - split; [intros _; split; [lia|constructor]|eauto].
  - split; [intros (x & X); discriminate|lia].
  - split; [intros _; split; [lia|constructor]|eauto].
  - destruct (convert_field strp t s) as [a|e] eqn:E; cbn [bind].
    + rewrite IH. apply convert_field_is in E. split; intros [L F]; (split; [lia|]); [constructor; eauto|now inversion F].
    + split; [intros (x & X); discriminate|]. intros [_ F]. inversion F as [|? ? Q _]. destruct Q as (a & Q). apply convert_field_is in Q. congruence.
Qed.
Lemma convert_field_error t s x : convert_field strp t s = Raise x -> x = ValueError.
Proof.
  unfold convert_field. destruct (_ || _); [discriminate|]. destruct (contains _ _);
    [destruct (strp s t)|destruct (py_int 10 s)]; congruence.
Qed.
Lemma convert_fields_error types : forall texts m x, convert_fields strp types texts m = Raise x <->
  (x = ValueError /\ Exists (fun '(t, s) => ~ exists a, cell_is strp t s a) (combine types texts)) \/
  (x = KeyError /\ List.length types < List.length texts
   /\ Forall (fun '(t, s) => exists a, cell_is strp t s a) (combine types texts)).
Proof.
  induction types as [|t types IH]; intros [|s texts] m x; cbn [convert_fields combine List.length].
  - split; [discriminate|]. intros [[_ E]|(_ & L & _)]; [inversion E|lia].
  - split; [intros H; injection H as <-; right; split; [reflexivity|split; [lia|constructor]]|].
    intros [[_ E]|(-> & _)]; [inversion E|reflexivity].
  - split; [discriminate|]. intros [[_ E]|(_ & L & _)]; [inversion E|lia].
  - destruct (convert_field strp t s) as [a|e] eqn:E; cbn [bind].
    + rewrite IH. apply convert_field_is in E. split.
      * intros [[-> X]|(-> & L & F)]; [left; split; [reflexivity|now right]|].
        right. split; [reflexivity|]. split; [lia|]. constructor; eauto.
      * intros [[-> X]|(-> & L & F)]; [|right; split; [reflexivity|split; [lia|now inversion F]]].
        left. split; [reflexivity|]. inversion X as [? ? Q|]; subst; [destruct Q; eauto|assumption].
    + pose proof (convert_field_error t s e E) as ->.
      assert (Q : ~ exists a, cell_is strp t s a) by (intros (a & A); apply convert_field_is in A; congruence).
      split; [intros H; injection H as <-; left; split; [reflexivity|now left]|].
      intros [[-> _]|(_ & _ & F)]; [reflexivity|]. inversion F; subst. tauto.
Qed.
Lemma plain_title s : contains (py "yyyy") s = false -> ~ In 10%N s -> column_type s = s.
Proof.
  intros C N. unfold column_type. rewrite C. apply strip_by_id.
  split; intros c t ->; (destruct (N.eqb_spec 10 c) as [<-|]; [|reflexivity]); destruct N; [now left|apply in_or_app; right; now left].
Qed.

Lemma row_events_eq types rows : forall n,
  row_events types n rows
  = map_res (fun '(i, r) => convert_line strp draw types i (split (py ";") r))
            (combine (seq n (List.length rows)) rows).
Proof.
  induction rows as [| r rows IH]; intros n; cbn [row_events List.length seq combine map_res];
    [reflexivity |].
  destruct (convert_line strp draw types n (split (py ";") r)); cbn [bind]; [| reflexivity].
  now rewrite IH.
Qed.

Lemma csv_main text header r0 rows types es :
  file_lines text = header :: r0 :: rows ->
  types = map column_type (split (py ";") header) ->
  map_res (fun '(i, r) => convert_line strp draw types i (split (py ";") r))
          (combine (seq 0 (S (List.length rows))) (r0 :: rows)) = Ok es ->
  csv_traces strp draw text
  = Ok (removelast (cut (case_of r0) [] (combine (map case_of (r0 :: rows)) es))).
Proof.
  intros F T H. change (S (List.length rows)) with (List.length (r0 :: rows)) in H.
  rewrite <- (row_events_eq types (r0 :: rows) 0) in H. unfold csv_traces.
  rewrite F. cbn [hd tl]. rewrite <- T. cbn [row_events] in H.
  destruct (convert_line strp draw types 0 (split (py ";") r0)) as [e |]; [| discriminate].
  cbn [bind] in *. destruct (row_events types 1 rows) as [fs |] eqn:R; [| discriminate].
  injection H as <-.
  destruct (csv_gen types (hd [] (split (py ";") r0)) rows 1 fs R [] [e]) as (k & last & G).
  rewrite G. cbn [bind fst snd app map combine cut]. fold (case_of r0).
  now rewrite str_eqb_refl.
Qed.

Lemma csv_raises text header r0 rows types ex :
  file_lines text = header :: r0 :: rows ->
  types = map column_type (split (py ";") header) ->
  map_res (fun '(i, r) => convert_line strp draw types i (split (py ";") r))
          (combine (seq 0 (S (List.length rows))) (r0 :: rows)) = Raise ex ->
  csv_traces strp draw text = Raise ex.
Proof.
  intros F T H. change (S (List.length rows)) with (List.length (r0 :: rows)) in H.
  rewrite <- (row_events_eq types (r0 :: rows) 0) in H. unfold csv_traces.
  rewrite F. cbn [hd tl]. rewrite <- T. cbn [row_events] in H.
  destruct (convert_line strp draw types 0 (split (py ";") r0)) as [e |]; cbn [bind] in *.
  - destruct (row_events types 1 rows) as [fs |] eqn:R; [discriminate |]. injection H as ->.
    now rewrite (csv_raise types _ rows 1 ex R).
  - now injection H as ->.
Qed.
End Csv.

(** ** Clusters *)

Section Cluster.
Context `{SO : SetOrder}.

Lemma fold_cluster (f : list nat -> nat) (l : xlog) prs : forall logs r,
  fold_res (fun logs '(v, t) =>
    let k := f v in
    if Nat.ltb k (List.length logs) then Ok (update k (add_trace t) logs)
    else Raise KeyError) prs logs = Ok r ->
  List.length r = List.length logs /\
  forall k d, nth k r d = (if Nat.ltb k (List.length logs) then
     (let g := nth k logs d in
      mk_log (lg_attrs g) (lg_traces g ++ map snd (filter (fun p => Nat.eqb (f (fst p)) k) prs))
             (lg_exts g) (lg_classifiers g) (lg_gtrace g) (lg_gevent g) (lg_features g)) else d).
Proof.
  induction prs as [| [v t] prs IH]; intros logs r H; cbn [fold_res] in H.
  - injection H as <-. split; [reflexivity |]. intros k d.
    destruct (Nat.ltb_spec k (List.length logs)).
    + cbn. rewrite app_nil_r. now destruct (nth k logs d).
    + apply nth_overflow. lia.
  - cbv zeta in H. destruct (Nat.ltb_spec (f v) (List.length logs)) as [L | L]; [| discriminate].
    apply IH in H. destruct H as [H1 H2].
    assert (U : forall (k : nat) (g : xlog -> xlog) (m : list xlog), List.length (update k g m) = List.length m).
    { induction k; intros g [| x m]; cbn; auto. }
    rewrite U in *. split; [exact H1 |]. intros k d. rewrite H2.
    assert (Nu : forall (k j : nat) (g : xlog -> xlog) (m : list xlog), k < List.length m ->
       nth j (update k g m) d = if Nat.eqb k j then g (nth j m d) else nth j m d).
    { induction k0 as [| k0 IHk]; intros [| j] g [| x m] B; cbn in *; try lia; auto.
      apply IHk. lia. }
    rewrite Nu by exact L. cbn [filter fst].
    destruct (Nat.ltb_spec k (List.length logs)); [| reflexivity].
    destruct (Nat.eqb_spec (f v) k) as [E | N]; [| reflexivity].
    unfold add_trace. cbn. now rewrite <- app_assoc.
Qed.

Lemma count_perm (all a b : list pystr) :
  (forall x, In x a -> In x all) -> (forall x, In x b -> In x all) ->
  (map (fun e => count_in e a) all = map (fun e => count_in e b) all <-> Permutation a b).
Proof.
  intros Ha Hb.
  assert (CO : forall x l, count_in x l = count_occ (list_eq_dec N.eq_dec) l x).
  { intros x l. unfold count_in. induction l as [| y l IH]; cbn; [reflexivity |].
    destruct (list_eq_dec N.eq_dec y x) as [-> | N].
    - rewrite str_eqb_refl. cbn. now rewrite IH.
    - destruct (str_eqb x y) eqn:E; [apply str_eqb_eq in E; congruence | exact IH]. }
  split; intros H.
  - apply (Permutation_count_occ (list_eq_dec N.eq_dec)). intros x.
    destruct (in_dec (list_eq_dec N.eq_dec) x all) as [I | I].
    + rewrite <- !CO. clear - H I. induction all as [| y all IH]; [easy |].
      cbn in H. injection H as H1 H2. destruct I as [<- | I]; auto.
    + rewrite !(proj1 (count_occ_not_In _ _ _)); auto.
  - apply map_ext. intros x. rewrite !CO. now apply Permutation_count_occ.
Qed.

Lemma count_sum (all a : list pystr) : NoDup all -> (forall x, In x a -> In x all) ->
  fold_right Nat.add 0 (map (fun e => count_in e a) all) = List.length a.
Proof.
  intros N. revert a. induction N as [| y all Hy N IH]; intros a Ha.
  - destruct a as [| x a]; [reflexivity |]. exfalso. apply (Ha x). now left.
  - cbn [map fold_right].
    assert (S1 : List.length a = count_in y a + List.length (filter (fun x => negb (str_eqb y x)) a)).
    { unfold count_in. clear. induction a as [| x a IHa]; cbn; [reflexivity |].
      destruct (str_eqb y x); cbn; lia. }
    rewrite S1. f_equal. rewrite <- IH.
    + f_equal. apply map_ext_in. intros x Hx. unfold count_in.
      clear - Hx Hy. induction a as [| z a IHa]; cbn; [reflexivity |].
      destruct (str_eqb y z) eqn:E; cbn.
      * apply str_eqb_eq in E. subst z. destruct (str_eqb x y) eqn:F; [| exact IHa].
        apply str_eqb_eq in F. subst x. contradiction.
      * destruct (str_eqb x z); cbn; now rewrite IHa.
    + intros x Hx. apply filter_In in Hx. destruct Hx as [Hx E].
      destruct (Ha x Hx) as [-> | K]; [| exact K]. rewrite str_eqb_refl in E. discriminate.
Qed.

Lemma vectors_main c l vs : map_res (variant c) (lg_traces l) = Ok vs ->
  exists us, log_vectors c l = Ok us /\ List.length us = List.length vs /\
    (forall i j, i < List.length vs -> j < List.length vs ->
       (nth i us [] = nth j us [] <-> Permutation (nth i vs []) (nth j vs []))) /\
    (forall i, i < List.length vs ->
       fold_right Nat.add 0 (nth i us []) = List.length (nth i vs [])).
Proof.
  intros H. unfold log_vectors. unfold variant in H. rewrite H. cbn [bind].
  set (all := iter (set_of str_eqb (List.concat vs))).
  assert (A : forall i, i < List.length vs -> forall x, In x (nth i vs []) -> In x all).
  { intros i L x Hx. apply (proj2 (iter_In _ _)), (proj2 (set_of_In _ str_eqb_eq _ _)).
    apply in_concat. exists (nth i vs []). split; [now apply nth_In | exact Hx]. }
  assert (N : NoDup all).
  { unfold all. apply (Permutation_NoDup (Permutation_sym (iter_perm _ _))).
    apply (set_of_NoDup _ str_eqb_eq). }
  eexists. split; [reflexivity |].
  assert (E : forall i, i < List.length vs ->
    nth i (map (fun t => map (fun e => count_in e t) all) vs) [] = map (fun e => count_in e (nth i vs [])) all).
  { intros i L. rewrite (nth_indep _ [] (map (fun e => count_in e []) all)) by now rewrite map_length.
    exact (map_nth (fun t => map (fun e => count_in e t) all) vs [] i). }
  split; [apply map_length |]. split.
  - intros i j Li Lj. rewrite !E by assumption. apply count_perm; [exact (A i Li) | exact (A j Lj)].
  - intros i L. rewrite E by assumption. apply count_sum; [exact N | exact (A i L)].
Qed.

Lemma clusters_main (centres : list (list nat) -> nat) (predict : list (list nat) -> list nat -> nat)
  c l us logs :
  log_vectors c l = Ok us -> cluster_log centres predict c l = Ok logs ->
  List.length logs = centres us /\
  forall k d, k < centres us ->
  nth k logs d
  = mk_log (lg_attrs l)
      (map snd (filter (fun p => Nat.eqb (predict us (fst p)) k) (combine us (lg_traces l))))
      (lg_exts l) [] [] [] [].
Proof.
  intros V H. unfold cluster_log in H. rewrite V in H. cbn [bind] in H.
  apply (fold_cluster (predict us) l) in H. rewrite repeat_length in H. destruct H as [H1 H2].
  split; [exact H1 |]. intros k d L. rewrite H2.
  rewrite (proj2 (Nat.ltb_lt _ _) L).
  assert (R : nth k (repeat (empty_cluster l) (centres us)) d = empty_cluster l).
  { rewrite (nth_indep _ d (empty_cluster l)) by now rewrite repeat_length. apply nth_repeat. }
  rewrite R. reflexivity.
Qed.

Lemma vectors_length c l us : log_vectors c l = Ok us -> List.length us = List.length (lg_traces l).
Proof.
  unfold log_vectors. intros H.
  destruct (map_res _ (lg_traces l)) as [ids |] eqn:E; [| discriminate]. injection H as <-.
  rewrite map_length. exact (map_res_length _ _ _ E).
Qed.

Lemma cluster_bound (f : list nat -> nat) prs : forall logs (r : list xlog),
  fold_res (fun logs '(v, t) =>
    let k := f v in
    if Nat.ltb k (List.length logs) then Ok (update k (add_trace t) logs)
    else Raise KeyError) prs logs = Ok r ->
  Permutation (flat_map lg_traces r) (flat_map lg_traces logs ++ map snd prs).
Proof.
  induction prs as [| [v t] prs IH]; intros logs r H; cbn [fold_res] in H.
  - injection H as <-. cbn. now rewrite app_nil_r.
  - cbv zeta in H. destruct (Nat.ltb_spec (f v) (List.length logs)) as [L | L]; [| discriminate].
    apply IH in H. rewrite H. cbn [map snd].
    assert (U : forall k m, k < List.length m ->
      Permutation (flat_map lg_traces (update k (add_trace t) m)) (t :: flat_map lg_traces m)).
    { induction k as [| k IHk]; intros [| x m] B; cbn in B; try lia; cbn [update flat_map].
      - cbn. rewrite <- app_assoc. symmetry. apply Permutation_middle.
      - rewrite IHk by lia. symmetry. apply Permutation_middle. }
    rewrite (U _ _ L). cbn [app]. apply Permutation_middle.
Qed.

Lemma clusters_perm (centres : list (list nat) -> nat) (predict : list (list nat) -> list nat -> nat)
  c l logs : cluster_log centres predict c l = Ok logs ->
  Permutation (flat_map lg_traces logs) (lg_traces l).
Proof.
  intros H. unfold cluster_log in H.
  destruct (log_vectors c l) as [us |] eqn:V; [| discriminate]. cbn [bind] in H.
  apply (cluster_bound (predict us)) in H. rewrite H.
  assert (R : forall n, flat_map lg_traces (repeat (empty_cluster l) n) = []).
  { induction n; cbn; auto. }
  rewrite R, map_snd_combine; [reflexivity |]. exact (vectors_length c l us V).
Qed.

Lemma fold_cluster_outcome (f : list nat -> nat) (prs : list (list nat * trace)) : forall logs,
  match fold_res (fun logs '(v, t) =>
    let k := f v in
    if Nat.ltb k (List.length logs) then Ok (update k (add_trace t) logs)
    else Raise KeyError) prs logs with
  | Ok _ => Forall (fun v => f v < List.length logs) (map fst prs)
  | Raise e => e = KeyError /\ Exists (fun v => List.length logs <= f v) (map fst prs)
  end.
Proof.
  induction prs as [| [v t] prs IH]; intros logs; cbn [fold_res map fst]; [constructor |].
  cbv zeta. destruct (Nat.ltb_spec (f v) (List.length logs)) as [L | L]; [| auto].
  specialize (IH (update (f v) (add_trace t) logs)). destruct (fold_res _ prs _).
  - constructor; [easy |]. revert IH. apply Forall_impl. intros x. now rewrite update_length.
  - destruct IH as [E X]. split; [easy |]. right. revert X. apply Exists_impl. intros x. now rewrite update_length.
Qed.

Lemma clusters_outcome (centres : list (list nat) -> nat) (predict : list (list nat) -> list nat -> nat) c l us :
  log_vectors c l = Ok us -> match cluster_log centres predict c l with
  | Ok _ => Forall (fun v => predict us v < centres us) us
  | Raise e => e = KeyError /\ Exists (fun v => centres us <= predict us v) us
  end.
Proof.
  intros V. unfold cluster_log. rewrite V. cbn [bind].
  pose proof (fold_cluster_outcome (predict us) (combine us (lg_traces l)) (repeat (empty_cluster l) (centres us))) as H.
  rewrite repeat_length, map_fst_combine in H; [exact H |]. exact (vectors_length c l us V).
Qed.
End Cluster.
End WithFloatIO.
