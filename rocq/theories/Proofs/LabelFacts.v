(** Two readings of the same document with different extension managers. *)
From Coq Require Import String Arith NArith ZArith List Bool Lia.
From Verif Require Import Base.PyBase Base.PyDate Base.PyVal Base.Xml Model.Attr Model.Log Model.Registry Model.XesRead
  Spec.Xes Spec.XesParts Spec.Labels Proofs.BaseFacts Proofs.AttrInd Proofs.StatFacts Proofs.XesReadFacts Proofs.XesPartsFacts.
Import ListNotations.

Lemma relabel_same f g : (forall k, f k = g k) -> forall a, relabel f a = relabel g a.
Proof.
  intros E. induction a as [c k e v coll meta IC IM] using attr_ind2. cbn. rewrite E. f_equal.
  - now apply map_ext_Forall.
  - apply map_ext_Forall. eapply Forall_impl; [|exact IM]. cbn. intros p ->. reflexivity.
Qed.
Lemma relabel_map_same f g m : (forall k, f k = g k) -> relabel_map f m = relabel_map g m.
Proof. intros E. apply map_ext. intros p. now rewrite (relabel_same f g E). Qed.
Lemma relabel_log_same f g xs l : (forall k, f k = g k) -> relabel_log f xs l = relabel_log g xs l.
Proof.
  intros E. unfold relabel_log. rewrite (relabel_map_same f g _ E). f_equal; apply map_ext; intros x; try now apply relabel_same.
  unfold relabel_trace. rewrite (relabel_map_same f g _ E). f_equal. apply map_ext. intros y. unfold relabel_event.
  now rewrite (relabel_map_same f g _ E).
Qed.

Section Labels.
Context `{FIO : FloatIO} (mgr mgr' : manager xext) (urlparse : pystr -> option pystr) (draw : nat -> N).

Definition orel (o o' : pobj) : Prop :=
  match o with
  | OAttr c k _ v coll m => o' = OAttr c k (key_extension mgr' k) v coll m
  | OLog m ts _ cs gt ge fs => exists xs, o' = OLog m ts xs cs gt ge fs
  | o => o' = o
  end.
Definition srel (s s' : pstate) : Prop := Forall2 orel (p_heap s) (p_heap s') /\ s' = with_heap (p_heap s') s.
Definition rrel (r r' : res pstate) : Prop :=
  match r, r' with Ok s, Ok s' => srel s s' | Raise x, Raise y => x = y | _, _ => False end.

Lemma heaps_length h h' : Forall2 orel h h' -> List.length h = List.length h'.
Proof. induction 1; cbn; congruence. Qed.
Lemma update_rel f g i : (forall o o', orel o o' -> orel (f o) (g o')) -> forall h h', Forall2 orel h h' ->
  Forall2 orel (update i f h) (update i g h').
Proof.
  intros F h h' H. revert i. induction H as [|o o' h h' O H IH]; intros [|i]; cbn; auto.
Qed.
Lemma set_rel k i o o' : orel o o' -> orel (obj_set k i o) (obj_set k i o').
Proof. destruct o; cbn; [intros ->|intros ->|intros ->|intros (xs & ->)]; cbn; eauto. Qed.
Lemma collect_rel i o o' : orel o o' -> orel (obj_collect i o) (obj_collect i o').
Proof. destruct o as [c k e v coll m| | |]; cbn; [intros ->|intros ->|intros ->|intros (xs & ->)]; cbn; eauto. now destruct (is_collection c). Qed.
Lemma globals_rel g i o o' : orel o o' -> orel (globals_append g i o) (globals_append g i o').
Proof. destruct o, g; cbn; try (intros ->); try (intros (xs & ->)); cbn; eauto. Qed.
Lemma event_rel e o o' : orel o o' -> orel (trace_append e o) (trace_append e o').
Proof. destruct o; cbn; [intros ->|intros ->|intros ->|intros (xs & ->)]; cbn; eauto. Qed.
Lemma trace_rel t o o' : orel o o' -> orel (log_append t o) (log_append t o').
Proof. destruct o; cbn; [intros ->|intros ->|intros ->|intros (xs & ->)]; cbn; eauto. Qed.
Lemma classifier_rel c o o' : orel o o' -> orel (log_add_classifier c o) (log_add_classifier c o').
Proof. destruct o; cbn; [intros ->|intros ->|intros ->|intros (xs & ->)]; cbn; eauto. Qed.
Lemma ext_rel x o o' : orel o o' -> orel (log_add_ext x o) o'.
Proof. destruct o; cbn; auto. Qed.
Lemma ext_rel' x o o' : orel o o' -> orel o (log_add_ext x o').
Proof. destruct o; cbn; [intros ->|intros ->|intros ->|intros (xs & ->)]; cbn; eauto. Qed.
Lemma key_rel i : forall h h', Forall2 orel h h' -> obj_key (nth_error h i) = obj_key (nth_error h' i).
Proof.
  induction i as [|i IH]; intros h h' [|o o' t t' O H]; cbn; auto.
  destruct o; cbn in O; [subst o'|subst o'|subst o'|destruct O as (xs & ->)]; reflexivity.
Qed.

Lemma srel_intro h h' lo tr ev at_ ab gl dr : Forall2 orel h h' ->
  srel (mk_ps h lo tr ev at_ ab gl dr) (mk_ps h' lo tr ev at_ ab gl dr).
Proof. now split. Qed.
Lemma snoc_rel h h' o o' : Forall2 orel h h' -> orel o o' -> Forall2 orel (h ++ [o]) (h' ++ [o']).
Proof. intros H O. apply Forall2_app; auto. Qed.

Ltac states := match goal with H : srel ?s ?s' |- _ =>
  destruct s as [h lo tr ev at_ ab gl dr], s' as [h' lo' tr' ev' at_' ab' gl' dr']; destruct H as [H E];
  unfold with_heap in E; cbn [p_heap p_log p_trace p_event p_attrs p_attributables p_globals p_drawn] in H, E;
  injection E as -> -> -> -> -> -> ->;
  pose proof (heaps_length _ _ H) as L end.

Lemma start_attr_rel c atts s s' : srel s s' -> rrel (start_attr mgr c atts s) (start_attr mgr' c atts s').
Proof.
  intros R. states. unfold start_attr. destruct (tag_value c _) as [[v|]|x]; cbn [bind rrel]; auto; [|now apply srel_intro].
  unfold push_new. cbn [p_heap p_log p_trace p_event p_attrs p_attributables p_globals p_drawn]. rewrite <- L.
  apply srel_intro. apply snoc_rel; [easy|]. cbn. easy.
Qed.

Lemma step_rel e s s' : opens (py "extension") e = false -> srel s s' -> rrel (xes_step mgr urlparse draw s e) (xes_step mgr' urlparse draw s' e).
Proof.
  intros NE R. destruct e as [t atts|t|c]; cbn [xes_step opens] in *; [| |exact R].
  - unfold start_element. destruct (attr_tag (lower t)) as [c|]; [now apply start_attr_rel|].
    destruct (str_eqb (lower t) (py "event")).
    { states. unfold start_event, push_new. cbn [p_heap p_log p_trace p_event p_attrs p_attributables p_globals p_drawn rrel].
      rewrite <- L. apply srel_intro, snoc_rel; easy. }
    destruct (str_eqb (lower t) (py "trace")).
    { states. unfold start_trace, push_new. cbn [p_heap p_log p_trace p_event p_attrs p_attributables p_globals p_drawn rrel].
      rewrite <- L. apply srel_intro, snoc_rel; easy. }
    destruct (str_eqb (lower t) (py "log")).
    { states. unfold start_log, push_new. cbn [p_heap p_log p_trace p_event p_attrs p_attributables p_globals p_drawn rrel].
      rewrite <- L. apply srel_intro, snoc_rel; [easy|]. cbn. eauto. }
    rewrite NE. destruct (str_eqb (lower t) (py "global")).
    { states. unfold start_global. destruct (sget _ _) as [n|]; [|reflexivity].
      cbn [p_heap p_log p_trace p_event p_attrs p_attributables p_globals p_drawn].
      destruct (str_eqb (lower n) (py "trace")); [destruct lo; [now apply srel_intro|reflexivity]|].
      destruct (str_eqb (lower n) (py "event")); [destruct lo; [now apply srel_intro|reflexivity]|]. now apply srel_intro. }
    destruct (str_eqb (lower t) (py "classifier")); [|exact R].
    unfold start_classifier. destruct (sget (py "name") atts) as [n|]; [|exact R]. destruct (sget (py "keys") atts) as [ks|]; [|exact R].
    destruct (_ && _); [|exact R]. states. unfold with_log.
    cbn [p_heap p_log p_trace p_event p_attrs p_attributables p_globals p_drawn].
    destruct lo as [l|]; [|reflexivity]. apply srel_intro. apply update_rel; [|easy]. intros. now apply classifier_rel.
  - states. unfold end_element. destruct (str_eqb (lower t) (py "global")); [now apply srel_intro|].
    destruct (attr_tag (lower t)).
    { unfold end_attr, pop_attr. cbn [p_attrs]. destruct at_ as [|i at_]; [reflexivity|].
      cbn [bind]. unfold pop_attributable at 1 2. cbn [p_heap p_log p_trace p_event p_attrs p_attributables p_globals p_drawn].
      destruct ab as [|p ab]; [reflexivity|]. cbn [bind p_heap p_log p_trace p_event p_attrs p_attributables p_globals p_drawn].
      destruct gl as [[l g]|].
      - unfold with_heap. cbn [p_heap p_log p_trace p_event p_attrs p_attributables p_globals p_drawn rrel]. apply srel_intro.
        apply update_rel; [|easy]. intros. now apply globals_rel.
      - destruct ab as [|q ab]; [reflexivity|]. unfold with_heap.
        cbn [p_heap p_log p_trace p_event p_attrs p_attributables p_globals p_drawn rrel]. apply srel_intro.
        rewrite <- (key_rel i h h' R).
        assert (Forall2 orel (update q (obj_set (obj_key (nth_error h i)) i) h) (update q (obj_set (obj_key (nth_error h i)) i) h')) as U.
        { apply update_rel; [|easy]. intros. now apply set_rel. }
        destruct at_; [easy|]. apply update_rel; [|easy]. intros. now apply collect_rel. }
    destruct (str_eqb (lower t) (py "event")).
    { unfold end_event. cbn [p_heap p_log p_trace p_event p_attrs p_attributables p_globals p_drawn].
      destruct tr as [tr|]; [|reflexivity]. unfold pop_attributable. cbn [p_heap p_log p_trace p_event p_attrs p_attributables p_globals p_drawn].
      destruct ab; [reflexivity|]. apply srel_intro. apply update_rel; [|easy]. intros. now apply event_rel. }
    destruct (str_eqb (lower t) (py "trace")).
    { unfold end_trace. cbn [p_heap p_log p_trace p_event p_attrs p_attributables p_globals p_drawn].
      destruct lo as [lo|]; [|reflexivity]. unfold pop_attributable. cbn [p_heap p_log p_trace p_event p_attrs p_attributables p_globals p_drawn].
      destruct ab; [reflexivity|]. apply srel_intro. apply update_rel; [|easy]. intros. now apply trace_rel. }
    destruct (str_eqb (lower t) (py "log")); [|now apply srel_intro].
    unfold pop_attributable. cbn [p_heap p_log p_trace p_event p_attrs p_attributables p_globals p_drawn].
    destruct ab; [reflexivity|]. now apply srel_intro.
Qed.

(** Extension elements. *)
Lemma extension_step m e s : opens (py "extension") e = true -> xes_step m urlparse draw s e =
  match meant m urlparse e with
  | Some x => with_log (log_add_ext x) s
  | None => match e with
            | SStart _ atts => match sget (py "uri") atts with
                               | Some u => match sget (py "prefix") atts, urlparse u with None, None => Raise ValueError | _, _ => Ok s end
                               | None => Raise TypeError
                               end
            | _ => Ok s
            end
  end.
Proof.
  destruct e as [t atts| |]; cbn [opens xes_step]; try discriminate. intros O. apply str_eqb_eq in O. unfold start_element. rewrite O.
  change (attr_tag (py "extension")) with (@None acls). cbv iota. cbn -[start_extension meant]. unfold start_extension, meant.
  change [117%N; 114%N; 105%N] with (py "uri"). change [112%N; 114%N; 101%N; 102%N; 105%N; 120%N] with (py "prefix").
  destruct (sget (py "prefix") atts) as [p|], (sget (py "uri") atts) as [u|]; cbn [bind]; auto.
  destruct (urlparse u) as [v|]; cbn [bind]; auto.
Qed.

Lemma add_rel x s t s' : with_log (log_add_ext x) s = Ok t -> srel s s' -> srel t s'.
Proof.
  intros W R. states. unfold with_log in W. cbn [p_heap p_log p_trace p_event p_attrs p_attributables p_globals p_drawn] in W.
  destruct lo as [l|]; [|discriminate]. injection W as <-. apply srel_intro.
  clear L. revert l. induction R as [|o o' h h' O H IH]; intros [|l]; cbn; constructor; auto. now apply ext_rel.
Qed.
Lemma add_rel' x s s' t : with_log (log_add_ext x) s' = Ok t -> srel s s' -> srel s t.
Proof.
  intros W R. states. unfold with_log in W. cbn [p_heap p_log p_trace p_event p_attrs p_attributables p_globals p_drawn] in W.
  destruct lo as [l|]; [|discriminate]. injection W as <-. apply srel_intro.
  clear L. revert l. induction R as [|o o' h h' O H IH]; intros [|l]; cbn; constructor; auto. now apply ext_rel'.
Qed.

Lemma extension_rel e s s' t t' : opens (py "extension") e = true -> srel s s' ->
  xes_step mgr urlparse draw s e = Ok t -> xes_step mgr' urlparse draw s' e = Ok t' -> srel t t'.
Proof.
  intros O R A B. rewrite (extension_step mgr _ _ O) in A. rewrite (extension_step mgr' _ _ O) in B.
  assert (srel t s') as R1.
  { destruct (meant mgr urlparse e) as [x|]; [now apply (add_rel x s)|]. destruct e; [|congruence|congruence].
    destruct (sget _ _) as [u|]; [|congruence]. destruct (sget _ _), (urlparse u); congruence. }
  destruct (meant mgr' urlparse e) as [x|]; [now apply (add_rel' x t s')|]. destruct e; [|congruence|congruence].
  destruct (sget _ _) as [u|]; [|congruence]. destruct (sget _ _), (urlparse u); congruence.
Qed.

Lemma run_rel es : forall s s' t t', srel s s' ->
  xes_run mgr urlparse draw es s = Ok t -> xes_run mgr' urlparse draw es s' = Ok t' -> srel t t'.
Proof.
  unfold xes_run. induction es as [|e es IH]; cbn [fold_res]; intros s s' t t' R A B; [congruence|].
  destruct (xes_step mgr urlparse draw s e) as [u|] eqn:U; [|discriminate].
  destruct (xes_step mgr' urlparse draw s' e) as [u'|] eqn:U'; [|discriminate].
  apply (IH u u'); auto. destruct (opens (py "extension") e) eqn:O; [now apply (extension_rel e s s')|].
  pose proof (step_rel e s s' O R) as S. rewrite U, U' in S. exact S.
Qed.

(** ** From heaps to logs *)

Lemma nth_rel h h' i : Forall2 orel h h' -> forall o, nth_error h i = Some o -> exists o', nth_error h' i = Some o' /\ orel o o'.
Proof.
  intros H. revert i. induction H as [|a b h h' O H IH]; intros [|i] o E; try discriminate; cbn in *; eauto.
  injection E as <-. eauto.
Qed.

Let lab := relabel (key_extension mgr').
Lemma attr_relabel h h' : Forall2 orel h h' -> forall a r, attr_in h r a -> attr_in h' r (lab a).
Proof.
  intros H. induction a as [c k e v coll meta IC IM] using attr_ind2. intros r A.
  inversion A as [? ? ? ? ? cl mt ? ? N C M]; subst. destruct (nth_rel _ _ _ H _ N) as (o' & N' & O). cbn in O. subst o'.
  unfold lab. cbn [relabel]. econstructor; [exact N'| |].
  - rewrite Forall_forall in IC. clear - C IC. induction C as [|x y l l' X C IH]; cbn; constructor.
    + apply IC; [now left|easy].
    + apply IH. intros z Z. apply IC. now right.
  - rewrite Forall_forall in IM. clear - M IM. induction M as [|x y l l' X M IH]; cbn; constructor.
    + destruct X as [X1 X2]. split; [easy|]. cbn. apply (IM y); [now left|easy].
    + apply IH. intros z Z. apply IM. now right.
Qed.
Lemma map_relabel h h' m a : Forall2 orel h h' -> map_in h m a -> map_in h' m (relabel_map (key_extension mgr') a).
Proof.
  intros H M. unfold map_in in *. induction M as [|x y l l' [X1 X2] M IH]; cbn; constructor; auto. split; [easy|].
  now apply (attr_relabel h h').
Qed.
Lemma Forall2_map_r {A B C} (P : A -> B -> Prop) (Q : A -> C -> Prop) (f : B -> C) l m :
  (forall a b, P a b -> Q a (f b)) -> Forall2 P l m -> Forall2 Q l (map f m).
Proof. intros H. induction 1; cbn; constructor; auto. Qed.

Lemma log_relabel h h' r l : Forall2 orel h h' -> log_in h r l -> exists xs,
  log_in h' r (relabel_log (key_extension mgr') xs l).
Proof.
  intros H (m & ts & gt & ge & N & M & T & Gt & Ge). destruct (nth_rel _ _ _ H _ N) as (o' & N' & xs & ->).
  exists xs. exists m, ts, gt, ge. cbn [relabel_log lg_attrs lg_traces lg_exts lg_classifiers lg_gtrace lg_gevent lg_features].
  split; [exact N'|]. split; [now apply (map_relabel h)|].
  split; [|split; (eapply Forall2_map_r; [|eassumption]); intros; now apply (attr_relabel h)].
  eapply Forall2_map_r; [|exact T]. intros o t (i & -> & m' & es & N2 & M2 & E). exists i. split; [easy|].
  destruct (nth_rel _ _ _ H _ N2) as (o' & N3 & O). cbn in O. subst o'. exists m', es. split; [exact N3|].
  split; [now apply (map_relabel h)|]. cbn [relabel_trace tr_events]. eapply Forall2_map_r; [|exact E].
  intros o e (j & -> & m'' & N4 & M4). exists j. split; [easy|]. destruct (nth_rel _ _ _ H _ N4) as (o' & N5 & O). cbn in O. subst o'.
  exists m''. split; [exact N5|]. now apply (map_relabel h).
Qed.

Theorem read_again es s s' r l : xes_run mgr urlparse draw es ps_init = Ok s -> xes_run mgr' urlparse draw es ps_init = Ok s' ->
  p_log s' = p_log s /\ (log_in (p_heap s) r l ->
  exists xs, log_in (p_heap s') r (relabel_log (named_extension mgr') xs l)).
Proof.
  intros A B. assert (srel s s') as R by (apply (run_rel es ps_init ps_init); auto; split; [constructor|reflexivity]).
  destruct R as [H E]. split; [now rewrite E|]. intros L.
  destruct (log_relabel _ _ r l H L) as (xs & X). exists xs.
  rewrite (relabel_log_same _ (key_extension mgr')); [exact X|]. intros k. symmetry. apply key_extension_named.
Qed.
End Labels.

(** ** Outcomes *)

Section Outcome.
Context `{FIO : FloatIO} (urlparse : pystr -> option pystr) (draw : nat -> N).

Lemma pop_log s t : pop_attributable s = Ok t -> p_log t = p_log s /\ p_heap t = p_heap s.
Proof. unfold pop_attributable. destruct (p_attributables s); [discriminate|]. intros [= <-]. easy. Qed.

(** What a step does to the current log and the extensions of the logs. *)
Definition exts_of (o : pobj) : option (list xext) := match o with OLog _ _ xs _ _ _ _ => Some xs | _ => None end.
Definition all_exts (s : pstate) : list (option (list xext)) := map exts_of (p_heap s).
Lemma update_exts f i h : (forall o, exts_of (f o) = exts_of o) -> map exts_of (update i f h) = map exts_of h.
Proof. intros F. revert i. induction h as [|o h IH]; intros [|i]; cbn; auto; f_equal; auto. Qed.

Lemma step_log m e s t : xes_step m urlparse draw s e = Ok t -> opens (py "extension") e = false ->
  if opens (py "log") e then p_log t = Some (List.length (p_heap s)) /\ all_exts t = all_exts s ++ [Some []]
  else p_log t = p_log s /\ exists k, all_exts t = all_exts s ++ repeat None k.
Proof.
  assert (forall u v : pstate, p_log u = p_log v -> all_exts u = all_exts v ->
    p_log u = p_log v /\ exists k, all_exts u = all_exts v ++ repeat None k) as Z.
  { intros u v A B. split; [easy|]. exists 0. now rewrite app_nil_r. }
  intros H NE. destruct e as [tag atts|tag|c]; cbn [xes_step opens] in *.
  - unfold start_element in H. destruct (attr_tag (lower tag)) as [c|] eqn:AT.
    { assert (str_eqb (lower tag) (py "log") = false) as ->.
      { destruct (str_eqb (lower tag) (py "log")) eqn:Q; [|easy]. apply str_eqb_eq in Q. rewrite Q in AT. discriminate. }
      unfold start_attr in H. destruct (tag_value c _) as [[v|]|]; cbn [bind] in H; [| |discriminate].
      - injection H as <-. split; [easy|]. exists 1. unfold all_exts, push_new. cbn [p_heap]. now rewrite map_app.
      - injection H as <-. now apply Z. }
    destruct (str_eqb (lower tag) (py "event")) eqn:Q1.
    { apply str_eqb_eq in Q1. rewrite Q1. injection H as <-. cbv [opens]. change (str_eqb (py "event") (py "log")) with false.
      split; [easy|]. exists 1. unfold all_exts, start_event, push_new. cbn [p_heap]. now rewrite map_app. }
    destruct (str_eqb (lower tag) (py "trace")) eqn:Q2.
    { apply str_eqb_eq in Q2. rewrite Q2. injection H as <-. change (str_eqb (py "trace") (py "log")) with false.
      split; [easy|]. exists 1. unfold all_exts, start_trace, push_new. cbn [p_heap]. now rewrite map_app. }
    destruct (str_eqb (lower tag) (py "log")) eqn:Q3.
    { injection H as <-. split; [easy|]. unfold all_exts, start_log, push_new. cbn [p_heap]. now rewrite map_app. }
    rewrite NE in H. destruct (str_eqb (lower tag) (py "global")).
    { unfold start_global in H. destruct (sget _ _) as [n|]; [|discriminate].
      destruct (str_eqb (lower n) (py "trace")); [destruct (p_log s) eqn:L; [injection H as <-; rewrite <- L; now apply Z|discriminate]|].
      destruct (str_eqb (lower n) (py "event")); [destruct (p_log s) eqn:L; [injection H as <-; rewrite <- L; now apply Z|discriminate]|].
      injection H as <-. now apply Z. }
    destruct (str_eqb (lower tag) (py "classifier")); [|injection H as <-; now apply Z].
    unfold start_classifier in H. destruct (sget (py "name") atts) as [n|]; [|injection H as <-; now apply Z].
    destruct (sget (py "keys") atts) as [ks|]; [|injection H as <-; now apply Z].
    destruct (_ && _); [|injection H as <-; now apply Z]. unfold with_log in H. destruct (p_log s) eqn:L; [|discriminate].
    injection H as <-. rewrite <- L. apply Z; [easy|]. unfold all_exts. cbn [p_heap]. apply update_exts. now intros [].
  - unfold end_element in H. destruct (str_eqb (lower tag) (py "global")); [injection H as <-; now apply Z|].
    destruct (attr_tag (lower tag)).
    { unfold end_attr, pop_attr in H. destruct (p_attrs s) as [|i at_]; [discriminate|]. cbn [bind] in H.
      match type of H with context [pop_attributable ?u] => destruct (pop_attributable u) as [u'|] eqn:P; [|discriminate] end.
      apply pop_log in P as [P1 P2]. cbn [p_log p_heap] in P1, P2. cbn [bind] in H. destruct (p_globals u') as [[l g]|].
      - injection H as <-. apply Z; [exact P1|]. unfold all_exts. cbn [p_heap with_heap]. rewrite update_exts; [now rewrite P2|].
        intros []; destruct g; reflexivity.
      - destruct (p_attributables u') as [|q ab]; [discriminate|]. injection H as <-. apply Z; [exact P1|].
        unfold all_exts. cbn [p_heap with_heap]. destruct (p_attrs u'); rewrite ?update_exts, P2; auto; intros []; cbn; auto.
        now destruct (is_collection _). }
    destruct (str_eqb (lower tag) (py "event")).
    { unfold end_event in H. destruct (p_trace s); [|discriminate]. apply pop_log in H as [P1 P2]. apply Z; [exact P1|].
      unfold all_exts. rewrite P2. cbn [p_heap]. apply update_exts. now intros []. }
    destruct (str_eqb (lower tag) (py "trace")).
    { unfold end_trace in H. destruct (p_log s) eqn:L; [|discriminate]. apply pop_log in H as [P1 P2]. rewrite <- L. apply Z; [now rewrite P1, L|].
      unfold all_exts. rewrite P2. cbn [p_heap]. apply update_exts. now intros []. }
    destruct (str_eqb (lower tag) (py "log")); [|injection H as <-; now apply Z].
    apply pop_log in H as [P1 P2]. apply Z; [exact P1|]. unfold all_exts. now rewrite P2.
  - injection H as <-. now apply Z.
Qed.

(** ** The same outcome for all managers *)

Definition logged (a : list sax) (s : pstate) : Prop := existsb (opens (py "log")) a = true -> p_log s <> None.

Lemma ext_not_log e : opens (py "extension") e = true -> opens (py "log") e = false.
Proof. destruct e; cbn; try easy. intros H. apply str_eqb_eq in H. now rewrite H. Qed.

Lemma with_log_log f s t : with_log f s = Ok t -> p_log t = p_log s.
Proof. unfold with_log. destruct (p_log s); [|discriminate]. now intros [= <-]. Qed.

Lemma run_outcome m m' es : forall a s s', declared_well (a ++ es) -> srel m' s s' -> logged a s ->
  match xes_run m urlparse draw es s, xes_run m' urlparse draw es s' with
  | Ok t, Ok t' => srel m' t t' | Raise x, Raise y => x = y | _, _ => False end.
Proof.
  unfold xes_run. induction es as [|e es IH]; cbn [fold_res]; intros a s s' W R G; [exact R|].
  assert (declared_well ((a ++ [e]) ++ es)) as W' by (now rewrite <- app_assoc).
  destruct (opens (py "extension") e) eqn:O.
  - destruct (W a e es eq_refl O) as [(tag & atts & u & -> & U) X]. specialize (G X).
    rewrite (extension_step urlparse draw m _ _ O), (extension_step urlparse draw m' _ _ O), U.
    assert (Q : sget (py "prefix") atts = None /\ urlparse u = None \/
      forall z : pstate, match sget (py "prefix") atts, urlparse u with None, None => Raise ValueError | _, _ => Ok z end = Ok z).
    { destruct (sget (py "prefix") atts), (urlparse u); auto. }
    destruct Q as [[Q1 Q2]|Q]; [cbn [meant]; now rewrite Q1, Q2, U, Q2|]. rewrite !Q.
    assert (p_log s' <> None) as G' by (destruct R as [_ ->]; exact G).
    assert (forall x s, p_log s <> None -> exists t, with_log (log_add_ext x) s = Ok t) as WL.
    { intros x z Z. unfold with_log. destruct (p_log z); [eauto|easy]. }
    assert (exists t, match meant m urlparse (SStart tag atts) with Some x => with_log (log_add_ext x) s | None => Ok s end = Ok t
              /\ p_log t = p_log s /\ srel m' t s') as (t & T & Tl & R1).
    { destruct (meant m urlparse _) as [x|]; [|eauto]. destruct (WL x s G) as (t & T). exists t. split; [easy|].
      split; [now apply (with_log_log _ _ _ T)|]. eapply add_rel; eauto. }
    assert (exists t', match meant m' urlparse (SStart tag atts) with Some x => with_log (log_add_ext x) s' | None => Ok s' end = Ok t'
              /\ srel m' t t') as (t' & T' & R2).
    { destruct (meant m' urlparse _) as [x|]; [|eauto]. destruct (WL x s' G') as (t' & T'). exists t'. split; [easy|].
      eapply add_rel'; eauto. }
    rewrite T, T'. apply (IH (a ++ [SStart tag atts])); auto. intros _. now rewrite Tl.
  - pose proof (step_rel m m' urlparse draw e s s' O R) as S. unfold rrel in S.
    destruct (xes_step m urlparse draw s e) as [t|] eqn:T, (xes_step m' urlparse draw s' e) as [t'|]; try easy.
    apply (IH (a ++ [e])); auto. intros X. apply step_log in T; [|easy].
    rewrite existsb_app in X. cbn [existsb] in X. rewrite orb_false_r in X. destruct (opens (py "log") e); [destruct T as [-> _]; easy|].
    destruct T as [-> _]. apply G. now rewrite ?orb_false_r in X.
Qed.

Theorem same_outcome m m' es : declared_well es ->
  match xes_run m urlparse draw es ps_init, xes_run m' urlparse draw es ps_init with
  | Ok _, Ok _ => True | Raise x, Raise y => x = y | _, _ => False end.
Proof.
  intros W. pose proof (run_outcome m m' es [] ps_init ps_init W) as H.
  assert (srel m' ps_init ps_init) as R by (split; [constructor|reflexivity]). specialize (H R ltac:(easy)).
  destruct (xes_run m urlparse draw es ps_init), (xes_run m' urlparse draw es ps_init); auto.
Qed.

(** ** The extensions of the log *)

Definition one_log (n : nat) (acc : list xext) (s : pstate) : Prop :=
  match n with
  | 0 => p_log s = None /\ acc = [] /\ forall i xs, nth_error (all_exts s) i <> Some (Some xs)
  | _ => exists r, p_log s = Some r /\ nth_error (all_exts s) r = Some (Some (fold_left (fun l x => set_add xext_eqb x l) acc []))
         /\ forall i xs, nth_error (all_exts s) i = Some (Some xs) -> i = r
  end.

Lemma nth_none_app {A} (l : list (option A)) k i x : nth_error (l ++ repeat None k) i = Some (Some x) -> nth_error l i = Some (Some x).
Proof.
  intros H. destruct (lt_dec i (List.length l)) as [L|L]; [now rewrite nth_error_app1 in H|].
  rewrite nth_error_app2 in H by lia. apply nth_error_In in H. apply repeat_spec in H. discriminate.
Qed.

Lemma one_log_step m e s t n acc : one_log n acc s -> n + logs [e] <= 1 -> xes_step m urlparse draw s e = Ok t ->
  one_log (n + logs [e]) (acc ++ found m urlparse [e]) t.
Proof.
  intros I B H. destruct (opens (py "extension") e) eqn:O.
  - assert (logs [e] = 0) as E0 by (unfold logs; cbn [filter]; now rewrite (ext_not_log e O)). rewrite E0, Nat.add_0_r in *. clear E0.
    rewrite (extension_step urlparse draw m _ _ O) in H. unfold found. cbn [filter]. rewrite O. cbn [flat_map].
    destruct (meant m urlparse e) as [x|].
    + cbn [app]. pose proof (with_log_log _ _ _ H) as Lg. unfold with_log in H. destruct n as [|n].
      { destruct I as (N & _). rewrite N in H. discriminate. }
      destruct I as (r & Lr & Nr & U). rewrite Lr in H. injection H as <-. exists r. cbn [p_log]. split; [easy|].
      unfold all_exts in *. cbn [p_heap]. rewrite fold_left_app. cbn [fold_left].
      generalize dependent (fold_left (fun l x => set_add xext_eqb x l) acc []). intros X Nr. clear Lg Lr B. revert r Nr U. induction (p_heap s) as [|o h IH]; intros [|r] Nr U; try discriminate.
      * cbn in Nr |- *. destruct o; try discriminate. injection Nr as ->. cbn. split; [easy|]. intros [|i] xs K; [easy|]. apply (U (S i) xs K).
      * cbn in Nr |- *. destruct (IH r Nr) as [A C].
        { intros i xs K. specialize (U (S i) xs K). congruence. }
        split; [exact A|]. intros [|i] xs K; [|f_equal; now apply (C i xs)]. cbn in K. now specialize (U 0 xs K).
    + cbn [app]. rewrite app_nil_r. destruct e as [tag atts| |]; [|injection H as <-; exact I|injection H as <-; exact I].
      destruct (sget (py "uri") atts) as [u|]; [|discriminate].
      destruct (sget (py "prefix") atts), (urlparse u); try discriminate; injection H as <-; exact I.
  - apply step_log in H; [|easy]. unfold found, logs in *. cbn [filter] in *. rewrite O. cbn [flat_map]. rewrite app_nil_r.
    destruct (opens (py "log") e) eqn:Q; cbn [List.length] in *.
    + assert (n = 0) by lia. subst n. cbn [Nat.add one_log]. destruct I as (N & -> & U). destruct H as (Hl & He).
      exists (List.length (p_heap s)). split; [easy|]. rewrite He.
      assert (List.length (p_heap s) = List.length (all_exts s)) as -> by (unfold all_exts; now rewrite map_length).
      split; [rewrite nth_error_app2, Nat.sub_diag by lia; reflexivity|]. intros i xs K.
      destruct (lt_eq_lt_dec i (List.length (all_exts s))) as [[L|L]|L]; [|easy|].
      * rewrite nth_error_app1 in K by easy. now apply U in K.
      * rewrite nth_error_app2 in K by lia. destruct (i - List.length (all_exts s)) as [|[|k]] eqn:D; [lia|discriminate|discriminate].
    + rewrite Nat.add_0_r. destruct H as (Hl & k & He). destruct n as [|n].
      * destruct I as (N & A & U). split; [congruence|]. split; [easy|]. intros i xs. rewrite He. intros K. apply nth_none_app in K. now apply U in K.
      * destruct I as (r & Lr & Nr & U). exists r. split; [congruence|]. rewrite He. split.
        { rewrite nth_error_app1; [easy|]. apply nth_error_Some. congruence. }
        intros i xs K. apply nth_none_app in K. now apply (U i xs).
Qed.

Lemma one_log_run m es : forall s t n acc, one_log n acc s -> n + logs es <= 1 -> xes_run m urlparse draw es s = Ok t ->
  one_log (n + logs es) (acc ++ found m urlparse es) t.
Proof.
  unfold xes_run. induction es as [|e es IH]; cbn [fold_res]; intros s t n acc I B H.
  { injection H as <-. unfold logs, found. cbn. now rewrite Nat.add_0_r, app_nil_r. }
  assert (logs (e :: es) = logs [e] + logs es) as E by (unfold logs; change (e :: es) with ([e] ++ es); now rewrite filter_app, app_length).
  assert (found m urlparse (e :: es) = found m urlparse [e] ++ found m urlparse es) as F
    by (unfold found; change (e :: es) with ([e] ++ es); now rewrite filter_app, flat_map_app).
  rewrite E, F, Nat.add_assoc, app_assoc in *. destruct (xes_step m urlparse draw s e) as [u|] eqn:U; [|discriminate].
  apply (IH u); auto; try lia. apply (one_log_step m e s u); auto; lia.
Qed.

Theorem log_extensions m es s r l : logs es = 1 -> xes_run m urlparse draw es ps_init = Ok s -> log_in (p_heap s) r l ->
  lg_exts l = first_uris [] (found m urlparse es).
Proof.
  intros O H (mm & ts & gt & ge & N & _).
  assert (one_log 0 [] ps_init) as I by (split; [easy|split; [easy|now intros [] xs]]).
  pose proof (one_log_run m es ps_init s 0 [] I ltac:(lia) H) as K. rewrite O in K. destruct K as (r' & _ & Nr & U).
  assert (nth_error (all_exts s) r = Some (Some (lg_exts l))) as X.
  { unfold all_exts. now rewrite (map_nth_error exts_of _ _ N). }
  rewrite (U _ _ X) in X. rewrite X in Nr. injection Nr as Nr. rewrite Nr. apply (first_uris_fold _ []).
Qed.
End Outcome.

(** ** Registering one more extension *)

Lemma find_snoc {A} (f : A -> bool) l x : find f (l ++ [x]) = match find f l with Some y => Some y | None => if f x then Some x else None end.
Proof. induction l as [|y l IH]; cbn; [reflexivity|]. destruct (f y); [reflexivity|exact IH]. Qed.

Theorem register_label m x k : (forall y, In y (mg_list m) -> x_uri y <> x_uri x) ->
  named_extension (mgr_register x_uri m x) k =
  match named_extension m k with
  | Some y => Some y
  | None => if mem_char 58 k && str_eqb (x_prefix x) (before_char 58 k) then Some x else None
  end.
Proof.
  intros N. rewrite <- !key_extension_named. unfold key_extension, mgr_by_prefix, mgr_register. cbn [mg_list].
  destruct (existsb _ (mg_list m)) eqn:E.
  { apply existsb_exists in E as (y & I & S). apply str_eqb_eq in S. now destruct (N y I). }
  destruct (mem_char 58 k); [|reflexivity]. rewrite find_snoc. reflexivity.
Qed.

Theorem register_again m x k : (exists y, In y (mg_list m) /\ x_uri y = x_uri x) ->
  named_extension (mgr_register x_uri m x) k = named_extension m k.
Proof.
  intros (y & I & S). rewrite <- !key_extension_named. unfold key_extension, mgr_by_prefix, mgr_register. cbn [mg_list].
  assert (existsb (fun y => same_uri x_uri y x) (mg_list m) = true) as ->; [|reflexivity].
  apply existsb_exists. exists y. split; [easy|]. now apply str_eqb_eq.
Qed.
