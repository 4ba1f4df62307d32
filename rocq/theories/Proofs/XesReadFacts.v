From Coq Require Import String NArith ZArith List Bool Lia.
From Verif Require Import Base.PyBase Base.PyDate Base.PyVal Base.Xml Model.Attr Model.DateConv Model.Log
  Model.Token Model.Registry Model.XesWrite Model.XesRead Spec.DateText Spec.Registries Spec.Xes
  Proofs.BaseFacts Proofs.StrFacts.
Import ListNotations.

Lemma first_uris_fold l : forall s, fold_left (fun s x => set_add xext_eqb x s) l s = s ++ first_uris (map x_uri s) l.
Proof.
  induction l as [|x l IH]; intros s; cbn [fold_left first_uris]; [now rewrite app_nil_r|]. unfold set_add.
  replace (existsb (xext_eqb x) s) with (existsb (str_eqb (x_uri x)) (map x_uri s))
    by (clear; induction s as [|y s IH]; cbn [existsb map]; [reflexivity|now rewrite IH]).
  destruct (existsb _ _); rewrite IH; [reflexivity|]. now rewrite map_app, <- app_assoc.
Qed.
Lemma first_uris_in x l : forall seen, In x (first_uris seen l) -> In x l /\ ~ In (x_uri x) seen.
Proof.
  induction l as [|y l IH]; intros seen; cbn [first_uris]; [intros []|].
  destruct (existsb (str_eqb (x_uri y)) seen) eqn:E; [intros H; destruct (IH _ H); cbn; auto|].
  intros [->|H].
  - split; [now left|]. intros I. assert (existsb (str_eqb (x_uri x)) seen = true); [|congruence].
    apply existsb_exists. exists (x_uri x). split; auto. apply str_eqb_refl.
  - destruct (IH _ H) as [A B]. split; [now right|]. intros I. apply B, in_or_app. now left.
Qed.
Lemma first_uris_distinct l : forall seen, distinct_exts (first_uris seen l).
Proof.
  unfold distinct_exts. induction l as [|y l IH]; intros seen; cbn [first_uris]; [constructor|].
  destruct (existsb _ _); auto. cbn [map]. constructor; auto. intros I. apply in_map_iff in I as (x & E & I).
  apply first_uris_in in I as [_ I]. apply I. rewrite E. apply in_or_app. right. now left.
Qed.
Lemma distinct_by l : first_uris [] l = l -> distinct_exts l.
Proof. intros <-. apply first_uris_distinct. Qed.
Lemma first_uris_all l : forall seen, (forall x, In x l -> ~ In (x_uri x) seen) -> distinct_exts l -> first_uris seen l = l.
Proof.
  unfold distinct_exts. induction l as [|y l IH]; intros seen H D; cbn [first_uris]; [reflexivity|]. inversion D as [|? ? D1 D2]; subst.
  replace (existsb (str_eqb (x_uri y)) seen) with false.
  - f_equal. apply IH; auto. intros x I J. apply in_app_or in J as [J|[J|[]]]; [now apply (H x (or_intror I))|].
    apply D1. rewrite J. now apply in_map.
  - symmetry. apply not_true_is_false. intros X. apply existsb_exists in X as (u & I & E). apply str_eqb_eq in E. subst u.
    now apply (H y (or_introl eq_refl)).
Qed.

Section XnodeInd.
Variable P : xnode -> Prop.
Hypothesis He : forall t a kids, Forall P kids -> P (XElem t a kids).
Hypothesis Ht : forall s, P (XText s).
Fixpoint xnode_ind2 (x : xnode) : P x :=
  match x with
  | XText s => Ht s
  | XElem t a kids => He t a kids ((fix go l : Forall P l :=
      match l with [] => Forall_nil P | y :: r => Forall_cons y (xnode_ind2 y) (go r) end) kids)
  end.
End XnodeInd.

(** ** Lists *)

Lemma update_app_l {A} i (f : A -> A) l r : i < List.length l -> update i f (l ++ r) = update i f l ++ r.
Proof.
  revert i; induction l as [|x l IH]; intros [|i] H; simpl in *; try lia; auto. f_equal. apply IH. lia.
Qed.

Lemma update_app_r {A} (f : A -> A) l x r : update (List.length l) f (l ++ x :: r) = l ++ f x :: r.
Proof. induction l as [|y l IH]; simpl; auto. now rewrite IH. Qed.

Lemma update_twice {A} i (f g : A -> A) l : update i f (update i g l) = update i (fun x => f (g x)) l.
Proof. revert i; induction l as [|x l IH]; intros [|i]; simpl; auto. now rewrite IH. Qed.

Lemma update_eq {A} i (f g : A -> A) l : (forall x, nth_error l i = Some x -> f x = g x) -> update i f l = update i g l.
Proof.
  revert i; induction l as [|x l IH]; intros [|i] H; simpl; auto.
  - now rewrite H.
  - f_equal. now apply IH.
Qed.

Lemma update_id {A} i (l : list A) : update i (fun x => x) l = l.
Proof. revert i; induction l as [|x l IH]; intros [|i]; simpl; auto. now rewrite IH. Qed.

Lemma map_opt_some {A B} (f : A -> option B) l r : map_opt f l = Some r <-> Forall2 (fun x y => f x = Some y) l r.
Proof.
  revert r; induction l as [|x l IH]; intros r; simpl.
  - split; [intros [= <-]; constructor|intros H; now inversion H].
  - split.
    + destruct (f x) as [y|] eqn:F; [|discriminate]. destruct (map_opt f l) as [t|]; [|discriminate].
      intros [= <-]. constructor; auto. now apply IH.
    + intros H. inversion H as [|? y ? t F T]; subst. apply IH in T. now rewrite F, T.
Qed.

Lemma Forall2_flip_ {A B} (R : A -> B -> Prop) l r : Forall2 R l r -> Forall2 (fun y x => R x y) r l.
Proof. induction 1; constructor; auto. Qed.

Lemma Forall2_len {A B} (R : A -> B -> Prop) l r : Forall2 R l r -> List.length l = List.length r.
Proof. induction 1; simpl; auto. Qed.

Lemma Forall2_imp {A B} (R S : A -> B -> Prop) l r : (forall x y, R x y -> S x y) -> Forall2 R l r -> Forall2 S l r.
Proof. induction 2; constructor; auto. Qed.

(** ** Tags *)

Lemma attr_tag_other t u : attr_tag u = None -> attr_tag t <> None -> str_eqb t u = false.
Proof. intros H N. destruct (str_eqb_spec t u) as [->|]; auto. contradiction. Qed.

Lemma run_app {S A} (f : S -> A -> res S) a b s : fold_res f (a ++ b) s = match fold_res f a s with Ok s' => fold_res f b s' | Raise e => Raise e end.
Proof. rewrite fold_res_app. reflexivity. Qed.

(** ** Effects on objects *)

Definition attach (k : pystr) (i : nat) (o : pobj) : pobj := obj_collect i (obj_set k i o).
Definition attach_all (krs : list (pystr * nat)) (o : pobj) : pobj := fold_left (fun o kr => attach (fst kr) (snd kr) o) krs o.
Definition set_all {V} (krs : list (pystr * V)) (m : sdict V) : sdict V := fold_left (fun m kr => sset (fst kr) (snd kr) m) krs m.

Lemma attach_all_attr krs : forall c k e v coll m,
  attach_all krs (OAttr c k e v coll m)
  = OAttr c k e v (if is_collection c then coll ++ map snd krs else coll) (set_all krs m).
Proof.
  unfold attach_all, set_all. induction krs as [|kr krs IH]; intros; simpl.
  - destruct (is_collection c); now rewrite ?app_nil_r.
  - unfold attach at 2. simpl. destruct (is_collection c) eqn:C; rewrite IH, C; auto. now rewrite <- app_assoc.
Qed.
Lemma attach_all_event krs : forall d m, attach_all krs (OEvent d m) = OEvent d (set_all krs m).
Proof. unfold attach_all, set_all. induction krs as [|kr krs IH]; intros; simpl; auto. unfold attach at 2. simpl. apply IH. Qed.
Lemma attach_all_trace krs : forall m es, attach_all krs (OTrace m es) = OTrace (set_all krs m) es.
Proof. unfold attach_all, set_all. induction krs as [|kr krs IH]; intros; simpl; auto. unfold attach at 2. simpl. apply IH. Qed.
Lemma attach_all_log krs : forall m ts xs cs gt ge fs,
  attach_all krs (OLog m ts xs cs gt ge fs) = OLog (set_all krs m) ts xs cs gt ge fs.
Proof. unfold attach_all, set_all. induction krs as [|kr krs IH]; intros; simpl; auto. unfold attach at 2. simpl. apply IH. Qed.

Definition not_attr (o : option pobj) : Prop := forall c k e v l m, o <> Some (OAttr c k e v l m).

Lemma attach_not_attr k i o : not_attr (Some o) -> not_attr (Some (attach k i o)) /\ attach k i o = obj_set k i o.
Proof.
  intros N. destruct o; try (split; [unfold attach; simpl; intros ? ? ? ? ? ? H; discriminate|reflexivity]).
  exfalso. eapply N. reflexivity.
Qed.

Lemma sset_forall2 {V W} (R : V -> W -> Prop) k r a m m' : R r a ->
  Forall2 (fun kr ka => fst kr = fst ka /\ R (snd kr) (snd ka)) m m' ->
  Forall2 (fun kr ka => fst kr = fst ka /\ R (snd kr) (snd ka)) (sset k r m) (sset k a m').
Proof.
  intros HR. unfold sset. induction 1 as [|[k1 r1] [k2 a2] m m' [E H] F IH]; simpl; [repeat constructor; auto|].
  simpl in E. subst k2. destruct (str_eqb k k1); constructor; auto.
Qed.

Lemma index_forall2 (R : nat -> attr -> Prop) refs l : Forall2 R refs l -> forall m m',
  Forall2 (fun kr ka => fst kr = fst ka /\ R (snd kr) (snd ka)) m m' ->
  Forall2 (fun kr ka => fst kr = fst ka /\ R (snd kr) (snd ka))
    (set_all (combine (map a_key l) refs) m) (fold_left (fun m a => sset (a_key a) a m) l m').
Proof.
  unfold set_all. induction 1 as [|r a refs l H F IH]; intros m m' M; simpl; auto. apply IH. now apply sset_forall2.
Qed.

Lemma combine_snd {A B} (l : list A) (r : list B) : List.length l = List.length r -> map snd (combine l r) = r.
Proof. revert r; induction l as [|x l IH]; intros [|y r] H; simpl in *; try discriminate; auto. f_equal. apply IH. congruence. Qed.

(** [new], put at position [n] of any heap, holds object [r] standing for something. *)
Definition holds {T} (R : list pobj -> nat -> T -> Prop) (n : nat) (new : list pobj) (r : nat) (a : T) : Prop :=
  forall h0 ext, List.length h0 = n -> R (h0 ++ new ++ ext) r a.

Lemma holds_ext {T} (R : list pobj -> nat -> T -> Prop) n new new' r a : holds R n new r a -> holds R n (new ++ new') r a.
Proof. intros H h0 ext L. rewrite <- app_assoc. now apply H. Qed.
Lemma holds_shift {T} (R : list pobj -> nat -> T -> Prop) n new new' r a :
  holds R (n + List.length new) new' r a -> holds R n (new ++ new') r a.
Proof. intros H h0 ext L. rewrite <- app_assoc, app_assoc. apply H. rewrite app_length. lia. Qed.
Lemma holds_all_ext {T} (R : list pobj -> nat -> T -> Prop) n new new' l l' :
  Forall2 (holds R n new) l l' -> Forall2 (holds R n (new ++ new')) l l'.
Proof. apply Forall2_imp. intros. now apply holds_ext. Qed.
Lemma holds_all_shift {T} (R : list pobj -> nat -> T -> Prop) n new new' l l' :
  Forall2 (holds R (n + List.length new) new') l l' -> Forall2 (holds R n (new ++ new')) l l'.
Proof. apply Forall2_imp. intros. now apply holds_shift. Qed.
Lemma holds_all_use {T} (R : list pobj -> nat -> T -> Prop) n new l l' h0 ext :
  Forall2 (holds R n new) l l' -> List.length h0 = n -> Forall2 (R (h0 ++ new ++ ext)) l l'.
Proof. intros H L. eapply Forall2_imp; [|exact H]. intros x y Hx. now apply Hx. Qed.

Ltac pfields := cbn [p_heap p_log p_trace p_event p_attrs p_attributables p_globals p_drawn with_heap] in *.

Section R.
Context `{FIO : FloatIO} (mgr : manager xext) (urlparse : pystr -> option pystr) (draw : nat -> N).
Notation run := (xes_run mgr urlparse draw).
Notation step := (xes_step mgr urlparse draw).

Definition top_ok (s : pstate) (p : nat) : Prop :=
  match p_attrs s with [] => not_attr (nth_error (p_heap s) p) | q :: _ => q = p end.

Lemma end_attr_step i q p rest j h lg tr evt d c k e v coll m :
  nth_error h i = Some (OAttr c k e v coll m) ->
  match q with [] => not_attr (nth_error h p) | q0 :: _ => q0 = p end ->
  end_attr (mk_ps h lg tr evt (i :: q) (j :: p :: rest) None d)
  = Ok (mk_ps (update p (attach k i) h) lg tr evt q (p :: rest) None d).
Proof.
  intros N T. unfold end_attr, pop_attr, pop_attributable, with_heap. cbn [bind p_attrs p_attributables p_globals p_heap p_log p_trace p_event p_drawn].
  rewrite N. cbn [obj_key]. destruct q as [|q0 q].
  - do 2 f_equal. apply update_eq. intros o O. rewrite O in T. now destruct (attach_not_attr k i o T) as [_ ->].
  - subst q0. do 2 f_equal. rewrite update_twice. reflexivity.
Qed.

Lemma tag_class_eq t : tag_class t = attr_tag t.
Proof.
  unfold tag_class, attr_tag, xes_words. cbn [find fst].
  repeat match goal with |- context [str_eqb t (py ?w)] => destruct (str_eqb t (py w)); [reflexivity|] end. reflexivity.
Qed.
Lemma text_value_eq c s v : text_value c s = Some v <-> tag_value c s = Ok (Some v).
Proof.
  unfold text_value, tag_value. destruct c.
  all: try (match goal with |- context [option_map _ ?x] => destruct x end); cbn [option_map]; split; try discriminate; try congruence.
  - destruct (parse_date_time s) as [[d|]|]; cbn [bind option_map]; congruence.
  - destruct (parse_date_time s) as [[d|]|]; cbn [bind option_map]; congruence.
Qed.
Lemma features_eq (atts : sdict pystr) :
  filter (fun kv => existsb (fun w => starts_with (py w) (fst kv)) ["xes."%string; "openxes."%string]) atts = filter is_feature atts.
Proof. apply filter_ext. intros kv. unfold is_feature. cbn [existsb]. now rewrite orb_false_r. Qed.
Lemma start_attr_step c atts v s : tag_value c (att "value" atts []) = Ok (Some v) ->
  start_attr mgr c atts s
  = Ok (mk_ps (p_heap s ++ [OAttr c (att "key" atts (py "UNKNOWN")) (key_extension mgr (att "key" atts (py "UNKNOWN"))) v [] []])
              (p_log s) (p_trace s) (p_event s) (List.length (p_heap s) :: p_attrs s)
              (List.length (p_heap s) :: p_attributables s) (p_globals s) (p_drawn s)).
Proof.
  intros T. unfold start_attr, att in *. rewrite T. reflexivity.
Qed.

Lemma tag_not_global t c : attr_tag t = Some c -> str_eqb t (py "global") = false.
Proof. intros H. apply attr_tag_other; [reflexivity|congruence]. Qed.

Definition reads_attr (x : xnode) : Prop := forall a, elem_attr mgr x = Some a ->
  forall s p rest, p_attributables s = p :: rest -> p_globals s = None -> top_ok s p -> p < List.length (p_heap s) ->
  exists new,
    run (sax_of x) s = Ok (with_heap (update p (attach (a_key a) (List.length (p_heap s))) (p_heap s) ++ new) s)
    /\ holds attr_in (List.length (p_heap s)) new (List.length (p_heap s)) a.

Lemma run_attrs_of kids : Forall reads_attr kids -> forall l, map_opt (elem_attr mgr) kids = Some l ->
  forall s p rest, p_attributables s = p :: rest -> p_globals s = None -> top_ok s p -> p < List.length (p_heap s) ->
  exists new refs,
    run (flat_map sax_of kids) s = Ok (with_heap (update p (attach_all (combine (map a_key l) refs)) (p_heap s) ++ new) s)
    /\ Forall2 (holds attr_in (List.length (p_heap s)) new) refs l.
Proof.
  induction 1 as [|x kids RX RK IH]; intros l H s p rest HA HG HT HL.
  - injection H as <-. exists [], []. split; [|constructor]. simpl. rewrite app_nil_r. unfold attach_all. simpl.
    rewrite update_id. now destruct s.
  - simpl in H. destruct (elem_attr mgr x) as [a|] eqn:EA; [|discriminate].
    destruct (map_opt (elem_attr mgr) kids) as [l0|] eqn:EK; [|discriminate]. injection H as <-.
    destruct (RX a EA s p rest HA HG HT HL) as (new1 & R1 & H1).
    set (s1 := with_heap (update p (attach (a_key a) (List.length (p_heap s))) (p_heap s) ++ new1) s) in *.
    assert (L1 : List.length (p_heap s1) = List.length (p_heap s) + List.length new1) by (unfold s1; simpl; now rewrite app_length, update_length).
    destruct (IH l0 eq_refl s1 p rest) as (new2 & refs & R2 & H2); auto.
    { unfold top_ok in *. unfold s1 at 1. simpl. destruct (p_attrs s) as [|q0 q]; auto. unfold s1. simpl.
      rewrite nth_error_app1 by now rewrite update_length. rewrite update_nth, Nat.eqb_refl.
      destruct (nth_error (p_heap s) p) as [o|] eqn:O; simpl.
      - now apply attach_not_attr.
      - intros ? ? ? ? ? ? E; discriminate. }
    { lia. }
    exists (new1 ++ new2), (List.length (p_heap s) :: refs). split.
    + simpl. unfold run. rewrite run_app. unfold run in R1, R2. rewrite R1. fold s1. rewrite R2. unfold s1. unfold with_heap. simpl.
      rewrite update_app_l by now rewrite update_length. rewrite update_twice, app_assoc. reflexivity.
    + constructor; [now apply holds_ext|]. apply holds_all_shift. now rewrite <- L1.
Qed.

Theorem run_attr x : reads_attr x.
Proof.
  induction x as [t atts kids IH|tx] using xnode_ind2; intros a EA s p rest HA HG HT HL; [|discriminate].
  cbn [elem_attr] in EA. rewrite tag_class_eq in EA. destruct (attr_tag (lower t)) as [c|] eqn:TG; [|discriminate].
  destruct (map_opt (elem_attr mgr) kids) as [l|] eqn:EK; [|discriminate].
  destruct (text_value c (att "value" atts [])) as [v|] eqn:TV; [|discriminate]. apply text_value_eq in TV.
  set (k := att "key" atts (py "UNKNOWN")) in *. injection EA as <-.
  set (n := List.length (p_heap s)) in *.
  set (o := OAttr c k (key_extension mgr k) v [] []).
  set (s1 := mk_ps (p_heap s ++ [o]) (p_log s) (p_trace s) (p_event s) (n :: p_attrs s) (n :: p_attributables s) (p_globals s) (p_drawn s)).
  assert (S1 : step s (SStart t atts) = Ok s1).
  { simpl. unfold start_element. rewrite TG. now rewrite (start_attr_step c atts v s TV). }
  destruct (run_attrs_of kids IH l EK s1 n (p_attributables s)) as (new & refs & R & H); auto; [reflexivity|unfold s1; simpl; rewrite app_length; simpl; lia|].
  assert (L1 : List.length (p_heap s1) = n + 1) by (unfold s1; simpl; now rewrite app_length).
  assert (LR : List.length (map a_key l) = List.length refs) by (rewrite map_length; symmetry; eapply Forall2_len; eauto).
  set (krs := combine (map a_key l) refs) in *.
  exists (attach_all krs o :: new). split.
  - unfold run. cbn [sax_of fold_res]. rewrite S1. rewrite run_app. unfold run in R. rewrite R.
    cbn [fold_res xes_step]. unfold end_element. rewrite (tag_not_global _ _ TG), TG.
    unfold with_heap. cbn [p_heap p_log p_trace p_event p_attrs p_attributables p_globals p_drawn].
    unfold s1. cbn [p_heap p_log p_trace p_event p_attrs p_attributables p_globals p_drawn]. rewrite HA, HG.
    unfold n. rewrite update_app_r, <- app_assoc. simpl app. unfold o at 1. rewrite attach_all_attr.
    rewrite (end_attr_step _ _ _ _ _ _ _ _ _ _ c k (key_extension mgr k) v (if is_collection c then [] ++ map snd krs else []) (set_all krs [])).
    + unfold o. rewrite attach_all_attr. rewrite update_app_l by auto. reflexivity.
    + now rewrite nth_error_app2, Nat.sub_diag by auto.
    + unfold top_ok in HT. destruct (p_attrs s); auto. rewrite nth_error_app1 by auto. exact HT.
  - intros h0 ext L. unfold o. rewrite attach_all_attr. simpl app.
    assert (A : Forall2 (attr_in (h0 ++ OAttr c k (key_extension mgr k) v (if is_collection c then map snd krs else []) (set_all krs []) :: new ++ ext)) refs l).
    { assert (A := holds_all_use attr_in _ _ _ _ (h0 ++ [OAttr c k (key_extension mgr k) v (if is_collection c then map snd krs else []) (set_all krs [])]) ext H).
      rewrite <- !app_assoc in A. apply A. rewrite app_length, L1, L. reflexivity. }
    eapply attr_in_intro with (coll := if is_collection c then map snd krs else []) (meta := set_all krs []).
    + rewrite nth_error_app2 by lia. rewrite L, Nat.sub_diag. reflexivity.
    + assert (E : map snd krs = refs) by (unfold krs; now apply combine_snd).
      destruct (is_collection c); [rewrite E in *; exact A|constructor].
    + apply (index_forall2 (attr_in _)); [exact A|constructor].
Qed.

Lemma run_attrs kids l : map_opt (elem_attr mgr) kids = Some l ->
  forall s p rest, p_attributables s = p :: rest -> p_globals s = None -> top_ok s p -> p < List.length (p_heap s) ->
  exists new refs,
    run (flat_map sax_of kids) s = Ok (with_heap (update p (attach_all (combine (map a_key l) refs)) (p_heap s) ++ new) s)
    /\ Forall2 (holds attr_in (List.length (p_heap s)) new) refs l.
Proof. apply run_attrs_of. apply Forall_forall. intros x _. apply run_attr. Qed.

(** ** Events *)

Lemma step_event t atts s : lower t = py "event" -> step s (SStart t atts) = Ok (start_event draw s).
Proof. intros E. simpl. unfold start_element. rewrite E. reflexivity. Qed.
Lemma step_end_event t s : lower t = py "event" -> step s (SEnd t) = end_event s.
Proof. intros E. simpl. unfold end_element. rewrite E. reflexivity. Qed.
Lemma step_trace t atts s : lower t = py "trace" -> step s (SStart t atts) = Ok (start_trace s).
Proof. intros E. simpl. unfold start_element. rewrite E. reflexivity. Qed.
Lemma step_end_trace t s : lower t = py "trace" -> step s (SEnd t) = end_trace s.
Proof. intros E. simpl. unfold end_element. rewrite E. reflexivity. Qed.
Lemma step_log t atts s : lower t = py "log" -> step s (SStart t atts) = Ok (start_log atts s).
Proof. intros E. simpl. unfold start_element. rewrite E. reflexivity. Qed.
Lemma step_end_log t s : lower t = py "log" -> step s (SEnd t) = pop_attributable s.
Proof. intros E. simpl. unfold end_element. rewrite E. reflexivity. Qed.
Lemma step_global t atts s : lower t = py "global" -> step s (SStart t atts) = start_global atts s.
Proof. intros E. simpl. unfold start_element. rewrite E. reflexivity. Qed.
Lemma step_end_global t s : lower t = py "global" -> step s (SEnd t)
  = Ok (mk_ps (p_heap s) (p_log s) (p_trace s) (p_event s) (p_attrs s) (p_attributables s) None (p_drawn s)).
Proof. intros E. simpl. unfold end_element. rewrite E. reflexivity. Qed.
Lemma step_extension t atts s : lower t = py "extension" -> step s (SStart t atts) = start_extension mgr urlparse atts s.
Proof. intros E. simpl. unfold start_element. rewrite E. reflexivity. Qed.
Lemma step_end_extension t s : lower t = py "extension" -> step s (SEnd t) = Ok s.
Proof. intros E. simpl. unfold end_element. rewrite E. reflexivity. Qed.
Lemma step_classifier t atts s : lower t = py "classifier" -> step s (SStart t atts) = start_classifier atts s.
Proof. intros E. simpl. unfold start_element. rewrite E. reflexivity. Qed.
Lemma step_end_classifier t s : lower t = py "classifier" -> step s (SEnd t) = Ok s.
Proof. intros E. simpl. unfold end_element. rewrite E. reflexivity. Qed.


Theorem run_event x m : elem_event mgr x = Some m ->
  forall h lg t d rest, t < List.length h ->
  exists new,
    run (sax_of x) (mk_ps h lg (Some t) None [] (t :: rest) None d)
    = Ok (mk_ps (update t (trace_append (Some (List.length h))) h ++ new) lg (Some t) None [] (t :: rest) None (S d))
    /\ holds event_in (List.length h) new (List.length h) (mk_event (draw d) m).
Proof.
  intros E h lg t d rest HL. destruct x as [tg atts kids|]; [|discriminate]. simpl in E.
  destruct (str_eqb_spec (lower tg) (py "event")) as [TG|]; [|discriminate].
  destruct (map_opt (elem_attr mgr) kids) as [l|] eqn:EK; [|discriminate]. injection E as <-.
  set (n := List.length h). set (o := OEvent (draw d) []).
  set (s1 := mk_ps (h ++ [o]) lg (Some t) (Some n) [] (n :: t :: rest) None (S d)).
  destruct (run_attrs kids l EK s1 n (t :: rest)) as (new & refs & R & H); auto.
  { unfold top_ok, s1. pfields. unfold n. rewrite nth_error_app2, Nat.sub_diag by auto. simpl. intros ? ? ? ? ? ? X; discriminate. }
  { unfold s1. pfields. rewrite app_length. simpl. unfold n. lia. }
  assert (L1 : List.length (p_heap s1) = n + 1) by (unfold s1; pfields; now rewrite app_length).
  set (krs := combine (map a_key l) refs) in *.
  exists (attach_all krs o :: new). split.
  - unfold run. cbn [sax_of fold_res]. rewrite step_event by auto.
    assert (S1 : start_event draw (mk_ps h lg (Some t) None [] (t :: rest) None d) = s1) by reflexivity. rewrite S1.
    rewrite run_app. unfold run in R. rewrite R. cbn [fold_res]. rewrite step_end_event by auto.
    unfold with_heap, end_event, pop_attributable. unfold s1. pfields.
    unfold n. rewrite update_app_r, <- app_assoc. simpl app. rewrite update_app_l by auto. reflexivity.
  - intros h0 ext L. unfold o. rewrite attach_all_event. simpl app. exists (set_all krs []). split.
    + rewrite nth_error_app2 by lia. rewrite L, Nat.sub_diag. reflexivity.
    + unfold map_in. cbn [ev_attrs]. apply (index_forall2 (attr_in _)); [|constructor].
      assert (A := holds_all_use attr_in _ _ _ _ (h0 ++ [OEvent (draw d) (set_all krs [])]) ext H).
      rewrite <- !app_assoc in A. apply A. rewrite app_length, L1, L. reflexivity.
Qed.

(** ** Traces *)

Definition trace_effect (krs : list (pystr * nat)) (er : list nat) (o : pobj) : pobj :=
  match o with OTrace m es => OTrace (set_all krs m) (es ++ map Some er) | o => o end.

Lemma run_trace_kids kids : forall l, map_opt (elem_in_trace mgr) kids = Some l ->
  forall h lg t d rest m0 es0, nth_error h t = Some (OTrace m0 es0) ->
  exists new refs er,
    run (flat_map sax_of kids) (mk_ps h lg (Some t) None [] (t :: rest) None d)
    = Ok (mk_ps (update t (trace_effect (combine (map a_key (lefts l)) refs) er) h ++ new) lg (Some t) None []
                (t :: rest) None (d + List.length (rights l)))
    /\ Forall2 (holds attr_in (List.length h) new) refs (lefts l)
    /\ Forall2 (holds event_in (List.length h) new) er (number_events draw d (rights l)).
Proof.
  induction kids as [|x kids IH]; intros l H h lg t d rest m0 es0 HT.
  - injection H as <-. exists [], [], []. split; [|split; constructor]. simpl. rewrite app_nil_r, Nat.add_0_r.
    assert (U : update t (trace_effect [] []) h = h).
    { rewrite <- (update_id t h) at 2. apply update_eq. intros o O. rewrite HT in O. injection O as <-.
      unfold trace_effect, set_all. simpl. now rewrite app_nil_r. }
    now rewrite U.
  - simpl in H. destruct (elem_in_trace mgr x) as [y|] eqn:EX; [|discriminate].
    destruct (map_opt (elem_in_trace mgr) kids) as [l0|] eqn:EK; [|discriminate]. injection H as <-.
    assert (HL : t < List.length h) by (apply nth_error_Some; congruence).
    unfold elem_in_trace in EX. destruct (elem_attr mgr x) as [a|] eqn:EA.
    + injection EX as <-. set (s := mk_ps h lg (Some t) None [] (t :: rest) None d).
      destruct (run_attr x a EA s t rest) as (new1 & R1 & H1); auto.
      { unfold top_ok, s. pfields. rewrite HT. intros ? ? ? ? ? ? X; discriminate. }
      subst s. pfields. unfold with_heap in R1. pfields.
      set (h1 := update t (attach (a_key a) (List.length h)) h ++ new1) in *.
      assert (L1 : List.length h1 = List.length h + List.length new1) by (unfold h1; now rewrite app_length, update_length).
      destruct (IH l0 eq_refl h1 lg t d rest (sset (a_key a) (List.length h) m0) es0) as (new2 & refs & er & R2 & H2 & H3).
      { unfold h1. rewrite nth_error_app1 by now rewrite update_length. now rewrite update_nth, Nat.eqb_refl, HT. }
      exists (new1 ++ new2), (List.length h :: refs), er. split; [|split].
      * cbn [flat_map]. unfold run in *. rewrite run_app, R1, R2. do 2 f_equal. unfold h1.
        rewrite update_app_l by now rewrite update_length. rewrite update_twice, <- app_assoc. f_equal.
        apply update_eq. intros o O. rewrite HT in O. injection O as <-. reflexivity.
      * simpl. constructor; [now apply holds_ext|]. apply holds_all_shift. now rewrite <- L1.
      * simpl. apply holds_all_shift. now rewrite <- L1.
    + destruct (elem_event mgr x) as [m|] eqn:EE; [|discriminate]. injection EX as <-.
      destruct (run_event x m EE h lg t d rest HL) as (new1 & R1 & H1).
      set (h1 := update t (trace_append (Some (List.length h))) h ++ new1) in *.
      assert (L1 : List.length h1 = List.length h + List.length new1) by (unfold h1; now rewrite app_length, update_length).
      destruct (IH l0 eq_refl h1 lg t (S d) rest m0 (es0 ++ [Some (List.length h)])) as (new2 & refs & er & R2 & H2 & H3).
      { unfold h1. rewrite nth_error_app1 by now rewrite update_length. now rewrite update_nth, Nat.eqb_refl, HT. }
      exists (new1 ++ new2), refs, (List.length h :: er). split; [|split].
      * cbn [flat_map]. unfold run in *. rewrite run_app, R1, R2.
        replace (S d + List.length (rights l0)) with (d + S (List.length (rights l0))) by lia. do 2 f_equal. unfold h1.
        rewrite update_app_l by now rewrite update_length. rewrite update_twice, <- app_assoc. f_equal.
        apply update_eq. intros o O. rewrite HT in O. injection O as <-. simpl. now rewrite <- app_assoc.
      * simpl. apply holds_all_shift. now rewrite <- L1.
      * simpl. constructor; [now apply holds_ext|]. apply holds_all_shift. now rewrite <- L1.
Qed.

Theorem run_trace x m es : elem_trace mgr x = Some (m, es) ->
  forall h g d rest, g < List.length h ->
  exists new,
    run (sax_of x) (mk_ps h (Some g) None None [] (g :: rest) None d)
    = Ok (mk_ps (update g (log_append (Some (List.length h))) h ++ new) (Some g) None None [] (g :: rest) None (d + List.length es))
    /\ holds trace_in (List.length h) new (List.length h) (mk_trace m (number_events draw d es)).
Proof.
  intros E h g d rest HL. destruct x as [tg atts kids|]; [|discriminate]. simpl in E.
  destruct (str_eqb_spec (lower tg) (py "trace")) as [TG|]; [|discriminate].
  destruct (map_opt (elem_in_trace mgr) kids) as [l|] eqn:EK; [|discriminate]. injection E as <- <-.
  set (n := List.length h). set (o := OTrace [] []).
  destruct (run_trace_kids kids l EK (h ++ [o]) (Some g) n d (g :: rest) [] []) as (new & refs & er & R & H & H').
  { unfold n. rewrite nth_error_app2, Nat.sub_diag by auto. reflexivity. }
  assert (L1 : List.length (h ++ [o]) = n + 1) by now rewrite app_length.
  rewrite L1 in *. set (krs := combine (map a_key (lefts l)) refs) in *.
  exists (trace_effect krs er o :: new). split.
  - unfold run in *. cbn [sax_of fold_res]. rewrite step_trace by auto.
    assert (S1 : start_trace (mk_ps h (Some g) None None [] (g :: rest) None d)
      = mk_ps (h ++ [o]) (Some g) (Some n) None [] (n :: g :: rest) None d) by reflexivity. rewrite S1.
    rewrite run_app, R. cbn [fold_res]. rewrite step_end_trace by auto.
    unfold end_trace, pop_attributable. pfields.
    unfold n. rewrite update_app_r, <- app_assoc. simpl app. rewrite update_app_l by auto. reflexivity.
  - intros h0 ext L. simpl app. exists (set_all krs []), (map Some er). split; [|split].
    + rewrite nth_error_app2 by lia. rewrite L, Nat.sub_diag. reflexivity.
    + unfold map_in. cbn [tr_attrs]. apply (index_forall2 (attr_in _)); [|constructor].
      assert (A := holds_all_use attr_in _ _ _ _ (h0 ++ [trace_effect krs er o]) ext H).
      rewrite <- !app_assoc in A. apply A. rewrite app_length, L. reflexivity.
    + cbn [tr_events]. assert (A := holds_all_use event_in _ _ _ _ (h0 ++ [trace_effect krs er o]) ext H').
      rewrite <- !app_assoc in A. specialize (A ltac:(rewrite app_length, L; reflexivity)).
      match goal with |- Forall2 (fun o e => exists i, o = Some i /\ event_in ?X i e) _ _ =>
        change (Forall2 (event_in X) er (number_events draw d (rights l))) in A; revert A; generalize X end.
      clear. intros hp A. induction A; simpl; constructor; eauto.
Qed.

(** ** Globals *)

Definition globals_append_all (g : gscope) (refs : list nat) (o : pobj) : pobj :=
  fold_left (fun o i => globals_append g i o) refs o.

Lemma globals_append_all_app g a b o : globals_append_all g (a ++ b) o = globals_append_all g b (globals_append_all g a o).
Proof. unfold globals_append_all. now rewrite fold_left_app. Qed.

Definition reads_globals (x : xnode) : Prop := forall l, elem_globals mgr x = Some l ->
  forall s g sc, p_globals s = Some (g, sc) -> g < List.length (p_heap s) ->
  exists new refs,
    run (sax_of x) s = Ok (with_heap (update g (globals_append_all sc refs) (p_heap s) ++ new) s)
    /\ Forall2 (holds attr_in (List.length (p_heap s)) new) refs l.

Lemma run_globals_of kids : Forall reads_globals kids -> forall l, map_opt (elem_globals mgr) kids = Some l ->
  forall s g sc, p_globals s = Some (g, sc) -> g < List.length (p_heap s) ->
  exists new refs,
    run (flat_map sax_of kids) s = Ok (with_heap (update g (globals_append_all sc refs) (p_heap s) ++ new) s)
    /\ Forall2 (holds attr_in (List.length (p_heap s)) new) refs (List.concat l).
Proof.
  induction 1 as [|x kids RX RK IH]; intros l H s g sc HG HL.
  - injection H as <-. exists [], []. split; [|constructor]. simpl. rewrite app_nil_r. unfold globals_append_all. simpl.
    rewrite update_id. now destruct s.
  - simpl in H. destruct (elem_globals mgr x) as [a|] eqn:EA; [|discriminate].
    destruct (map_opt (elem_globals mgr) kids) as [l0|] eqn:EK; [|discriminate]. injection H as <-.
    destruct (RX a EA s g sc HG HL) as (new1 & refs1 & R1 & H1).
    set (s1 := with_heap (update g (globals_append_all sc refs1) (p_heap s) ++ new1) s) in *.
    assert (L1 : List.length (p_heap s1) = List.length (p_heap s) + List.length new1) by (unfold s1; simpl; now rewrite app_length, update_length).
    destruct (IH l0 eq_refl s1 g sc) as (new2 & refs & R2 & H2); auto; [lia|].
    exists (new1 ++ new2), (refs1 ++ refs). split.
    + simpl. unfold run. rewrite run_app. unfold run in R1, R2. rewrite R1. fold s1. rewrite R2. unfold s1. unfold with_heap. simpl.
      rewrite update_app_l by now rewrite update_length. rewrite update_twice, app_assoc. do 4 f_equal.
      apply update_eq. intros o _. now rewrite globals_append_all_app.
    + simpl. apply Forall2_app; [now apply holds_all_ext|]. apply holds_all_shift. now rewrite <- L1.
Qed.

Lemma end_attr_global h lg tr evt i q j rest g sc d :
  end_attr (mk_ps h lg tr evt (i :: q) (j :: rest) (Some (g, sc)) d)
  = Ok (mk_ps (update g (globals_append sc i) h) lg tr evt q rest (Some (g, sc)) d).
Proof. reflexivity. Qed.

Theorem run_global x : reads_globals x.
Proof.
  induction x as [t atts kids IH|tx] using xnode_ind2; intros a EA s g sc HG HL; [|discriminate].
  cbn [elem_globals] in EA. rewrite tag_class_eq in EA. destruct (attr_tag (lower t)) as [c|] eqn:TG; [|discriminate].
  destruct (map_opt (elem_globals mgr) kids) as [l|] eqn:EK; [|discriminate].
  destruct (text_value c (att "value" atts [])) as [v|] eqn:TV; [|discriminate]. apply text_value_eq in TV.
  set (k := att "key" atts (py "UNKNOWN")) in *. injection EA as <-.
  set (n := List.length (p_heap s)) in *.
  set (o := OAttr c k (key_extension mgr k) v [] []).
  set (s1 := mk_ps (p_heap s ++ [o]) (p_log s) (p_trace s) (p_event s) (n :: p_attrs s) (n :: p_attributables s) (p_globals s) (p_drawn s)).
  assert (S1 : step s (SStart t atts) = Ok s1).
  { simpl. unfold start_element. rewrite TG. now rewrite (start_attr_step c atts v s TV). }
  assert (L1 : List.length (p_heap s1) = n + 1) by (unfold s1; simpl; now rewrite app_length).
  destruct (run_globals_of kids IH l EK s1 g sc) as (new & refs & R & H); auto; [lia|].
  exists (o :: new), (refs ++ [n]). split.
  - unfold run. cbn [sax_of fold_res]. rewrite S1. rewrite run_app. unfold run in R. rewrite R.
    cbn [fold_res xes_step]. unfold end_element. rewrite (tag_not_global _ _ TG), TG.
    unfold with_heap, s1. pfields. rewrite HG, end_attr_global. cbv iota.
    rewrite (update_app_l _ (globals_append sc n)) by (rewrite update_length, app_length; lia).
    rewrite update_twice, update_app_l, <- app_assoc by auto. do 3 f_equal.
    apply update_eq. intros x _. now rewrite globals_append_all_app.
  - apply Forall2_app.
    + change (o :: new) with ([o] ++ new). apply holds_all_shift. rewrite L1 in H. exact H.
    + repeat constructor. intros h0 ext L. simpl app. econstructor; [|constructor|constructor].
      rewrite nth_error_app2 by lia. rewrite L, Nat.sub_diag. reflexivity.
Qed.

Lemma run_globals kids l : map_opt (elem_globals mgr) kids = Some l ->
  forall s g sc, p_globals s = Some (g, sc) -> g < List.length (p_heap s) ->
  exists new refs,
    run (flat_map sax_of kids) s = Ok (with_heap (update g (globals_append_all sc refs) (p_heap s) ++ new) s)
    /\ Forall2 (holds attr_in (List.length (p_heap s)) new) refs (List.concat l).
Proof. apply run_globals_of. apply Forall_forall. intros x _. apply run_global. Qed.

(** ** Logs *)

Definition part_attrs p := match p with LAttrs l => l | _ => [] end.
Definition part_traces p := match p with LTrace t => [t] | _ => [] end.
Definition part_exts p := match p with LExt (Some x) => [x] | _ => [] end.
Definition part_cls p := match p with LClassifier (Some c) => [c] | _ => [] end.
Definition part_gt p := match p with LGlobals GTrace l => l | _ => [] end.
Definition part_ge p := match p with LGlobals GEvent l => l | _ => [] end.

Definition log_effect (krs : list (pystr * nat)) (tr : list nat) (xs : list xext) (cs : list classifier) (gts ges : list nat)
  (o : pobj) : pobj :=
  match o with
  | OLog m ts xs0 cs0 gt ge fs =>
      OLog (set_all krs m) (ts ++ map Some tr) (fold_left (fun s x => set_add xext_eqb x s) xs xs0) (cs0 ++ cs)
           (gt ++ gts) (ge ++ ges) fs
  | o => o
  end.

Lemma log_effect_twice k1 t1 x1 c1 g1 e1 k2 t2 x2 c2 g2 e2 o :
  log_effect k2 t2 x2 c2 g2 e2 (log_effect k1 t1 x1 c1 g1 e1 o)
  = log_effect (k1 ++ k2) (t1 ++ t2) (x1 ++ x2) (c1 ++ c2) (g1 ++ g2) (e1 ++ e2) o.
Proof.
  destruct o; simpl; auto. unfold set_all. rewrite !fold_left_app, map_app, <- !app_assoc. reflexivity.
Qed.

Lemma log_effect_globals sc refs o : (exists m ts xs cs gt ge fs, o = OLog m ts xs cs gt ge fs) ->
  globals_append_all sc refs o = log_effect [] [] [] [] (match sc with GTrace => refs | _ => [] end) (match sc with GEvent => refs | _ => [] end) o.
Proof.
  intros (m & ts & xs & cs & gt & ge & fs & ->). revert gt ge.
  induction refs as [|r refs IH]; intros gt ge; unfold globals_append_all in *; simpl.
  - unfold set_all. destruct sc; simpl; now rewrite !app_nil_r.
  - destruct sc; simpl; rewrite IH; simpl; now rewrite <- ?app_assoc, ?app_nil_r.
Qed.

Definition is_log (o : option pobj) : Prop := exists m ts xs cs gt ge fs, o = Some (OLog m ts xs cs gt ge fs).
Definition events_of (ts : list (sdict attr * list (sdict attr))) : nat := List.length (flat_map snd ts).

Lemma number_traces_app n a b : number_traces draw n (a ++ b) = number_traces draw n a ++ number_traces draw (n + events_of a) b.
Proof.
  revert n; induction a as [|[m es] a IH]; intros n; simpl.
  - unfold events_of. simpl. now rewrite Nat.add_0_r.
  - rewrite IH. unfold events_of. simpl. rewrite app_length, Nat.add_assoc. reflexivity.
Qed.

Definition log_step (es : list sax) (p : list log_part) : Prop :=
  forall h g d rest, is_log (nth_error h g) ->
  exists new refs tr gts ges,
    run es (mk_ps h (Some g) None None [] (g :: rest) None d)
    = Ok (mk_ps (update g (log_effect (combine (map a_key (flat_map part_attrs p)) refs) tr (flat_map part_exts p)
                                      (flat_map part_cls p) gts ges) h ++ new)
                (Some g) None None [] (g :: rest) None (d + events_of (flat_map part_traces p)))
    /\ Forall2 (holds attr_in (List.length h) new) refs (flat_map part_attrs p)
    /\ Forall2 (holds trace_in (List.length h) new) tr (number_traces draw d (flat_map part_traces p))
    /\ Forall2 (holds attr_in (List.length h) new) gts (flat_map part_gt p)
    /\ Forall2 (holds attr_in (List.length h) new) ges (flat_map part_ge p).

Lemma is_log_update h g f : is_log (nth_error h g) -> (forall m ts xs cs gt ge fs, exists m' ts' xs' cs' gt' ge' fs',
    f (OLog m ts xs cs gt ge fs) = OLog m' ts' xs' cs' gt' ge' fs') -> is_log (nth_error (update g f h) g).
Proof.
  intros (m & ts & xs & cs & gt & ge & fs & E) H. rewrite update_nth, Nat.eqb_refl, E.
  destruct (H m ts xs cs gt ge fs) as (m' & ts' & xs' & cs' & gt' & ge' & fs' & E'). simpl. rewrite E'. repeat eexists.
Qed.
Lemma is_log_lt h g : is_log (nth_error h g) -> g < List.length h.
Proof. intros (m & ts & xs & cs & gt & ge & fs & E). apply nth_error_Some. congruence. Qed.

Lemma log_step_nil : log_step [] [].
Proof.
  intros h g d rest (m & ts & xs & cs & gt & ge & fs & E). exists [], [], [], [], []. repeat split; try constructor.
  simpl. unfold events_of. simpl. rewrite Nat.add_0_r, app_nil_r.
  assert (U : update g (log_effect [] [] [] [] [] []) h = h).
  { rewrite <- (update_id g h) at 2. apply update_eq. intros o O. rewrite E in O. injection O as <-.
    simpl. now rewrite !app_nil_r. }
  now rewrite U.
Qed.

Lemma combine_app {A B} (a1 a2 : list A) (b1 b2 : list B) : List.length a1 = List.length b1 ->
  combine (a1 ++ a2) (b1 ++ b2) = combine a1 b1 ++ combine a2 b2.
Proof. revert b1; induction a1 as [|x a1 IH]; intros [|y b1] H; simpl in *; try discriminate; auto. f_equal. auto. Qed.

Lemma log_step_app e1 p1 e2 p2 : log_step e1 p1 -> log_step e2 p2 -> log_step (e1 ++ e2) (p1 ++ p2).
Proof.
  intros A B h g d rest IL. destruct (A h g d rest IL) as (n1 & r1 & t1 & g1 & e1' & R1 & H1 & H2 & H3 & H4).
  set (f := log_effect _ _ _ _ _ _) in R1.
  assert (IL2 : is_log (nth_error (update g f h ++ n1) g)).
  { rewrite nth_error_app1 by (rewrite update_length; now apply is_log_lt). apply is_log_update; auto.
    intros. unfold f. simpl. repeat eexists. }
  destruct (B _ g (d + events_of (flat_map part_traces p1)) rest IL2) as (n2 & r2 & t2 & g2 & e2' & R2 & K1 & K2 & K3 & K4).
  assert (L : List.length (update g f h ++ n1) = List.length h + List.length n1) by now rewrite app_length, update_length.
  rewrite L in *.
  exists (n1 ++ n2), (r1 ++ r2), (t1 ++ t2), (g1 ++ g2), (e1' ++ e2'). rewrite !flat_map_app. split; [|split; [|split; [|split]]].
  - unfold run in *. rewrite run_app, R1, R2.
    assert (D : forall a b, events_of (a ++ b) = events_of a + events_of b)
      by (intros; unfold events_of; now rewrite flat_map_app, app_length).
    rewrite D, Nat.add_assoc, update_app_l, update_twice, <- app_assoc by (rewrite update_length; now apply is_log_lt).
    do 3 f_equal. apply update_eq. intros o _. unfold f. rewrite log_effect_twice.
    rewrite map_app, combine_app; auto. rewrite map_length. symmetry. eapply Forall2_len, H1.
  - apply Forall2_app; [now apply holds_all_ext|now apply holds_all_shift].
  - rewrite number_traces_app. apply Forall2_app; [now apply holds_all_ext|now apply holds_all_shift].
  - apply Forall2_app; [now apply holds_all_ext|now apply holds_all_shift].
  - apply Forall2_app; [now apply holds_all_ext|now apply holds_all_shift].
Qed.

Lemma log_step_attrs kids l : map_opt (elem_attr mgr) kids = Some l -> log_step (flat_map sax_of kids) [LAttrs l].
Proof.
  intros E h g d rest IL. set (s := mk_ps h (Some g) None None [] (g :: rest) None d).
  assert (HL := is_log_lt _ _ IL).
  destruct IL as (m & ts & xs & cs & gt & ge & fs & O).
  destruct (run_attrs kids l E s g rest) as (new & refs & R & H); auto.
  { unfold top_ok, s. pfields. rewrite O. intros ? ? ? ? ? ? X; discriminate. }
  subst s. unfold with_heap in R. pfields.
  exists new, refs, [], [], []. simpl. rewrite app_nil_r. split; [|repeat split; auto].
  rewrite R. unfold events_of. simpl. rewrite Nat.add_0_r. do 3 f_equal.
  apply update_eq. intros o O'. rewrite O in O'. injection O' as <-.
  rewrite attach_all_log. simpl. now rewrite !app_nil_r.
Qed.

Lemma log_step_trace x t : elem_trace mgr x = Some t -> log_step (sax_of x) [LTrace t].
Proof.
  intros E h g d rest IL. destruct t as [m es]. destruct (run_trace x m es E h g d rest (is_log_lt _ _ IL)) as (new & R & H).
  destruct IL as (m0 & ts & xs & cs & gt & ge & fs & O).
  exists new, [], [List.length h], [], []. simpl. split; [|repeat split; auto].
  rewrite R. unfold events_of. simpl. rewrite app_nil_r. do 3 f_equal.
  apply update_eq. intros o O'. rewrite O in O'. injection O' as <-. simpl. now rewrite !app_nil_r.
Qed.

Lemma log_step_pure es p : part_attrs p = [] -> part_traces p = [] -> part_gt p = [] -> part_ge p = [] ->
  (forall h g d rest, is_log (nth_error h g) -> exists f,
    run es (mk_ps h (Some g) None None [] (g :: rest) None d) = Ok (mk_ps (update g f h) (Some g) None None [] (g :: rest) None d)
    /\ forall o, nth_error h g = Some o -> f o = log_effect [] [] (part_exts p) (part_cls p) [] [] o) ->
  log_step es [p].
Proof.
  intros A T G1 G2 H h g d rest IL. destruct (H h g d rest IL) as (f & R & F).
  exists [], [], [], [], []. simpl. rewrite A, T, G1, G2. simpl. rewrite !app_nil_r. split; [|repeat split; constructor].
  rewrite R. unfold events_of. simpl. rewrite Nat.add_0_r. do 2 f_equal. now apply update_eq.
Qed.

Lemma log_step_elem x p : elem_in_log mgr urlparse x = Some p -> log_step (sax_of x) [p].
Proof.
  unfold elem_in_log. intros E. destruct (elem_attr mgr x) as [a|] eqn:EA.
  { injection E as <-. assert (X := log_step_attrs [x] [a]). simpl in X. rewrite app_nil_r, EA in X. now apply X. }
  destruct (elem_trace mgr x) as [t|] eqn:ET; [injection E as <-; now apply log_step_trace|].
  destruct x as [tg atts kids|]; [|discriminate].
  destruct (str_eqb_spec (lower tg) (py "global")) as [TG|TG].
  - unfold elem_global in E. destruct (sget (py "scope") atts) as [sc|] eqn:SC; [|discriminate].
    assert (G : forall gs l, (if str_eqb (lower sc) (py "trace") then Some GTrace
                   else if str_eqb (lower sc) (py "event") then Some GEvent else None) = Some gs ->
                map_opt (elem_globals mgr) kids = Some l -> log_step (sax_of (XElem tg atts kids)) [LGlobals gs (List.concat l)]).
    { intros gs l GS EL h g d rest IL. assert (HL := is_log_lt _ _ IL).
      destruct IL as (m & ts & xs & cs & gt & ge & fs & O).
      set (s := mk_ps h (Some g) None None [] (g :: rest) (Some (g, gs)) d).
      destruct (run_globals kids l EL s g gs eq_refl HL) as (new & refs & R & H).
      subst s. unfold with_heap in R. pfields.
      exists new, [], [], (match gs with GTrace => refs | _ => [] end), (match gs with GEvent => refs | _ => [] end).
      split; [|destruct gs; simpl; rewrite ?app_nil_r; repeat split; auto].
      unfold run in *. cbn [sax_of fold_res]. rewrite step_global by auto. unfold start_global. rewrite SC, GS. pfields.
      rewrite run_app, R. cbn [fold_res]. rewrite step_end_global by auto. pfields.
      replace (flat_map part_attrs [LGlobals gs (List.concat l)]) with (@nil attr) by reflexivity.
      replace (events_of (flat_map part_traces [LGlobals gs (List.concat l)])) with 0 by reflexivity.
      rewrite Nat.add_0_r. do 3 f_equal. apply update_eq. intros o O'. rewrite O in O'. injection O' as <-.
      rewrite log_effect_globals; [reflexivity|repeat eexists]. }
    destruct (str_eqb (lower sc) (py "trace")) eqn:S1; [|destruct (str_eqb (lower sc) (py "event")) eqn:S2].
    + destruct (map_opt (elem_globals mgr) kids) as [l|] eqn:EL; [|discriminate]. injection E as <-. now apply G.
    + destruct (map_opt (elem_globals mgr) kids) as [l|] eqn:EL; [|discriminate]. injection E as <-. now apply G.
    + destruct (map_opt (elem_attr mgr) kids) as [l|] eqn:EL; [|discriminate]. injection E as <-.
      intros h g d rest IL. destruct (log_step_attrs kids l EL h g d rest IL) as (new & refs & tr & gts & ges & R & H).
      exists new, refs, tr, gts, ges. split; auto. unfold run in *. cbn [sax_of fold_res]. rewrite step_global by auto.
      unfold start_global. rewrite SC, S1, S2. rewrite run_app, R. cbn [fold_res]. rewrite step_end_global by auto. reflexivity.
  - destruct kids; [|discriminate].
    destruct (str_eqb_spec (lower tg) (py "extension")) as [TX|TX].
    + assert (P : exists x, p = LExt x /\ forall s, p_log s <> None -> start_extension mgr urlparse atts s
               = match x with Some x => with_log (log_add_ext x) s | None => Ok s end).
      { unfold elem_extension in E. unfold start_extension.
        destruct (sget (py "prefix") atts) as [q|]; destruct (sget (py "uri") atts) as [u|]; try discriminate.
        - injection E as <-. eexists. split; [reflexivity|]. intros s _. cbn [bind]. now destruct (mgr_by_prefix x_prefix mgr q).
        - destruct (mgr_by_prefix x_prefix mgr q) as [y|]; [|discriminate]. injection E as <-. eexists. split; [reflexivity|]. reflexivity.
        - destruct (urlparse u) as [v|]; [|discriminate]. injection E as <-. eexists. split; [reflexivity|]. intros s _. cbn [bind]. now destruct (mgr_by_uri mgr v). }
      destruct P as (x & -> & P). apply log_step_pure; [now destruct x|now destruct x|now destruct x|now destruct x|].
      intros h g d rest IL. unfold run. cbn [sax_of fold_res flat_map app]. rewrite step_extension, P by (auto; discriminate).
      destruct IL as (m & ts & xs & cs & gt & ge & fs & O). destruct x as [x|].
      * unfold with_log. pfields. rewrite step_end_extension by auto. eexists. split; [reflexivity|].
        intros o O'. rewrite O in O'. injection O' as <-. simpl. now rewrite !app_nil_r.
      * rewrite step_end_extension by auto. exists (fun o => o). rewrite update_id. split; [reflexivity|].
        intros o O'. rewrite O in O'. injection O' as <-. simpl. now rewrite !app_nil_r.
    + destruct (str_eqb_spec (lower tg) (py "classifier")) as [TC|TC]; [|discriminate].
      assert (P : exists c, p = LClassifier c /\ forall s, p_log s <> None -> start_classifier atts s
               = match c with Some c => with_log (log_add_classifier c) s | None => Ok s end).
      { unfold elem_classifier, att in E. unfold start_classifier. injection E as <-.
        eexists. split; [reflexivity|]. intros s _.
        destruct (sget (py "name") atts) as [n|]; destruct (sget (py "keys") atts) as [ks|]; simpl; auto.
        - now destruct (nonempty n && nonempty ks).
        - now rewrite andb_false_r. }
      destruct P as (c & -> & P). apply log_step_pure; [now destruct c|now destruct c|now destruct c|now destruct c|].
      intros h g d rest IL. unfold run. cbn [sax_of fold_res flat_map app]. rewrite step_classifier, P by (auto; discriminate).
      destruct IL as (m & ts & xs & cs & gt & ge & fs & O). destruct c as [c|].
      * unfold with_log. pfields. rewrite step_end_classifier by auto. eexists. split; [reflexivity|].
        intros o O'. rewrite O in O'. injection O' as <-. simpl. now rewrite !app_nil_r.
      * rewrite step_end_classifier by auto. exists (fun o => o). rewrite update_id. split; [reflexivity|].
        intros o O'. rewrite O in O'. injection O' as <-. simpl. now rewrite !app_nil_r.
Qed.

Lemma log_step_elems kids l : map_opt (elem_in_log mgr urlparse) kids = Some l -> log_step (flat_map sax_of kids) l.
Proof.
  revert l; induction kids as [|x kids IH]; intros l E; simpl in E.
  - injection E as <-. apply log_step_nil.
  - destruct (elem_in_log mgr urlparse x) as [p|] eqn:EX; [|discriminate].
    destruct (map_opt (elem_in_log mgr urlparse) kids) as [l0|]; [|discriminate]. injection E as <-.
    apply (log_step_app _ [p] _ l0); [now apply log_step_elem|now apply IH].
Qed.

Theorem parse_doc x l : doc_log mgr urlparse draw x = Some l ->
  exists s r, xes_parse mgr urlparse draw x = Ok s /\ p_log s = Some r /\ log_in (p_heap s) r l
    /\ p_attrs s = [] /\ p_attributables s = [].
Proof.
  intros E. destruct x as [tg atts kids|]; [|discriminate]. simpl in E.
  destruct (str_eqb_spec (lower tg) (py "log")) as [TG|]; [|discriminate].
  destruct (map_opt (elem_in_log mgr urlparse) kids) as [p|] eqn:EK; [|discriminate]. injection E as <-.
  set (fs := doc_features atts).
  destruct (log_step_elems kids p EK [OLog [] [] [] [] [] [] fs] 0 0 []) as (new & refs & tr & gts & ges & R & H1 & H2 & H3 & H4).
  { repeat eexists. }
  eexists. exists 0. unfold xes_parse, run. unfold run in R. cbn [sax_of fold_res]. rewrite step_log by auto.
  replace (start_log atts ps_init) with (mk_ps [OLog [] [] [] [] [] [] fs] (Some 0) None None [] [0] None 0)
    by (unfold fs, doc_features; rewrite features_eq; reflexivity).
  rewrite run_app, R. cbn [fold_res]. rewrite step_end_log by auto. unfold pop_attributable. pfields.
  split; [reflexivity|]. pfields. split; [reflexivity|]. split; [|auto].
  cbn [update app]. match goal with |- log_in (?o :: new) _ _ => set (o1 := o) end.
  assert (U : forall A (R : list pobj -> nat -> A -> Prop) rs (xs : list A),
     Forall2 (holds R (List.length [OLog [] [] [] [] [] [] fs]) new) rs xs -> Forall2 (R (o1 :: new)) rs xs).
  { intros A Q rs xs F. assert (X := holds_all_use Q _ _ _ _ [o1] [] F eq_refl). now rewrite app_nil_r in X. }
  exists (set_all (combine (map a_key (flat_map part_attrs p)) refs) []), (map Some tr), gts, ges.
  split; [|split; [|split; [|split]]].
  - cbn [nth_error]. unfold o1, log_effect. rewrite first_uris_fold. reflexivity.
  - apply (index_forall2 (attr_in _)); [|constructor]. now apply U.
  - apply U in H2. revert H2. generalize (o1 :: new). clear. intros hp A.
    change (Forall2 (trace_in hp) tr (lg_traces (parts_log draw fs p))) in A. induction A; simpl; constructor; eauto.
  - now apply U in H3.
  - now apply U in H4.
Qed.
End R.
