(** Proofs about values that do not fit the class of their attribute. *)
From Coq Require Import String NArith ZArith List Bool Lia.
From Verif Require Import Base.PyBase Base.Unicode Base.PyDate Base.PyVal Base.Xml Model.Attr Model.DateConv Model.Log
  Model.Token Model.Registry Model.XesWrite Model.XesRead Spec.DateText Spec.Registries Spec.Xes Spec.Loose
  Proofs.BaseFacts Proofs.StrFacts Proofs.LowerFacts Proofs.AttrInd Proofs.XidFacts Proofs.DateFacts Proofs.XesReadFacts Proofs.XesRoundFacts
  Proofs.XesLogFacts.
Import ListNotations.

Lemma lower_digit d : (d < 10)%N -> lower_char (digit_char d) = [digit_char d].
Proof.
  intros H. assert (D : (d = 0 \/ d = 1 \/ d = 2 \/ d = 3 \/ d = 4 \/ d = 5 \/ d = 6 \/ d = 7 \/ d = 8 \/ d = 9)%N) by lia.
  repeat destruct D as [->|D]; subst; reflexivity.
Qed.
Lemma print_N_fixed n : fixed_text (print_N n).
Proof.
  unfold print_N. rewrite print_base_eq. destruct (base_digits_spec 10 n) as (_ & F & _); [lia|].
  induction F as [|d l H F IH]; [constructor|]. cbn [map]. constructor; [now apply lower_digit|exact IH].
Qed.
Lemma lower_print_N n : lower (print_N n) = print_N n.
Proof. apply fixed_text_lower, print_N_fixed. Qed.
Lemma lower_print_Z z : lower (print_Z z) = print_Z z.
Proof.
  apply fixed_text_lower. destruct z; cbn [print_Z]; try apply print_N_fixed.
  constructor; [reflexivity|apply print_N_fixed].
Qed.
Lemma print_Z_true z : print_Z z <> py "true".
Proof. intros E. pose proof (py_int_print_Z z) as H. rewrite E in H. discriminate H. Qed.

Section W.
Context `{FIO : FloatIO} (mgr : manager xext) (urlparse : pystr -> option pystr) (draw : nat -> N).

(** ** When a log can be written *)

Lemma str_when c k e v coll meta : is_collection c = false ->
  (exists t, attr_str (mk_attr c k e v coll meta) = Ok t) /\ dated (mk_attr c k e v coll meta)
  \/ attr_str (mk_attr c k e v coll meta) = Raise AttributeError /\ ~ dated (mk_attr c k e v coll meta).
Proof.
  intros C. unfold dated. cbn [a_cls a_val]. destruct c; try discriminate C; cbn [attr_str].
  all: try (left; split; [eexists; reflexivity|discriminate]).
  destruct v; try (right; split; [reflexivity|intros H; destruct (H eq_refl); discriminate]).
  left. split; eauto.
Qed.

Definition outcome {A} (r : res A) (P : Prop) : Prop := (exists x, r = Ok x) /\ P \/ r = Raise AttributeError /\ ~ P.
Lemma outcome_list {A B} (f : A -> res B) (P : A -> Prop) l : Forall (fun a => outcome (f a) (P a)) l ->
  outcome (map_res f l) (Forall P l).
Proof.
  induction 1 as [|a l H F IH]; [left; split; [eexists; reflexivity|constructor]|]. cbn [map_res].
  destruct H as [[[x ->] H]|[-> H]].
  - destruct IH as [[[xs ->] G]|[-> G]].
    + left. split; [eexists; reflexivity|]. now constructor.
    + right. split; [reflexivity|]. intros X. inversion X. auto.
  - right. split; [reflexivity|]. intros X. inversion X. auto.
Qed.
Lemma outcome_iff {A} (r : res A) P Q : (P <-> Q) -> outcome r P -> outcome r Q.
Proof. unfold outcome. tauto. Qed.
Lemma outcome_bind {A B} (r : res A) (f : A -> res B) P Q :
  outcome r P -> (forall x, r = Ok x -> outcome (f x) Q) -> outcome (bind r f) (P /\ Q).
Proof.
  intros [[[x ->] H]|[-> H]] G; cbn [bind].
  - destruct (G x eq_refl) as [[E G1]|[E G1]]; [left|right]; tauto.
  - right. split; [reflexivity|tauto].
Qed.
Lemma outcome_ok {A} (x : A) : outcome (Ok x) True.
Proof. left. split; [now exists x|exact I]. Qed.

Lemma Forall_flat {A B} (P : B -> Prop) (f : A -> list B) l : Forall P (flat_map f l) <-> Forall (fun a => Forall P (f a)) l.
Proof. induction l; cbn; [split; constructor|]. rewrite Forall_app, IHl. split; [intros []; now constructor|intros H; inversion H; auto]. Qed.
Lemma Forall_snd {A B} (P : B -> Prop) (m : list (A * B)) : Forall P (map snd m) <-> Forall (fun kv => P (snd kv)) m.
Proof. apply Forall_map. Qed.

Lemma post_order_kids (P : attr -> Prop) a : Forall P (post_order a) <-> Forall (fun b => Forall P (post_order b)) (kids_of a) /\ P a.
Proof.
  destruct a as [c k e v coll meta]. unfold kids_of. cbn [post_order a_cls a_coll a_meta]. rewrite Forall_app.
  assert (X : forall x, Forall P [x] <-> P x) by (intros; split; [intros H; now inversion H|intros; constructor; auto]).
  rewrite X. destruct (is_collection c); rewrite Forall_flat, ?Forall_snd; reflexivity.
Qed.

Lemma write_attr_outcome a : outcome (write_attr a) (Forall dated (post_order a)).
Proof.
  induction a as [c k e v coll meta IC IM] using attr_ind2. eapply outcome_iff; [symmetry; apply post_order_kids|].
  rewrite write_attr_eq. unfold kids_of. cbn [a_cls a_coll a_meta]. destruct (is_collection c) eqn:C.
  - eapply outcome_iff; [|apply (outcome_bind _ _ _ True (outcome_list _ _ _ IC)); intros; apply outcome_ok].
    unfold dated at 3. cbn [a_cls]. destruct c; try discriminate C; split; intros []; split; auto; intros; discriminate.
  - apply (Forall_snd (fun a => outcome (write_attr a) (Forall dated (post_order a))) meta) in IM.
    eapply outcome_iff; [|eapply (outcome_bind _ _ (dated (mk_attr c k e v coll meta)))].
    + rewrite and_comm. reflexivity.
    + destruct (str_when c k e v coll meta C); [left|right]; auto.
    + intros t _. eapply outcome_iff; [|apply (outcome_bind _ _ _ True (outcome_list _ _ _ IM)); intros; apply outcome_ok]. tauto.
Qed.
Lemma attrs_outcome l : outcome (add_attributes l) (Forall dated (flat_map post_order l)).
Proof.
  eapply outcome_iff; [symmetry; apply Forall_flat|]. apply outcome_list. apply Forall_forall. intros; apply write_attr_outcome.
Qed.
Lemma globals_outcome scope l : outcome (add_global_attributes scope l) (Forall dated (flat_map post_order l)).
Proof.
  destruct l as [|a l]; [left; split; [eexists; reflexivity|constructor]|]. unfold add_global_attributes.
  eapply outcome_iff; [|apply (outcome_bind _ _ _ True (attrs_outcome (a :: l))); intros; apply outcome_ok]. tauto.
Qed.

Theorem serialize_outcome l : outcome (xes_serialize l) (Forall dated (written_attrs l)).
Proof.
  unfold written_attrs, xes_serialize. eapply outcome_iff; [symmetry; rewrite !Forall_app; reflexivity|].
  apply outcome_bind; [apply globals_outcome|]. intros gt _. apply outcome_bind; [apply globals_outcome|]. intros ge _.
  apply outcome_bind; [apply attrs_outcome|]. intros ns _. eapply outcome_iff; [symmetry; apply Forall_flat|].

  assert (U : forall A (r : res A) P, outcome r (P /\ True) -> outcome r P) by (intros A r P; apply outcome_iff; tauto).
  apply U. apply outcome_bind; [|intros; apply outcome_ok]. apply outcome_list. apply Forall_forall. intros t _.
  unfold write_trace. eapply outcome_iff; [symmetry; apply Forall_app|]. apply outcome_bind; [apply attrs_outcome|]. intros ms _.
  apply U. apply outcome_bind; [|intros; apply outcome_ok]. eapply outcome_iff; [symmetry; apply Forall_flat|].
  apply outcome_list. apply Forall_forall. intros e _. unfold write_event. apply U. apply outcome_bind; [|intros; apply outcome_ok].
  apply attrs_outcome.
Qed.

(** ** Reading what was written *)

Lemma value_read c k e v coll meta t : is_collection c = false -> attr_str (mk_attr c k e v coll meta) = Ok t ->
  plain_date (mk_attr c k e v coll meta) ->
  match converted c v with
  | Some v' => tag_value c t = Ok (Some v')
  | None => exists x, tag_value c t = Raise x
  end.
Proof.
  intros C S P. unfold plain_date in P. cbn [a_cls a_val] in P.
  destruct c; try discriminate C; cbn [attr_str] in S; cbn [converted tag_value].
  - now injection S as <-.
  - destruct v; try discriminate S. injection S as <-. destruct (P d eq_refl eq_refl) as [V M]. now rewrite parse_timestamp_str.
  - injection S as <-. destruct (py_int 10 (py_str v)); cbn; [reflexivity|now exists ValueError].
  - injection S as <-. destruct (float_of_str (py_str v)); cbn; [reflexivity|now exists ValueError].
  - injection S as <-. now rewrite lower_idem.
  - injection S as <-. destruct (uuid_of_str (py_str v)); cbn; [reflexivity|now exists ValueError].
Qed.

Fixpoint turn (a : attr) : attr :=
  match a with
  | mk_attr c k _ v coll meta =>
      if is_collection c
      then let l := map turn coll in mk_attr c k (key_extension mgr k) PNone l (index l)
      else mk_attr c k (key_extension mgr k) (match converted c v with Some v' => v' | None => PNone end) []
                   (index (map (fun kv => turn (snd kv)) meta))
  end.
Fixpoint turn_globals (a : attr) : list attr :=
  match a with
  | mk_attr c k _ v coll meta =>
      (if is_collection c then flat_map turn_globals coll else flat_map (fun kv => turn_globals (snd kv)) meta)
      ++ [mk_attr c k (key_extension mgr k) (if is_collection c then PNone else match converted c v with Some v' => v' | None => PNone end) [] []]
  end.
Definition turn_map (m : sdict attr) : sdict attr := index (map turn (map snd m)).

Definition good (a : attr) : Prop := dated a /\ plain_date a /\ convertible a.
Definition turns (a : attr) : Prop := Forall good (post_order a) -> exists x, write_attr a = Ok x
  /\ elem_attr mgr x = Some (turn a) /\ elem_globals mgr x = Some (turn_globals a).

Lemma turns_list l : Forall turns l -> Forall good (flat_map post_order l) -> exists xs, map_res write_attr l = Ok xs
  /\ map_opt (elem_attr mgr) xs = Some (map turn l)
  /\ map_opt (elem_globals mgr) xs = Some (map turn_globals l).
Proof.
  induction 1 as [|a l W F IH]; intros R; simpl.
  - exists []. auto.
  - cbn in R. apply Forall_app in R as [R1 R2]. destruct (W R1) as (x & -> & E1 & E2). destruct (IH R2) as (xs & -> & E3 & E4).
    exists (x :: xs). simpl. now rewrite E1, E2, E3, E4.
Qed.

Theorem turns_attr a : turns a.
Proof.
  induction a as [c k e v coll meta IC IM] using attr_ind2. intros R.
  apply post_order_kids in R as [RK (D & P & V)]. unfold kids_of in RK. cbn [a_cls a_val a_coll a_meta] in *.
  apply Forall_flat in RK. rewrite write_attr_eq. cbn [turn turn_globals].
  destruct (is_collection c) eqn:C.
  - destruct (turns_list coll IC RK) as (xs & -> & E1 & E2).
    eexists. split; [reflexivity|]. cbn [elem_attr elem_globals]. rewrite tag_class_eq, attr_tag_of, E1, E2, C, key_att.
    assert (T : tag_value c (att "value" [(py "key", k)] []) = Ok (Some PNone)) by (destruct c; try discriminate; reflexivity).
    apply text_value_eq in T. rewrite T. split; [reflexivity|]. do 2 f_equal. symmetry. apply flat_map_concat_map.
  - destruct (str_when c k e v coll meta C) as [[[t E] _]|[_ E]]; [|contradiction]. rewrite E.
    pose proof (value_read c k e v coll meta t C E P) as TV. unfold convertible in V. cbn [a_cls a_val] in V.
    destruct (converted c v) as [v'|]; [|congruence].
    assert (IM' : Forall turns (map snd meta)) by (apply Forall_snd; exact IM).
    destruct (turns_list (map snd meta) IM' RK) as (xs & W & E1 & E2).
    cbn [bind]. rewrite W. eexists. split; [reflexivity|].
    cbn [elem_attr elem_globals]. rewrite tag_class_eq, attr_tag_of, E1, E2, C, key_att.
    assert (A : att "value" [(py "key", k); (py "value", t)] [] = t) by reflexivity.
    apply text_value_eq in TV. rewrite A, TV, map_map. split; [reflexivity|]. do 2 f_equal. rewrite flat_map_concat_map. now rewrite map_map.
Qed.
Lemma turns_attrs l : Forall good (flat_map post_order l) -> exists xs, add_attributes l = Ok xs
  /\ map_opt (elem_attr mgr) xs = Some (map turn l)
  /\ map_opt (elem_globals mgr) xs = Some (map turn_globals l).
Proof. apply turns_list. apply Forall_forall. intros a _. apply turns_attr. Qed.

Lemma turn_events es : Forall good (flat_map (fun e => flat_map post_order (map snd (ev_attrs e))) es) ->
  exists xs, map_res write_event es = Ok xs
  /\ map_opt (elem_in_trace mgr) xs = Some (map inr (map (fun e => turn_map (ev_attrs e)) es)).
Proof.
  induction es as [|e es IH]; intros R; cbn in R |- *; [exists []; auto|]. apply Forall_app in R as [R1 R2].
  unfold write_event at 1. destruct (turns_attrs _ R1) as (xs & -> & E & _). cbn [bind]. destruct (IH R2) as (ys & -> & IH').
  eexists. split; [reflexivity|]. cbn [map_opt]. unfold elem_in_trace at 1. cbn [elem_attr elem_event].
  replace (tag_class (lower (py "event"))) with (@None acls) by reflexivity.
  replace (str_eqb (lower (py "event")) (py "event")) with true by reflexivity. rewrite E, IH'. reflexivity.
Qed.
Definition turn_trace (t : trace) : sdict attr * list (sdict attr) :=
  (turn_map (tr_attrs t), map (fun e => turn_map (ev_attrs e)) (tr_events t)).
Lemma turn_traces ts : Forall good (flat_map (fun t => flat_map post_order (map snd (tr_attrs t))
                        ++ flat_map (fun e => flat_map post_order (map snd (ev_attrs e))) (tr_events t)) ts) ->
  exists xs, map_res write_trace ts = Ok xs
  /\ map_opt (elem_in_log mgr urlparse) xs = Some (map LTrace (map turn_trace ts)).
Proof.
  induction ts as [|t ts IH]; intros R; cbn in R |- *; [exists []; auto|]. apply Forall_app in R as [R1 R2].
  apply Forall_app in R1 as [RA RE].
  unfold write_trace at 1. destruct (turns_attrs _ RA) as (xs & -> & E & _). cbn [bind].
  destruct (turn_events _ RE) as (ys & -> & E2). cbn [bind]. destruct (IH R2) as (zs & -> & IH').
  eexists. split; [reflexivity|]. cbn [map_opt]. unfold elem_in_log at 1. cbn [elem_attr elem_trace].
  replace (tag_class (lower (py "trace"))) with (@None acls) by reflexivity.
  replace (str_eqb (lower (py "trace")) (py "trace")) with true by reflexivity. rewrite map_opt_app, E2.
  assert (E1 : map_opt (elem_in_trace mgr) xs = Some (map inl (map turn (map snd (tr_attrs t))))).
  { eapply map_opt_imp; [|exact E]. intros x y H. unfold elem_in_trace. now rewrite H. }
  rewrite E1. cbn [option_map]. rewrite lefts_mixed, rights_mixed, IH'. reflexivity.
Qed.
Lemma turn_globals_back scope g l : lower scope = scope ->
  (if str_eqb scope (py "trace") then Some GTrace else if str_eqb scope (py "event") then Some GEvent else None) = Some g ->
  Forall good (flat_map post_order l) -> exists xs, add_global_attributes scope l = Ok xs
  /\ map_opt (elem_in_log mgr urlparse) xs
     = Some (match l with [] => [] | _ => [LGlobals g (flat_map turn_globals l)] end).
Proof.
  intros LS SG R. destruct l as [|a l]; [exists []; auto|].
  unfold add_global_attributes. destruct (turns_attrs _ R) as (xs & W & _ & E). rewrite W. cbn [bind].
  eexists. split; [reflexivity|]. unfold map_opt, elem_in_log. cbn [elem_attr elem_trace].
  replace (tag_class (lower (py "global"))) with (@None acls) by reflexivity.
  replace (str_eqb (lower (py "global")) (py "trace")) with false by reflexivity.
  replace (str_eqb (lower (py "global")) (py "global")) with true by reflexivity.
  unfold elem_global. replace (sget (py "scope") [(py "scope", scope)]) with (Some scope) by reflexivity.
  rewrite LS, E. destruct (str_eqb scope (py "trace")).
  - injection SG as <-. cbn [option_map]. now rewrite flat_map_concat_map.
  - destruct (str_eqb scope (py "event")); [|discriminate]. injection SG as <-. cbn [option_map]. now rewrite flat_map_concat_map.
Qed.

Lemma serialize_turn l : Forall good (written_attrs l) -> exists doc l', xes_serialize l = Ok doc
  /\ doc_log mgr urlparse draw doc = Some l' /\ lg_attrs l' = turn_map (lg_attrs l)
  /\ lg_traces l' = number_traces draw 0 (map turn_trace (lg_traces l)).
Proof.
  unfold written_attrs. rewrite !Forall_app. intros (RT & RE & RA & RS). unfold xes_serialize.
  destruct (turn_globals_back (py "trace") GTrace _ eq_refl eq_refl RT) as (gt & -> & E1).
  destruct (turn_globals_back (py "event") GEvent _ eq_refl eq_refl RE) as (ge & -> & E2).
  destruct (turns_attrs _ RA) as (ns & W & E3 & _). cbn [bind]. rewrite W. cbn [bind].
  destruct (turn_traces _ RS) as (ts & -> & E4). cbn [bind].
  eexists. eexists. split; [reflexivity|]. cbn [doc_log]. replace (str_eqb (lower (py "log")) (py "log")) with true by reflexivity.
  assert (E3' : map_opt (elem_in_log mgr urlparse) ns = Some (map (fun a => LAttrs [a]) (map turn (map snd (lg_attrs l))))).
  { eapply map_opt_imp; [|exact E3]. intros x y H. unfold elem_in_log. now rewrite H. }
  rewrite !map_opt_app, E1, E2, E3', E4, write_extensions_back, write_classifiers_back. cbn [option_map].
  split; [reflexivity|]. unfold parts_log. cbn [lg_attrs lg_traces].
  assert (N1 : forall (B : Type) (f : log_part -> list B) g l0, (forall x, f (LGlobals g x) = []) ->
     flat_map f (match l0 with [] => [] | _ => [LGlobals g (flat_map turn_globals l0)] end) = []).
  { intros B f g [|a l0] H; simpl; auto. now rewrite H. }
  split.
  - rewrite !flat_map_app, !N1, !flat_map_map by auto. rewrite !(flat_map_none (A := xext)), !(flat_map_none (A := classifier)), !(flat_map_none (A := trace)) by auto.
    simpl. rewrite app_nil_r. unfold turn_map. f_equal. rewrite (flat_map_one (fun x => turn (snd x))). now rewrite map_map.
  - rewrite !flat_map_app, !N1, !flat_map_map by auto. rewrite !(flat_map_none (A := xext)), !(flat_map_none (A := classifier)), !(flat_map_none (A := pystr * attr)) by auto.
    simpl. now f_equal; apply (flat_map_one turn_trace).
Qed.

(** ** The same tree, converted *)

Lemma turn_key a : a_key (turn a) = a_key a.
Proof. destruct a as [c ? ? ? ? ?]. simpl. now destruct (is_collection c). Qed.
Lemma turn_keyed m : keyed m -> turn_map m = map (fun kv => (fst kv, turn (snd kv))) m.
Proof.
  intros [K N]. unfold turn_map.
  assert (E : map a_key (map turn (map snd m)) = map fst m).
  { rewrite !map_map. apply map_ext_in. intros kv I. rewrite turn_key. symmetry. rewrite Forall_forall in K. now apply K. }
  rewrite index_nodup by now rewrite E. rewrite !map_map. apply map_ext_in. intros kv I. rewrite turn_key.
  rewrite Forall_forall in K. now rewrite (K kv I).
Qed.
Theorem turn_turned a : well_keyed a -> Forall convertible (post_order a) -> turned mgr a (turn a).
Proof.
  induction a as [c k e v coll meta IC IM] using attr_ind2. intros W R. cbn [turn].
  apply post_order_kids in R as [RK V]. unfold kids_of, convertible in *. cbn [a_cls a_val a_coll a_meta] in *.
  inversion W as [? ? ? ? ? ? C WK|? ? ? ? ? ? C K WK]; subst; rewrite C in *.
  - apply turned_coll; auto. clear W C V. induction IC as [|a l H F IH]; simpl; constructor; inversion WK; inversion RK; auto.
  - apply turned_plain; auto; [destruct (converted c v); [reflexivity|congruence]|].
    assert (E : index (map (fun kv => turn (snd kv)) meta) = turn_map meta) by (unfold turn_map; now rewrite map_map).
    rewrite E, turn_keyed by auto. clear E K C W V. induction IM as [|kv l H F IH]; simpl; constructor; inversion WK; inversion RK; auto.
Qed.
Lemma turn_map_turned m : keyed_deep m -> Forall convertible (flat_map post_order (map snd m)) -> turned_map mgr m (turn_map m).
Proof.
  intros [K W] R. rewrite turn_keyed by auto. unfold turned_map. clear K.
  induction m as [|kv m IH]; simpl; constructor; inversion W; subst; cbn in R; apply Forall_app in R as [R1 R2]; auto.
  split; auto. now apply turn_turned.
Qed.

Theorem loose_loaded l : keyed_log l -> Forall dated (written_attrs l) -> Forall plain_date (written_attrs l) ->
  Forall convertible (written_attrs l) -> exists doc s r l', xes_serialize l = Ok doc
  /\ xes_parse mgr urlparse draw doc = Ok s /\ p_log s = Some r /\ log_in (p_heap s) r l'
  /\ turned_map mgr (lg_attrs l) (lg_attrs l') /\ Forall2 (turned_trace mgr) (lg_traces l) (lg_traces l').
Proof.
  intros [KA KT] D P V.
  assert (G : Forall good (written_attrs l)).
  { rewrite Forall_forall in *. intros a I. split; [auto|split; auto]. }
  destruct (serialize_turn l G) as (doc & l' & W & E & LA & LT). clear G D P.
  destruct (parse_doc mgr urlparse draw doc _ E) as (s & r & X & L & I & _).
  exists doc, s, r, l'. repeat (split; [assumption|]). rewrite LA, LT.
  unfold written_attrs in V. rewrite !Forall_app in V. destruct V as (_ & _ & VA & VT).
  split; [now apply turn_map_turned|]. clear - KT VT. generalize 0. induction (lg_traces l) as [|t ts IH]; intros n; cbn; [constructor|].
  inversion_clear KT. cbn in VT. apply Forall_app in VT as [V1 V2]. apply Forall_app in V1 as [VA VE]. destruct H as [K1 K2].
  constructor; [|now apply IH]. split; cbn [tr_attrs tr_events]; [now apply turn_map_turned|].
  clear - K2 VE. revert n. induction (tr_events t) as [|e es IHe]; intros n; cbn; constructor; inversion_clear K2; cbn in VE; apply Forall_app in VE as [? ?].
  - cbn [ev_attrs]. now apply turn_map_turned.
  - now apply IHe.
Qed.

(** ** A value that cannot be converted *)

Definition bad_start (x : sax) : Prop :=
  match x with
  | SStart t atts => exists c e, attr_tag (lower t) = Some c /\ tag_value c (att "value" atts []) = Raise e
  | _ => False
  end.
Lemma bad_run es : Exists bad_start es -> forall s, exists e, xes_run mgr urlparse draw es s = Raise e.
Proof.
  induction 1 as [x es H|x es H IH]; intros s; unfold xes_run in *; cbn [fold_res] in *.
  - destruct x as [t atts| |]; try contradiction. destruct H as (c & e & A & T).
    cbn [xes_step]. unfold start_element. rewrite A. unfold start_attr. unfold att in T. rewrite T. cbn [bind]. eauto.
  - destruct (xes_step _ _ _ s x) as [s'|e] eqn:E; [|eauto]. apply IH.
Qed.
Definition bads (x : xnode) : Prop := Exists bad_start (sax_of x).
Lemma bads_kid t atts kids : Exists bads kids -> bads (XElem t atts kids).
Proof.
  intros H. unfold bads. cbn [sax_of]. apply Exists_cons_tl. apply Exists_app. left.
  induction H; cbn; apply Exists_app; auto.
Qed.
Definition bad_attr (a : attr) : Prop := plain_date a /\ ~ convertible a.

Lemma bads_list {A} (f : A -> res xnode) (Q : A -> Prop) l xs : (forall a x, In a l -> Q a -> f a = Ok x -> bads x) ->
  map_res f l = Ok xs -> Exists Q l -> Exists bads xs.
Proof.
  intros H M. apply map_res_ok in M. intros E. induction M as [|a x l xs F M IH]; inversion E; subst.
  - apply Exists_cons_hd. apply (H a); auto. now left.
  - apply Exists_cons_tl. apply IH; auto. intros b y I. apply H. now right.
Qed.
Lemma Exists_flat {A B} (P : B -> Prop) (f : A -> list B) l : Exists P (flat_map f l) <-> Exists (fun a => Exists P (f a)) l.
Proof.
  induction l; cbn; [split; intros H; inversion H|]. rewrite Exists_app, IHl. split; [intros []; auto|intros H; inversion H; auto].
Qed.

Lemma bads_attr a : forall x, write_attr a = Ok x -> Exists bad_attr (post_order a) -> bads x.
Proof.
  induction a as [c k e v coll meta IC IM] using attr_ind2. intros x W E. rewrite write_attr_eq in W. cbn [post_order] in E.
  apply Exists_app in E. destruct (is_collection c) eqn:C.
  - destruct (map_res write_attr coll) as [ns|] eqn:M; [|discriminate]. injection W as <-. destruct E as [E|E].
    + apply bads_kid. apply Exists_flat in E. eapply bads_list; [|exact M|exact E].
      intros a y I Q F. rewrite Forall_forall in IC. exact (IC a I y F Q).
    + inversion E as [? ? [_ N]|? ? N]; subst; [|inversion N]. exfalso. apply N. unfold convertible. cbn [a_cls a_val].
      destruct c; discriminate.
  - destruct (attr_str _) as [t|] eqn:S in W; [|discriminate]. cbn [bind] in W.
    destruct (map_res write_attr (map snd meta)) as [ns|] eqn:M; [|discriminate]. injection W as <-. destruct E as [E|E].
    + apply bads_kid. eapply (bads_list write_attr (fun a => Exists bad_attr (post_order a))); [|exact M|].
      * intros a y I Q F. apply in_map_iff in I as (kv & <- & I). rewrite Forall_forall in IM. exact (IM kv I y F Q).
      * apply Exists_flat in E. clear - E. induction E; cbn; auto.
    + inversion E as [? ? [P N]|? ? N]; subst; [|inversion N]. unfold convertible in N. cbn [a_cls a_val] in N.
      pose proof (value_read c k e v coll meta t C S P) as TV. destruct (converted c v); [exfalso; apply N; discriminate|].
      destruct TV as [y TV]. unfold bads. cbn [sax_of]. apply Exists_cons_hd. cbn [bad_start]. exists c, y. split; [apply attr_tag_of|exact TV].
Qed.
Lemma bads_attrs l xs : add_attributes l = Ok xs -> Exists bad_attr (flat_map post_order l) -> Exists bads xs.
Proof.
  intros M E. apply Exists_flat in E. eapply bads_list; [|exact M|exact E]. intros a x _ Q F. now apply (bads_attr a).
Qed.
Lemma bads_globals scope l xs : add_global_attributes scope l = Ok xs -> Exists bad_attr (flat_map post_order l) -> Exists bads xs.
Proof.
  destruct l as [|a l]; intros M E; [inversion E|]. unfold add_global_attributes in M.
  destruct (add_attributes (a :: l)) as [ns|] eqn:W; [|discriminate]. injection M as <-. apply Exists_cons_hd.
  apply bads_kid. now apply (bads_attrs (a :: l)).
Qed.

Theorem loose_refused l doc : xes_serialize l = Ok doc -> Forall plain_date (written_attrs l) ->
  Exists (fun a => ~ convertible a) (written_attrs l) -> exists e, xes_parse mgr urlparse draw doc = Raise e.
Proof.
  intros W P E0.
  assert (E : Exists bad_attr (written_attrs l)).
  { apply Exists_exists in E0 as (a & I & N). apply Exists_exists. exists a. rewrite Forall_forall in P. split; [auto|split; auto]. }
  clear P E0. unfold xes_serialize in W.
  destruct (add_global_attributes (py "trace") (lg_gtrace l)) as [gt|] eqn:GT; [|discriminate]. cbn [bind] in W.
  destruct (add_global_attributes (py "event") (lg_gevent l)) as [ge|] eqn:GE; [|discriminate]. cbn [bind] in W.
  destruct (add_attributes (map snd (lg_attrs l))) as [ns|] eqn:NS; [|discriminate]. cbn [bind] in W.
  destruct (map_res write_trace (lg_traces l)) as [ts|] eqn:TS; [|discriminate]. cbn [bind] in W. injection W as <-.
  unfold xes_parse. apply bad_run. apply bads_kid. rewrite !Exists_app.
  unfold written_attrs in E. rewrite !Exists_app in E. destruct E as [E|[E|[E|E]]].
  - right. left. now apply (bads_globals _ _ _ GT).
  - do 2 right. left. now apply (bads_globals _ _ _ GE).
  - do 4 right. left. now apply (bads_attrs _ _ NS).
  - do 5 right. apply Exists_flat in E. eapply bads_list; [|exact TS|exact E]. clear. intros t x _ Q F. unfold write_trace in F.
    destruct (add_attributes (map snd (tr_attrs t))) as [ms|] eqn:M; [|discriminate]. cbn [bind] in F.
    destruct (map_res write_event (tr_events t)) as [es|] eqn:E; [|discriminate]. cbn [bind] in F. injection F as <-.
    apply bads_kid. apply Exists_app. apply Exists_app in Q as [Q|Q]; [left; now apply (bads_attrs _ _ M)|right].
    apply Exists_flat in Q. eapply bads_list; [|exact E|exact Q]. clear. intros e x _ Q F. unfold write_event in F.
    destruct (add_attributes (map snd (ev_attrs e))) as [ms|] eqn:M; [|discriminate]. cbn [bind] in F. injection F as <-.
    apply bads_kid. now apply (bads_attrs _ _ M).
Qed.
End W.
