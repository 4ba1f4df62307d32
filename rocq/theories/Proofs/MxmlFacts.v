(** The MXML reader follows the document. *)
From Coq Require Import String NArith ZArith List Bool Lia.
From Verif Require Proofs.LowerFacts.
From Verif Require Import Base.PyBase Base.PyDate Base.PyVal Base.Xml Model.Attr Model.DateConv Model.Log
  Model.Token Model.StdExt Model.MxmlRead Spec.Xes Spec.Mxml
  Proofs.BaseFacts Proofs.StrFacts Proofs.TokenFacts Proofs.XesReadFacts.
Import ListNotations.

(** ** Text *)

Lemma blank_forall s : blank s = true <-> Forall (fun c => is_space c = true) s.
Proof. unfold blank. now rewrite forallb_forall, Forall_forall. Qed.
Lemma blank_app a b : blank a = true -> blank b = true -> blank (a ++ b) = true.
Proof. unfold blank. rewrite forallb_app. now intros -> ->. Qed.

Lemma strip_blank_app a b : blank a = true -> strip (a ++ b) = strip b.
Proof. intros B. unfold strip, strip_by. rewrite dropwhile_app_all; [reflexivity|now apply blank_forall]. Qed.

Lemma strip_nil s : strip s = [] <-> blank s = true.
Proof.
  split.
  - unfold strip, strip_by. intros H. apply (f_equal (@rev N)) in H. rewrite rev_involutive in H.
    simpl in H. apply blank_forall.
    destruct (dropwhile_suffix is_space s) as (a & E & F).
    destruct (dropwhile_suffix is_space (rev (dropwhile is_space s))) as (b & E2 & F2).
    rewrite H, app_nil_r in E2. rewrite E. apply Forall_app. split; auto.
    rewrite <- (rev_involutive (dropwhile is_space s)), E2. now apply Forall_rev.
  - intros B. rewrite <- (app_nil_r s), strip_blank_app by auto. reflexivity.
Qed.

Lemma strip_idem s : strip (strip s) = strip s.
Proof. apply strip_trimmed, strip_is_trimmed. Qed.

Lemma nonempty_spec s : nonempty s = match s with [] => false | _ => true end.
Proof. destruct s; reflexivity. Qed.

Lemma nonblank_blank s : nonblank s = negb (blank s).
Proof.
  unfold nonblank. destruct (blank s) eqn:B.
  - apply strip_nil in B. now rewrite B.
  - destruct (strip s) eqn:E; [|reflexivity]. apply strip_nil in E. congruence.
Qed.

Lemma lower_nonempty s : nonempty (lower s) = nonempty s.
Proof.
  rewrite !nonempty_spec. destruct s as [|c s]; [reflexivity|]. unfold lower. simpl.
  destruct (Base.Unicode.low [] c s) eqn:E; [now apply Proofs.LowerFacts.low_nonnil in E|reflexivity].
Qed.

(** ** Maps *)

Lemma fold_left_map {A B C} (f : A -> B -> A) (g : C -> B) l a :
  fold_left f (map g l) a = fold_left (fun a x => f a (g x)) l a.
Proof. revert a; induction l; simpl; auto. Qed.

Definition put_all (l : list attr) (m : sdict attr) : sdict attr := fold_left (fun m a => sset (a_key a) a m) l m.
Lemma index_put l : index l = put_all l [].
Proof. reflexivity. Qed.
Lemma put_all_app a b m : put_all (a ++ b) m = put_all b (put_all a m).
Proof. apply fold_left_app. Qed.
Lemma index_app a b : index (a ++ b) = put_all b (index a).
Proof. apply put_all_app. Qed.

(** ** One step of the handler *)

Definition clear (s : mstate) : mstate := set_buffer [] s.
Section Run.
Context (draw : nat -> N).

Lemma mx_run_app a b s : mx_run draw (a ++ b) s = let! s1 := mx_run draw a s in mx_run draw b s1.
Proof.
  unfold mx_run. revert s. induction a as [|e a IH]; intros s; simpl; [reflexivity|].
  destruct (mx_step draw s e); simpl; auto.
Qed.
Lemma mx_run_elem t atts kids s :
  mx_run draw (sax_of (XElem t atts kids)) s
  = let! s1 := mx_start draw t atts s in let! s2 := mx_run draw (flat_map sax_of kids) s1 in mx_end t s2.
Proof.
  cbn [sax_of]. change (SStart t atts :: flat_map sax_of kids ++ [SEnd t])
    with ([SStart t atts] ++ flat_map sax_of kids ++ [SEnd t]).
  rewrite mx_run_app. unfold mx_run at 1. cbn [fold_res mx_step].
  destruct (mx_start draw t atts s) as [s1|]; [|reflexivity]. cbn [bind]. rewrite mx_run_app.
  destruct (mx_run draw (flat_map sax_of kids) s1) as [s2|]; [|reflexivity]. cbn [bind].
  unfold mx_run. cbn [fold_res mx_step]. now destruct (mx_end t s2).
Qed.

Lemma set_buffer_self s : set_buffer (m_buffer s) s = s.
Proof. destruct s; reflexivity. Qed.

Lemma run_leaf kids : forall text s, leaf_text kids = Some text ->
  mx_run draw (flat_map sax_of kids) s = Ok (set_buffer (m_buffer s ++ text) s).
Proof.
  induction kids as [|[t a k|c] kids IH]; intros text s H; simpl in H; try discriminate.
  - injection H as <-. rewrite app_nil_r, set_buffer_self. reflexivity.
  - destruct (leaf_text kids) as [u|] eqn:E; [|discriminate]. injection H as <-.
    cbn [flat_map sax_of]. rewrite mx_run_app. unfold mx_run at 1. cbn [fold_res mx_step bind].
    rewrite (IH u _ eq_refl). cbn [m_buffer set_buffer]. now rewrite app_assoc.
Qed.

(** ** States without the fields that carry nothing from one item to the next *)

Definition core (s : mstate) : mstate :=
  mk_ms (m_sources s) [] (m_logs s) (m_process s) (m_instance s) (m_entry s) (m_source s) None None None
        (m_source_open s) None None (m_drawn s).
Definition aware (d : option datetime) : Prop := match d with Some d => is_aware d = true | None => True end.
Definition ready (s : mstate) : Prop := blank (m_buffer s) = true /\ aware (m_timestamp s) /\ aware (m_last s).

(** Running [es] from any prepared state in [P] does [act]. *)
Definition does (es : list sax) (P : mstate -> Prop) (act : mstate -> mstate) : Prop :=
  forall s, ready s -> P (core s) ->
  exists s', mx_run draw es s = Ok s' /\ ready s' /\ core s' = act (core s).

Lemma does_seq a b P f g : does a P f -> does b P g -> (forall c, P c -> P (f c)) -> does (a ++ b) P (fun c => g (f c)).
Proof.
  intros A B K s R H. destruct (A s R H) as (s1 & E1 & R1 & C1).
  destruct (B s1 R1) as (s2 & E2 & R2 & C2); [rewrite C1; auto|].
  exists s2. rewrite mx_run_app, E1. cbn [bind]. rewrite E2, C2, C1. auto.
Qed.
Lemma does_nil (P : mstate -> Prop) : does [] P (fun c => c).
Proof. intros s R _. exists s. repeat split; try apply R. Qed.
Lemma does_eq es (P : mstate -> Prop) f g : does es P f -> (forall c, P c -> f c = g c) -> does es P g.
Proof. intros D E s R H. destruct (D s R H) as (s' & X & Y & Z). exists s'. rewrite <- E; auto. Qed.

Lemma grouping_spec t : grouping t = true -> Forall (fun v => str_eqb t v = false) mxml_vocabulary.
Proof.
  unfold grouping. intros H. apply negb_true_iff in H. apply Forall_forall. intros v I.
  destruct (str_eqb t v) eqn:E; [|reflexivity]. rewrite <- H. symmetry. apply existsb_exists. eauto.
Qed.
Lemma grouping_start t atts s : grouping t = true -> mx_start draw t atts s = Ok s.
Proof.
  intros H. apply grouping_spec in H. unfold mxml_vocabulary in H.
  repeat match goal with H : Forall _ (_ :: _) |- _ => inversion H; clear H; subst end.
  unfold mx_start. repeat match goal with H : str_eqb t _ = false |- _ => rewrite H; clear H end. reflexivity.
Qed.
Lemma grouping_end t s : grouping t = true -> mx_end t s = Ok (clear s).
Proof.
  intros H. apply grouping_spec in H. unfold mxml_vocabulary in H.
  repeat match goal with H : Forall _ (_ :: _) |- _ => inversion H; clear H; subst end.
  unfold mx_end. repeat match goal with H : str_eqb t _ = false |- _ => rewrite H; clear H end. reflexivity.
Qed.

Section Items.
Context {A : Type} (own : pystr -> sdict pystr -> list xnode -> option (list A))
        (P : mstate -> Prop) (act : A -> mstate -> mstate).
Hypothesis keep : forall a c, P c -> P (act a c).
Definition acts (l : list A) (c : mstate) : mstate := fold_left (fun c a => act a c) l c.
Hypothesis own_does : forall t atts kids l, own t atts kids = Some l ->
  does (sax_of (XElem t atts kids)) P (acts l).

Lemma keep_all l c : P c -> P (acts l c).
Proof. unfold acts. revert c; induction l; simpl; auto. Qed.

Lemma items_list kids : Forall (fun x => forall l, items own x = Some l -> does (sax_of x) P (acts l)) kids ->
  forall l, map_opt (items own) kids = Some l -> does (flat_map sax_of kids) P (acts (List.concat l)).
Proof.
  induction 1 as [|x kids H F IH]; intros l E; simpl in E.
  - injection E as <-. apply does_nil.
  - destruct (items own x) as [a|] eqn:X; [|discriminate].
    destruct (map_opt (items own) kids) as [r|] eqn:Y; [|discriminate]. injection E as <-.
    cbn [flat_map List.concat]. apply does_eq with (fun c => acts (List.concat r) (acts a c)).
    + apply does_seq; auto. intros c; apply keep_all.
    + intros c _. unfold acts. now rewrite fold_left_app.
Qed.

Lemma items_does x : forall l, items own x = Some l -> does (sax_of x) P (acts l).
Proof.
  induction x as [t atts kids IH|s] using xnode_ind2; intros l; cbn [items].
  - destruct (grouping t) eqn:G; [|apply own_does].
    destruct (leaf_text kids) as [text|] eqn:L.
    + intros [= <-] s R _. rewrite mx_run_elem, (grouping_start t atts s G). cbn [bind].
      rewrite (run_leaf kids text s L). cbn [bind]. rewrite (grouping_end _ _ G).
      eexists; split; [reflexivity|]. split; [|reflexivity]. split; [reflexivity|apply R].
    + destruct (map_opt (items own) kids) as [r|] eqn:E; [|discriminate]. intros [= <-] s R H.
      destruct (items_list kids IH r E s R H) as (s' & X & Y & Z).
      rewrite mx_run_elem, (grouping_start t atts s G). cbn [bind]. rewrite X. cbn [bind].
      rewrite (grouping_end _ _ G).
      eexists; split; [reflexivity|]. split; [|rewrite <- Z; reflexivity]. split; [reflexivity|apply Y].
  - destruct (blank s) eqn:B; [|discriminate]. intros [= <-] st R _.
    eexists; split; [reflexivity|]. split; [|reflexivity].
    destruct R as (R1 & R2). split; [|exact R2]. cbn [m_buffer set_buffer]. now apply blank_app.
Qed.

Lemma all_items_does kids l : all_items own kids = Some l -> does (flat_map sax_of kids) P (acts l).
Proof.
  unfold all_items. destruct (map_opt (items own) kids) as [r|] eqn:E; [|discriminate]. intros [= <-].
  apply items_list; auto. apply Forall_forall. intros x _. apply items_does.
Qed.
End Items.

(** ** Data attributes and fields of entries *)

Definition place (a : attr) (c : mstate) : mstate :=
  match m_entry c with
  | Some e => set_entry (Some (put_event a e)) c
  | None =>
      let filled := match m_instance c with Some t => has_items (mt_events t) | None => false end in
      let grown := match m_process c with Some l => has_items (ml_traces l) | None => false end in
      if filled then set_instance (option_map (put_trace a) (m_instance c)) c
      else if grown then set_process (option_map (put_log a) (m_process c)) c
      else if m_source_open c then
        match m_source c with
        | None => c
        | Some i => set_sources (update i (put_meta a) (m_sources c)) c
        end
      else c
  end.
Definition src_ok (c : mstate) : Prop := m_source_open c = true -> m_source c <> None.
Definition in_entry (c : mstate) : Prop := m_entry c <> None /\ src_ok c.

Lemma place_frame a c : m_source (place a c) = m_source c /\ m_source_open (place a c) = m_source_open c
  /\ (m_entry c = None -> m_entry (place a c) = None) /\ (m_entry c <> None -> m_entry (place a c) <> None)
  /\ (m_process c <> None -> m_process (place a c) <> None)
  /\ (m_instance c = None -> m_instance (place a c) = None)
  /\ (m_process c = None -> m_process (place a c) = None)
  /\ (m_instance c <> None -> m_instance (place a c) <> None).
Proof.
  unfold place. destruct (m_entry c) eqn:E; cbn; [repeat split; congruence|].
  destruct (m_instance c) as [t|] eqn:I; [destruct (has_items (mt_events t))|];
    (destruct (m_process c) as [l|] eqn:L; [destruct (has_items (ml_traces l))|]);
    (destruct (m_source_open c) eqn:O); (destruct (m_source c) eqn:S);
    cbn; rewrite ?E, ?I, ?L, ?O, ?S; cbn; repeat split; congruence.
Qed.
Lemma place_src a c : src_ok c -> src_ok (place a c).
Proof. unfold src_ok. destruct (place_frame a c) as (-> & -> & _). auto. Qed.
Lemma place_entry a c : in_entry c -> in_entry (place a c).
Proof. intros [E S]. split; [now apply place_frame|now apply place_src]. Qed.

Lemma trimmed_strip t : trimmed_text t = match strip t with [] => None | s => Some s end.
Proof. reflexivity. Qed.

Lemma reference_meta atts k x v :
  add_reference put_meta atts (literal k x v []) = text_attr k x v (index (reference_of atts)).
Proof.
  unfold add_reference, model_reference, reference_of.
  destruct (sget (py "modelReference") atts) as [[|c r]|]; reflexivity.
Qed.

Lemma data_does t atts kids l : data_of t atts kids = Some l -> does (sax_of (XElem t atts kids)) src_ok (acts place l).
Proof.
  unfold data_of. destruct (str_eqb t (py "Attribute")) eqn:T; [|discriminate].
  apply str_eqb_eq in T. subst t.
  destruct (sget (py "name") atts) as [n|] eqn:N0; [|discriminate].
  destruct (leaf_text kids) as [text|] eqn:L; [|discriminate]. intros [= <-] s R P.
  rewrite mx_run_elem. change (mx_start draw (py "Attribute") atts s) with (start_attribute atts s).
  unfold start_attribute. rewrite N0. cbn [bind]. rewrite (run_leaf kids text _ L). cbn [bind].
  rewrite reference_meta.
  match goal with |- context [mx_end _ ?x] => set (s2 := x) end.
  change (mx_end (py "Attribute") s2) with (let! s := end_attribute s2 in Ok (clear s)).
  unfold end_attribute.
  assert (B : m_buffer s2 = m_buffer s ++ text) by reflexivity.
  rewrite B, strip_blank_app by apply R. unfold trimmed_text. rewrite nonempty_spec.
  destruct (strip text) as [|c v] eqn:V.
  - cbn [bind]. eexists. split; [reflexivity|]. split; [|reflexivity]. split; [reflexivity|apply R].
  - change (m_generic s2) with (Some (text_attr (strip n) None (py "DEFAULT_VALUE") (index (reference_of atts)))).
    unfold text_attr at 1. cbv iota.
    change (acts place [?x] ?y) with (place x y).
    unfold src_ok in P. cbn in P.
    change (m_entry s2) with (m_entry s). change (m_instance s2) with (m_instance s).
    change (m_process s2) with (m_process s). change (m_source_open s2) with (m_source_open s).
    change (m_source s2) with (m_source s). change (m_sources s2) with (m_sources s).
    unfold place. cbn [core m_entry m_instance m_process m_source_open m_source m_sources].
    destruct (m_entry s) as [e|] eqn:E.
    { cbn [bind]. eexists. split; [reflexivity|]. split; [|reflexivity]. split; [reflexivity|apply R]. }
    destruct (match m_instance s with Some t => has_items (mt_events t) | None => false end).
    { cbn [bind]. eexists. split; [reflexivity|]. split; [split; [reflexivity|apply R]|].
      unfold core. cbn. now rewrite E. }
    destruct (match m_process s with Some t => has_items (ml_traces t) | None => false end).
    { cbn [bind]. eexists. split; [reflexivity|]. split; [split; [reflexivity|apply R]|].
      unfold core. cbn. now rewrite E. }
    destruct (m_source_open s) eqn:O.
    + destruct (m_source s) as [i|] eqn:S; [|now destruct P]. cbn [bind].
      eexists. split; [reflexivity|]. split; [split; [reflexivity|apply R]|].
      unfold core. cbn. now rewrite E, O, S.
    + cbn [bind]. eexists. split; [reflexivity|]. split; [split; [reflexivity|apply R]|].
      unfold core. cbn. now rewrite E, O.
Qed.

Lemma parse_aware x d : parse_date_time x = Ok (Some d) -> is_aware d = true.
Proof.
  unfold parse_date_time. destruct (split_zone x) as [v z]. destruct (zone_numbers z) as [[h m]|]; [|discriminate].
  destruct (strptime _ v); [|discriminate]. destruct (mk_timezone h m) as [tz|[]]; try discriminate.
  now intros [= <-].
Qed.

Lemma field_does t atts kids l : field_of t atts kids = Some l -> does (sax_of (XElem t atts kids)) in_entry (acts place l).
Proof.
  unfold field_of. destruct (leaf_text kids) as [text|] eqn:L; [|discriminate].
  destruct (str_eqb t (py "WorkflowModelElement")) eqn:T1; [|destruct (str_eqb t (py "EventType")) eqn:T2;
    [|destruct (str_eqb t (py "Originator")) eqn:T3; [|destruct (str_eqb t (py "Timestamp")) eqn:T4]]].
  - apply str_eqb_eq in T1. subst t. intros [= <-] s R [H _]. cbn in H.
    destruct (m_entry s) as [e|] eqn:E; [|easy]. clear H.
    rewrite mx_run_elem. change (mx_start draw (py "WorkflowModelElement") atts s) with (start_model_element atts s).
    assert (S : exists s1, start_model_element atts s = Ok s1 /\ m_buffer s1 = m_buffer s
                           /\ m_timestamp s1 = m_timestamp s /\ m_last s1 = m_last s
                           /\ core s1 = acts place (reference_of atts) (core s) /\ m_entry s1 <> None).
    { unfold start_model_element, model_reference, reference_of, entry_put.
      destruct (sget (py "modelReference") atts) as [[|c r]|]; [|rewrite E|];
        (eexists; split; [reflexivity|]); repeat split; cbn; try congruence.
      unfold place. cbn. rewrite E. reflexivity. }
    destruct S as (s1 & -> & B1 & S2 & S3 & C1 & N1). cbn [bind]. rewrite (run_leaf kids text _ L). cbn [bind].
    match goal with |- context [mx_end _ ?x] => set (s2 := x) end.
    change (mx_end (py "WorkflowModelElement") s2) with (let! s := end_model_element s2 in Ok (clear s)).
    unfold end_model_element. assert (B : m_buffer s2 = m_buffer s ++ text) by (cbn; now rewrite B1).
    rewrite B, strip_blank_app by apply R. unfold nonblank. rewrite strip_idem. unfold trimmed_text.
    destruct R as (_ & R1 & R2). rewrite <- S2 in R1. rewrite <- S3 in R2.
    unfold acts. rewrite fold_left_app. fold (acts place (reference_of atts) (core s)). rewrite <- C1.
    destruct (strip text) as [|c v].
    + cbn [bind]. eexists. split; [reflexivity|]. split; [|reflexivity]. split; [reflexivity|split; assumption].
    + unfold entry_put. change (m_entry s2) with (m_entry s1). destruct (m_entry s1) as [e1|] eqn:E1; [|easy].
      cbn [bind]. eexists. split; [reflexivity|]. split; [split; [reflexivity|split; assumption]|].
      cbn [fold_left]. unfold place. cbn. now rewrite E1.
  - apply str_eqb_eq in T2. subst t. intros [= <-] s R [H _]. cbn in H.
    destruct (m_entry s) as [e|] eqn:E; [|easy]. clear H.
    rewrite mx_run_elem. change (mx_start draw (py "EventType") atts s) with (Ok (start_type atts s)).
    cbn [bind]. unfold start_type, attr_transition. rewrite reference_meta.
    rewrite (run_leaf kids text _ L). cbn [bind].
    match goal with |- context [mx_end _ ?x] => set (s2 := x) end.
    change (mx_end (py "EventType") s2) with (let! s := end_type s2 in Ok (clear s)).
    unfold end_type. subst s2. cbn [m_type set_buffer set_type m_buffer]. unfold text_attr at 1. cbv iota.
    rewrite strip_blank_app by apply R. cbn [py_eq]. unfold type_value, trimmed_text.
    set (v := match sget (py "unknowntype") atts with
              | Some u => if nonempty u then u else py "UNKNOWN" | None => py "UNKNOWN" end).
    assert (V : (str_eqb v (py "UNKNOWN") = true
                 /\ match sget (py "unknowntype") atts with
                    | Some (c :: u) => if str_eqb (c :: u) (py "UNKNOWN") then trimmed_text text else Some (c :: u)
                    | _ => trimmed_text text
                    end = trimmed_text text)
                \/ (str_eqb v (py "UNKNOWN") = false
                    /\ match sget (py "unknowntype") atts with
                       | Some (c :: u) => if str_eqb (c :: u) (py "UNKNOWN") then trimmed_text text else Some (c :: u)
                       | _ => trimmed_text text
                       end = Some v)).
    { subst v. destruct (sget (py "unknowntype") atts) as [[|c u]|]; [left; auto| |left; auto].
      rewrite nonempty_spec. destruct (str_eqb (c :: u) (py "UNKNOWN")) eqn:U; auto. }
    unfold trimmed_text in V. destruct V as [[V ->]|[V ->]].
    + change (py_eq (PStr v) (PStr (py "UNKNOWN"))) with (str_eqb v (py "UNKNOWN")). rewrite V.
      rewrite nonempty_spec. destruct (strip text) as [|c w].
      * cbn [bind]. eexists. split; [reflexivity|]. split; [|reflexivity]. split; [reflexivity|apply R].
      * unfold entry_put. cbn [m_entry set_buffer set_type]. rewrite E. cbn [bind].
        eexists. split; [reflexivity|]. split; [split; [reflexivity|apply R]|].
        unfold acts, place. cbn. now rewrite E.
    + change (py_eq (PStr v) (PStr (py "UNKNOWN"))) with (str_eqb v (py "UNKNOWN")). rewrite V.
      unfold entry_put. cbn [m_entry set_buffer set_type]. rewrite E. cbn [bind].
      eexists. split; [reflexivity|]. split; [split; [reflexivity|apply R]|].
      unfold acts, place. cbn. now rewrite E.
  - apply str_eqb_eq in T3. subst t. intros [= <-] s R [H _]. cbn in H.
    destruct (m_entry s) as [e|] eqn:E; [|easy]. clear H.
    rewrite mx_run_elem. change (mx_start draw (py "Originator") atts s) with (Ok (start_originator atts s)).
    cbn [bind]. unfold start_originator, attr_resource. rewrite reference_meta.
    rewrite (run_leaf kids text _ L). cbn [bind].
    match goal with |- context [mx_end _ ?x] => set (s2 := x) end.
    change (mx_end (py "Originator") s2) with (let! s := end_originator s2 in Ok (clear s)).
    unfold end_originator. subst s2. cbn [m_originator set_buffer set_originator m_buffer]. unfold text_attr at 1. cbv iota.
    rewrite strip_blank_app by apply R. unfold trimmed_text. rewrite nonempty_spec.
    unfold entry_put. cbn [m_entry set_buffer set_originator]. rewrite E. cbn [bind].
    eexists. split; [reflexivity|]. split; [split; [reflexivity|apply R]|].
    unfold acts, place. cbn. rewrite E. destruct (strip text); reflexivity.
  - apply str_eqb_eq in T4. subst t. intros H0 s R [H _]. cbn in H.
    destruct (m_entry s) as [e|] eqn:E; [|easy]. clear H.
    rewrite mx_run_elem. change (mx_start draw (py "Timestamp") atts s) with (Ok s).
    cbn [bind]. rewrite (run_leaf kids text _ L). cbn [bind].
    match goal with |- context [mx_end _ ?x] => set (s2 := x) end.
    change (mx_end (py "Timestamp") s2) with (let! s := end_timestamp s2 in Ok (clear s)).
    unfold end_timestamp. subst s2. cbn [set_buffer m_buffer].
    rewrite strip_blank_app by apply R.
    destruct (parse_date_time (strip text)) as [[d|]|] eqn:D; try discriminate; injection H0 as <-; cbn [bind].
    + unfold entry_put. cbn [m_entry set_buffer set_times]. rewrite E. cbn [bind].
      eexists. split; [reflexivity|]. split; [|unfold acts, place; cbn; now rewrite E].
      split; [reflexivity|split; [|apply R]]. cbn. eapply parse_aware. exact D.
    + eexists. split; [reflexivity|]. split; [|reflexivity].
      split; [reflexivity|split; [exact I|apply R]].
  - intros H s R [_ S]. now apply (data_does t atts kids l H s R S).
Qed.

(** ** Entries, instances, processes, documents *)

Definition act_instance (x : attr + list attr) (c : mstate) : mstate :=
  match x with
  | inl a => place a c
  | inr l =>
      mk_ms (m_sources c) (m_buffer c) (m_logs c) (m_process c)
            (option_map (fun t => mk_mt (mt_attrs t) (mt_events t ++ [Some (mk_event (draw (m_drawn c)) (index l))])) (m_instance c))
            None (m_source c) (m_generic c) (m_type c) (m_originator c) (m_source_open c)
            (m_timestamp c) (m_last c) (S (m_drawn c))
  end.
Definition in_inst (c : mstate) : Prop := m_entry c = None /\ m_instance c <> None /\ m_process c <> None /\ src_ok c.
Lemma act_instance_keep x c : in_inst c -> in_inst (act_instance x c).
Proof.
  intros (A & B & D & C). destruct x as [a|l]; simpl.
  - split; [now apply place_frame|split; [now apply place_frame|split; [now apply place_frame|now apply place_src]]].
  - split; [reflexivity|split; [|split; [exact D|exact C]]]. cbn. now destruct (m_instance c).
Qed.

Lemma place_fields l : forall c e, m_entry c = Some e ->
  acts place l c = set_entry (Some (mk_event (ev_id e) (put_all l (ev_attrs e)))) c.
Proof.
  unfold acts, put_all. induction l as [|a l IH]; intros c e E; simpl.
  - destruct e; destruct c; simpl in *. now rewrite E.
  - rewrite (IH _ (put_event a e)); unfold place; rewrite E; reflexivity.
Qed.

Lemma gt_aware a b : is_aware a = true -> is_aware b = true -> exists r, py_gt (PDate a) (PDate b) = Ok r.
Proof. intros A B. unfold py_gt. cbn [num_of]. unfold dt_cmp. rewrite A, B. cbn. eauto. Qed.

Lemma entry_ends s t e : ready s -> m_instance s = Some t -> m_entry s = Some e ->
  exists s', mx_end (py "AuditTrailEntry") s = Ok s' /\ ready s'
  /\ core s' = set_entry None (set_instance (Some (mk_mt (mt_attrs t) (mt_events t ++ [Some e]))) (core s)).
Proof.
  intros (R1 & R2 & R3) I E. change (mx_end (py "AuditTrailEntry") s) with (let! s := end_entry s in Ok (clear s)).
  unfold end_entry. destruct (m_timestamp s) as [d|] eqn:D; [destruct (m_last s) as [d'|] eqn:D'|]; cbn in R2, R3.
  - destruct (gt_aware d d' R2 R3) as [[] ->]; cbn [bind]; rewrite I; cbn [bind];
      (eexists; split; [reflexivity|]); (split; [|unfold core; cbn; now rewrite E]);
      (split; [reflexivity|]); cbn; rewrite ?D, ?D'; auto.
  - rewrite I. cbn [bind]. (eexists; split; [reflexivity|]); (split; [|unfold core; cbn; now rewrite E]).
    (split; [reflexivity|]); cbn; rewrite ?D, ?D'; auto.
  - rewrite I. cbn [bind]. (eexists; split; [reflexivity|]); (split; [|unfold core; cbn; now rewrite E]).
    (split; [reflexivity|]); cbn; rewrite ?D; auto.
Qed.

Lemma in_instance_does t atts kids l : in_instance t atts kids = Some l ->
  does (sax_of (XElem t atts kids)) in_inst (acts act_instance l).
Proof.
  unfold in_instance. destruct (str_eqb t (py "AuditTrailEntry")) eqn:T.
  - apply str_eqb_eq in T. subst t. destruct (all_items field_of kids) as [fs|] eqn:F; [|discriminate].
    intros [= <-] s R (E & I & _ & S). cbn in E, I. destruct (m_instance s) as [t|] eqn:T; [|easy]. clear I.
    rewrite mx_run_elem. change (mx_start draw (py "AuditTrailEntry") atts s) with (Ok (start_entry draw s)).
    cbn [bind].
    destruct (all_items_does field_of in_entry place place_entry field_does kids fs F (start_entry draw s)) as (s1 & X & R1 & C1).
    { exact R. } { split; [discriminate|exact S]. }
    rewrite X. cbn [bind]. rewrite (place_fields _ _ (mk_event (draw (m_drawn s)) [])) in C1 by reflexivity.
    assert (I1 : m_instance s1 = Some t) by (change (m_instance (core s1) = Some t); now rewrite C1).
    assert (E1 : m_entry s1 = Some (mk_event (draw (m_drawn s)) (index fs))).
    { change (m_entry (core s1) = Some (mk_event (draw (m_drawn s)) (index fs))). rewrite C1. reflexivity. }
    destruct (entry_ends s1 _ _ R1 I1 E1) as (s2 & -> & R2 & C2).
    exists s2. split; [reflexivity|split; [exact R2|]]. rewrite C2, C1. unfold core, acts. cbn. now rewrite T.
  - destruct (data_of t atts kids) as [d|] eqn:D; [|discriminate]. intros [= <-] s R (_ & _ & _ & S).
    destruct (data_does _ _ _ _ D s R S) as (s1 & X & R1 & C1). exists s1. split; [exact X|split; [exact R1|]].
    rewrite C1. unfold acts. rewrite fold_left_map. reflexivity.
Qed.

Definition own_attrs (atts : sdict pystr) : list attr :=
  name_of (att "id" atts (py "None")) ++ description_of (nonblank_text (sget (py "description") atts)) ++ reference_of atts.
Definition finish (c : mstate) : mstate :=
  match m_instance c with
  | None => c
  | Some t =>
      set_instance None
        (if has_items (mt_events t)
         then set_process (option_map (fun l => mk_ml (ml_attrs l) (ml_traces l ++ [t]) (ml_exts l) (ml_classifiers l)
                                                      (ml_gtrace l) (ml_gevent l)) (m_process c)) c
         else c)
  end.
Definition act_process (x : attr + instance) (c : mstate) : mstate :=
  match x with
  | inl a => place a c
  | inr (atts, its) => finish (acts act_instance its (set_instance (Some (mk_mt (index (own_attrs atts)) [])) c))
  end.
Definition in_proc (c : mstate) : Prop := m_entry c = None /\ m_instance c = None /\ m_process c <> None /\ src_ok c.

Lemma start_instance_eq atts s :
  start_instance atts s = set_instance (Some (mk_mt (index (own_attrs atts)) [])) s.
Proof.
  unfold start_instance, own_attrs, index, att. do 2 f_equal.
  unfold add_name, add_reference, model_reference, name_of, reference_of, nonblank_text, description_of.
  set (n := match sget (py "id") atts with Some n => n | None => py "None" end).
  rewrite nonblank_blank.
  destruct (blank n); cbn [negb]; (destruct (sget (py "description") atts) as [d|]);
    (destruct (sget (py "modelReference") atts) as [[|c r]|]);
    try (rewrite !nonblank_blank, !nonempty_spec; destruct d as [|d0 d]; [reflexivity|]; destruct (blank (d0 :: d)));
    reflexivity.
Qed.

Lemma act_process_keep x c : in_proc c -> in_proc (act_process x c).
Proof.
  intros (A & B & C & D). destruct x as [a|[atts its]]; cbn [act_process].
  - repeat split; [now apply place_frame|now apply place_frame|now apply place_frame|now apply place_src].
  - set (c1 := set_instance _ c).
    assert (I : in_inst (acts act_instance its c1)).
    { apply (keep_all in_inst act_instance act_instance_keep). repeat split; auto. discriminate. }
    destruct I as (E & F & G & H). unfold finish. destruct (m_instance (acts act_instance its c1)) as [t|]; [|easy].
    destruct (has_items (mt_events t)); repeat split; auto. cbn.
    destruct (m_process (acts act_instance its c1)); [discriminate|easy].
Qed.

Lemma instance_ends s t : ready s -> m_instance s = Some t -> m_process s <> None ->
  exists s', mx_end (py "ProcessInstance") s = Ok s' /\ ready s' /\ core s' = finish (core s).
Proof.
  intros R I P. change (mx_end (py "ProcessInstance") s) with (let! s := end_instance s in Ok (clear s)).
  unfold end_instance, finish. cbn [core m_instance m_process]. rewrite I.
  destruct (mt_events t) as [|e es] eqn:E; cbn [has_items].
  - cbn [bind]. eexists; split; [reflexivity|]. split; [|unfold core; cbn; reflexivity].
    split; [reflexivity|split; [apply R|exact Logic.I]].
  - destruct (m_process s) as [l|]; [|easy]. cbn [bind]. eexists; split; [reflexivity|].
    split; [|unfold core; cbn; reflexivity]. split; [reflexivity|split; [apply R|exact Logic.I]].
Qed.

Lemma in_process_does t atts kids l : in_process t atts kids = Some l ->
  does (sax_of (XElem t atts kids)) in_proc (acts act_process l).
Proof.
  unfold in_process. destruct (str_eqb t (py "ProcessInstance")) eqn:T.
  - apply str_eqb_eq in T. subst t. destruct (all_items in_instance kids) as [its|] eqn:F; [|discriminate].
    intros [= <-] s R (E & I & P & S).
    rewrite mx_run_elem. change (mx_start draw (py "ProcessInstance") atts s) with (Ok (start_instance atts s)).
    cbn [bind]. rewrite start_instance_eq.
    match goal with |- context [mx_run draw _ ?x] => set (s0 := x) end.
    assert (Q : in_inst (core s0)) by (repeat split; auto; discriminate).
    destruct (all_items_does in_instance in_inst act_instance act_instance_keep in_instance_does kids its F s0 R Q)
      as (s1 & X & R1 & C1).
    rewrite X. cbn [bind].
    assert (Q1 : in_inst (core s1)) by (rewrite C1; now apply (keep_all in_inst act_instance act_instance_keep)).
    destruct Q1 as (E1 & I1 & P1 & S1). cbn in I1, P1. destruct (m_instance s1) as [t1|] eqn:T1; [|easy].
    destruct (instance_ends s1 t1 R1 T1 P1) as (s2 & -> & R2 & C2).
    exists s2. split; [reflexivity|split; [exact R2|]]. rewrite C2, C1. reflexivity.
  - destruct (data_of t atts kids) as [d|] eqn:D; [|discriminate]. intros [= <-] s R (_ & _ & _ & S).
    destruct (data_does _ _ _ _ D s R S) as (s1 & X & R1 & C1). exists s1. split; [exact X|split; [exact R1|]].
    rewrite C1. unfold acts. rewrite fold_left_map. reflexivity.
Qed.

Definition put_refs (l : list attr) (m : sdict mref) : sdict mref := fold_left (fun m a => sset (a_key a) (MVal a) m) l m.
Definition fresh_log (c : mstate) (atts : sdict pystr) : mlog :=
  mk_ml (put_refs (name_of (att "id" atts []) ++ [model_attr (py "standard")]
                   ++ description_of (nonempty_text (sget (py "description") atts)) ++ reference_of atts)
                  (match m_source c with Some i => [(py "source", MSource i)] | None => [] end))
        [] [ext_concept; ext_org; ext_lifecycle; ext_semantic; ext_time] [] [] [].
Definition file_log (c : mstate) : mstate :=
  match m_process c with
  | None => c
  | Some l =>
      mk_ms (m_sources c) (m_buffer c)
        (m_logs c ++ [mk_ml (ml_attrs l) (ml_traces l) (ml_exts l) (ml_classifiers l ++ mxml_classifiers)
                            (ml_gtrace l ++ [name_attr (py "UNKNOWN")])
                            (ml_gevent l ++ [name_attr (py "UNKNOWN"); transition_attr (py "complete") []])])
        None (m_instance c) (m_entry c) (m_source c) (m_generic c) (m_type c) (m_originator c) (m_source_open c)
        (m_timestamp c) (m_last c) (m_drawn c)
  end.
Definition act_doc (x : mx_item) (c : mstate) : mstate :=
  match x with
  | DData a => place a c
  | DSource atts data =>
      acts place data
        (mk_ms (m_sources c ++ [source_attr atts []]) (m_buffer c) (m_logs c) (m_process c) (m_instance c) (m_entry c)
               (Some (List.length (m_sources c))) (m_generic c) (m_type c) (m_originator c) true
               (m_timestamp c) (m_last c) (m_drawn c))
  | DProcess atts its => file_log (acts act_process its (set_process (Some (fresh_log c atts)) c))
  end.
Definition in_doc (c : mstate) : Prop := m_entry c = None /\ m_instance c = None /\ m_process c = None /\ src_ok c.

Lemma place_doc a c : in_doc c -> in_doc (place a c).
Proof.
  intros (A & B & C & D). repeat split; [now apply place_frame|now apply place_frame|now apply place_frame|now apply place_src].
Qed.
Lemma act_doc_keep x c : in_doc c -> in_doc (act_doc x c).
Proof.
  intros H. destruct x as [a|atts data|atts its]; cbn [act_doc].
  - now apply place_doc.
  - apply (keep_all in_doc place place_doc). destruct H as (A & B & C & D). repeat split; auto. discriminate.
  - destruct H as (A & B & C & D). set (c1 := set_process _ c).
    assert (I : in_proc (acts act_process its c1)).
    { apply (keep_all in_proc act_process act_process_keep). repeat split; auto. discriminate. }
    destruct I as (E & F & G & H). unfold file_log. destruct (m_process (acts act_process its c1)) as [l|] eqn:Q; [|easy].
    repeat split; auto.
Qed.

Lemma start_process_eq atts s : start_process atts s = set_process (Some (fresh_log s atts)) s.
Proof.
  unfold start_process, fresh_log, att. do 2 f_equal.
  unfold add_name, add_reference, model_reference, name_of, reference_of, nonempty_text, description_of.
  destruct (m_source s) as [i|];
    (destruct (sget (py "id") atts) as [n|]; [rewrite nonblank_blank; destruct (blank n)|]); cbn [negb blank forallb];
    (destruct (sget (py "description") atts) as [d|]; [rewrite !lower_nonempty, !nonempty_spec; destruct d|]);
    (destruct (sget (py "modelReference") atts) as [[|c r]|]);
    reflexivity.
Qed.

Lemma in_document_does t atts kids l : in_document t atts kids = Some l ->
  does (sax_of (XElem t atts kids)) in_doc (acts act_doc l).
Proof.
  unfold in_document. destruct (str_eqb t (py "Process")) eqn:T; [|destruct (str_eqb t (py "Source")) eqn:T2].
  - apply str_eqb_eq in T. subst t. destruct (all_items in_process kids) as [its|] eqn:F; [|discriminate].
    intros [= <-] s R (E & I & P & S).
    rewrite mx_run_elem. change (mx_start draw (py "Process") atts s) with (Ok (start_process atts s)).
    cbn [bind]. rewrite start_process_eq.
    match goal with |- context [mx_run draw _ ?x] => set (s0 := x) end.
    assert (Q : in_proc (core s0)) by (repeat split; auto; discriminate).
    destruct (all_items_does in_process in_proc act_process act_process_keep in_process_does kids its F s0 R Q)
      as (s1 & X & R1 & C1).
    rewrite X. cbn [bind].
    assert (Q1 : in_proc (core s1)) by (rewrite C1; now apply (keep_all in_proc act_process act_process_keep)).
    destruct Q1 as (E1 & I1 & P1 & S1). cbn in P1. destruct (m_process s1) as [l1|] eqn:T1; [|easy].
    change (mx_end (py "Process") s1) with (let! s := end_process s1 in Ok (clear s)).
    unfold end_process. rewrite T1. cbn [bind].
    eexists. split; [reflexivity|]. split; [split; [reflexivity|apply R1]|].
    unfold acts at 1. cbn [fold_left act_doc].
    change (set_process (Some (fresh_log (core s) atts)) (core s)) with (core s0). rewrite <- C1.
    unfold file_log. cbn [core m_process]. rewrite T1. reflexivity.
  - apply str_eqb_eq in T2. subst t. destruct (all_items data_of kids) as [its|] eqn:F; [|discriminate].
    intros [= <-] s R (E & I & P & S).
    rewrite mx_run_elem. change (mx_start draw (py "Source") atts s) with (Ok (start_source atts s)).
    cbn [bind].
    destruct (all_items_does data_of src_ok place place_src data_does kids its F (start_source atts s)) as (s1 & X & R1 & C1).
    { exact R. } { intros _. discriminate. }
    rewrite X. cbn [bind]. change (mx_end (py "Source") s1) with (Ok (clear s1)).
    eexists. split; [reflexivity|]. split; [split; [reflexivity|apply R1]|].
    change (core (clear s1)) with (core s1). rewrite C1. unfold acts at 2. cbn [fold_left act_doc]. f_equal.
    unfold core, start_source. cbn. f_equal. do 2 f_equal. unfold source_attr. rewrite app_nil_r.
    unfold add_reference, model_reference, reference_of.
    destruct (sget (py "modelReference") atts) as [[|c r]|]; reflexivity.
  - destruct (data_of t atts kids) as [d|] eqn:D; [|discriminate]. intros [= <-] s R (_ & _ & _ & S).
    destruct (data_does _ _ _ _ D s R S) as (s1 & X & R1 & C1). exists s1. split; [exact X|split; [exact R1|]].
    rewrite C1. unfold acts. rewrite fold_left_map. reflexivity.
Qed.

Lemma document_runs doc l : mxml_items doc = Some l ->
  exists s, mxml_parse draw doc = Ok s /\ core s = acts act_doc l ms_init.
Proof.
  intros H. destruct (items_does in_document in_doc act_doc act_doc_keep in_document_does doc l H ms_init) as (s & X & _ & C).
  - repeat split.
  - repeat split. discriminate.
  - exists s. auto.
Qed.
End Run.
