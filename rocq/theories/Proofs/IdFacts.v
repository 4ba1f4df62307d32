(** Events that are read get ids of their own. *)
From Coq Require Import String Arith NArith List Bool Lia.
From Verif Require Import Base.PyBase Base.PyVal Base.Xml Model.Attr Model.Log Model.DateConv Model.Token Model.StdExt Model.Registry Model.XesRead
  Model.MxmlRead Spec.Xes Spec.Ids Proofs.BaseFacts.
Import ListNotations.

(** ** Lists *)

Lemma flat_map_update_same {A B} (g : A -> list B) i f h : (forall o, g (f o) = g o) ->
  flat_map g (update i f h) = flat_map g h.
Proof.
  intros H. revert i. induction h as [|o h IH]; intros [|i]; cbn; auto; [now rewrite H | now rewrite IH].
Qed.

Lemma flat_map_update_add {A B} (g : A -> list B) x i f h :
  (forall o, g (f o) = g o \/ g (f o) = g o ++ x) ->
  flat_map g (update i f h) = flat_map g h
  \/ exists l1 l2, flat_map g h = l1 ++ l2 /\ flat_map g (update i f h) = l1 ++ x ++ l2.
Proof.
  intros H. revert i. induction h as [|o h IH]; intros [|i]; cbn; auto.
  - destruct (H o) as [->| ->]; [now left|]. right. exists (g o), (flat_map g h). now rewrite <- app_assoc.
  - destruct (IH i) as [->|(l1 & l2 & E & E')]; [now left|]. right. exists (g o ++ l1), l2.
    rewrite E, E'. now rewrite <- !app_assoc.
Qed.

Lemma NoDup_map_in {A B} (f : A -> B) l : NoDup l ->
  (forall x y, In x l -> In y l -> f x = f y -> x = y) -> NoDup (map f l).
Proof.
  induction 1 as [|a l N D IH]; intros I; cbn; constructor.
  - rewrite in_map_iff. intros (x & E & X). apply N. rewrite <- (I x a); auto; [now right | now left].
  - apply IH. intros x y X Y. apply I; now right.
Qed.

Lemma flat_map_nth_in {A B} (g : A -> list B) h i o x : nth_error h i = Some o -> In x (g o) -> In x (flat_map g h).
Proof. intros N X. apply in_flat_map. exists o. split; [now apply (nth_error_In _ i)|easy]. Qed.

Lemma NoDup_app_parts {A} (l l' : list A) : NoDup (l ++ l') ->
  NoDup l /\ NoDup l' /\ forall x, In x l -> ~ In x l'.
Proof.
  induction l as [|a l IH]; cbn; [repeat split; auto; constructor|].
  intros D. inversion D as [|? ? N D']; subst. destruct (IH D') as (D1 & D2 & X). repeat split; auto.
  - constructor; auto. intros I. apply N, in_app_iff. now left.
  - intros x [->|I]; auto. intros I. apply N, in_app_iff. now right.
Qed.

Lemma flat_map_nodup_apart {A B} (g : A -> list B) h : NoDup (flat_map g h) ->
  forall i j a b x, nth_error h i = Some a -> nth_error h j = Some b -> i <> j ->
  In x (g a) -> In x (g b) -> False.
Proof.
  induction h as [|o h IH]; intros D [|i] [|j] a b x Ha Hb N Xa Xb; cbn in *; try discriminate; try lia;
    destruct (NoDup_app_parts _ _ D) as (D1 & D2 & X).
  - injection Ha as <-. apply (X x Xa). now apply (flat_map_nth_in g h j b).
  - injection Hb as <-. apply (X x Xb). now apply (flat_map_nth_in g h i a).
  - eapply (IH D2 i j a b x); eauto.
Qed.

Lemma flat_map_nodup_at {A B} (g : A -> list B) h i a : NoDup (flat_map g h) -> nth_error h i = Some a -> NoDup (g a).
Proof.
  revert i. induction h as [|o h IH]; intros [|i] D H; cbn in *; try discriminate;
    destruct (NoDup_app_parts _ _ D) as (D1 & D2 & _); [now injection H as <- | eauto].
Qed.

Lemma NoDup_app_make {A} (l l' : list A) : NoDup l -> NoDup l' -> (forall x, In x l -> ~ In x l') -> NoDup (l ++ l').
Proof.
  induction 1 as [|a l N D IH]; cbn; auto. intros D' X. constructor.
  - rewrite in_app_iff. intros [I|I]; [easy|]. apply (X a); [now left|easy].
  - apply IH; [easy|]. intros x I. apply X. now right.
Qed.

Lemma pick_nodup {A B} (g : A -> list B) h is : NoDup (flat_map g h) -> NoDup is ->
  NoDup (flat_map (fun i => match nth_error h i with Some o => g o | None => [] end) is).
Proof.
  intros D. induction 1 as [|i is N Di IH]; cbn; [constructor|].
  apply NoDup_app_make; auto.
  - destruct (nth_error h i) as [o|] eqn:E; [|constructor]. now apply (flat_map_nodup_at g h i).
  - intros x X Y. apply in_flat_map in Y as (j & J & Y).
    destruct (nth_error h i) as [o|] eqn:E; [|easy]. destruct (nth_error h j) as [o'|] eqn:E'; [|easy].
    apply (flat_map_nodup_apart g h D i j o o' x); auto. intros ->. easy.
Qed.

(** ** XES *)

Definition somes {A} (l : list (option A)) : list A :=
  flat_map (fun o => match o with Some x => [x] | None => [] end) l.
Lemma somes_app {A} (l l' : list (option A)) : somes (l ++ l') = somes l ++ somes l'.
Proof. apply flat_map_app. Qed.

Definition id_of (o : pobj) : list N := match o with OEvent i _ => [i] | _ => [] end.
Definition erefs (o : pobj) : list nat := match o with OTrace _ es => somes es | _ => [] end.
Definition trefs (o : pobj) : list nat := match o with OLog _ ts _ _ _ _ _ => somes ts | _ => [] end.

Definition once (refs : pobj -> list nat) (h : list pobj) (cur : option nat) : Prop :=
  NoDup (flat_map refs h) /\ Forall (fun r => r < List.length h) (flat_map refs h)
  /\ forall r, cur = Some r -> r < List.length h /\ ~ In r (flat_map refs h).

Definition ids_ok (draw : nat -> N) (h : list pobj) (tr ev : option nat) (n : nat) : Prop :=
  flat_map id_of h = map draw (seq 0 n) /\ once erefs h ev /\ once trefs h tr.

Definition plain (f : pobj -> pobj) : Prop :=
  forall o, id_of (f o) = id_of o /\ erefs (f o) = erefs o /\ trefs (f o) = trefs o.

Lemma update_length' {A} i (f : A -> A) h : List.length (update i f h) = List.length h.
Proof. revert i. induction h as [|o h IH]; intros [|i]; cbn; auto. Qed.

Lemma once_update refs h cur i f : (forall o, refs (f o) = refs o) -> once refs h cur -> once refs (update i f h) cur.
Proof. intros H. unfold once. now rewrite (flat_map_update_same _ _ _ _ H), update_length'. Qed.

Lemma ids_update draw h tr ev n i f : plain f -> ids_ok draw h tr ev n -> ids_ok draw (update i f h) tr ev n.
Proof.
  intros P (A & B & C). split; [|split].
  - rewrite flat_map_update_same; [easy|]. intros o. apply P.
  - apply once_update; [intros o; apply P|easy].
  - apply once_update; [intros o; apply P|easy].
Qed.

Lemma once_app refs h cur o : refs o = [] -> once refs h cur -> once refs (h ++ [o]) cur.
Proof.
  intros R (D & B & C). unfold once. rewrite flat_map_app, app_length. cbn. rewrite R, !app_nil_r.
  split; [easy|]. split.
  - eapply Forall_impl; [|exact B]. cbn. lia.
  - intros r E. destruct (C r E). split; [lia|easy].
Qed.
Lemma once_new refs h cur o : refs o = [] -> once refs h cur -> once refs (h ++ [o]) (Some (List.length h)).
Proof.
  intros R (D & B & C). unfold once. rewrite flat_map_app, app_length. cbn. rewrite R, !app_nil_r.
  split; [easy|]. split.
  - eapply Forall_impl; [|exact B]. cbn. lia.
  - intros r E. injection E as <-. split; [lia|]. intros I. rewrite Forall_forall in B. specialize (B _ I). lia.
Qed.
Lemma once_none refs h cur : once refs h cur -> once refs h None.
Proof. intros (D & B & _). now repeat split. Qed.

Lemma once_store refs h cur i f : (forall o, refs (f o) = refs o \/ refs (f o) = refs o ++ somes [cur]) ->
  once refs h cur -> once refs (update i f h) None.
Proof.
  intros H (D & B & C). unfold once. rewrite update_length'.
  destruct (flat_map_update_add refs _ i f h H) as [->|(l1 & l2 & E & ->)].
  - repeat split; try easy.
  - destruct cur as [r|]; cbn.
    2:{ rewrite <- E. repeat split; try easy. }
    destruct (C r eq_refl) as [L N]. split; [|split; [|easy]].
    + apply (NoDup_Add (Add_app r l1 l2)). now rewrite <- E.
    + rewrite E in B. apply Forall_app in B as [B1 B2]. apply Forall_app. split; [easy|]. now constructor.
Qed.

Section Xes.
Context `{FIO : FloatIO} (mgr : manager xext) (urlparse : pystr -> option pystr) (draw : nat -> N).

Definition state_ok (s : pstate) : Prop := ids_ok draw (p_heap s) (p_trace s) (p_event s) (p_drawn s).

Lemma plain_add_ext x : plain (log_add_ext x).
Proof. intros []; cbn; auto. Qed.
Lemma plain_add_classifier x : plain (log_add_classifier x).
Proof. intros []; cbn; auto. Qed.
Lemma plain_globals g i : plain (globals_append g i).
Proof. destruct g; intros []; cbn; auto. Qed.
Lemma plain_set k i : plain (obj_set k i).
Proof. intros []; cbn; auto. Qed.
Lemma plain_collect i : plain (obj_collect i).
Proof. intros [c| | |]; cbn; auto. destruct (is_collection c); auto. Qed.

Lemma with_log_ok f s s' : plain f -> with_log f s = Ok s' -> state_ok s -> state_ok s'.
Proof.
  intros P. unfold with_log. destruct (p_log s); [|discriminate]. intros H. injection H as <-.
  unfold state_ok. cbn. now apply ids_update.
Qed.

Lemma push_ok o s : id_of o = [] -> erefs o = [] -> trefs o = [] -> state_ok s ->
  ids_ok draw (p_heap s ++ [o]) (p_trace s) (p_event s) (p_drawn s).
Proof.
  intros I E T (A & B & C). split; [|split].
  - rewrite flat_map_app. cbn. now rewrite I, !app_nil_r.
  - now apply once_app.
  - now apply once_app.
Qed.

Lemma start_ok t a s s' : start_element mgr urlparse draw t a s = Ok s' -> state_ok s -> state_ok s'.
Proof.
  unfold start_element. destruct (attr_tag (lower t)) as [c|].
  - unfold start_attr. destruct (tag_value c _) as [[v|]|]; cbn; try discriminate; intros H; injection H as <-; auto.
    intros S. unfold state_ok. cbn. now apply push_ok.
  - destruct (str_eqb _ (py "event")).
    { intros H. injection H as <-. intros (A & B & C). unfold state_ok, start_event. cbn. split; [|split].
      - rewrite flat_map_app. cbn [flat_map id_of app]. rewrite A, seq_S, map_app. reflexivity.
      - now apply (once_new _ _ (p_event s)).
      - now apply once_app. }
    destruct (str_eqb _ (py "trace")).
    { intros H. injection H as <-. intros (A & B & C). unfold state_ok, start_trace. cbn. split; [|split].
      - rewrite flat_map_app. cbn. now rewrite !app_nil_r.
      - now apply once_app.
      - now apply (once_new _ _ (p_trace s)). }
    destruct (str_eqb _ (py "log")).
    { intros H. injection H as <-. intros S. unfold state_ok, start_log. cbn. now apply push_ok. }
    destruct (str_eqb _ (py "extension")).
    { unfold start_extension. destruct (match sget (py "prefix") a with Some _ => _ | None => _ end) as [[x|]|]; [| |discriminate]; cbn [bind].
      - apply with_log_ok, plain_add_ext.
      - destruct (sget (py "uri") a); [|discriminate]. intros H. now injection H as <-. }
    destruct (str_eqb _ (py "global")).
    { unfold start_global. destruct (sget (py "scope") a) as [n|]; [|discriminate].
      destruct (if str_eqb (lower n) (py "trace") then _ else _) as [g|].
      - destruct (p_log s); [|discriminate]. intros H. now injection H as <-.
      - intros H. now injection H as <-. }
    destruct (str_eqb _ (py "classifier")).
    { unfold start_classifier. destruct (sget (py "name") a) as [n|]; [|intros H; now injection H as <-].
      destruct (sget (py "keys") a) as [ks|]; [|intros H; now injection H as <-].
      destruct (nonempty n && nonempty ks); [|intros H; now injection H as <-].
      apply with_log_ok, plain_add_classifier. }
    intros H. now injection H as <-.
Qed.

Lemma pop_ok s s' : pop_attributable s = Ok s' -> state_ok s -> state_ok s'.
Proof. unfold pop_attributable. destruct (p_attributables s); [discriminate|]. intros H. now injection H as <-. Qed.

Lemma end_ok t s s' : end_element t s = Ok s' -> state_ok s -> state_ok s'.
Proof.
  unfold end_element. destruct (str_eqb _ (py "global")); [intros H; now injection H as <-|].
  destruct (attr_tag (lower t)).
  { unfold end_attr. destruct (pop_attr s) as [[i s1]|] eqn:P; [|discriminate]. cbn.
    destruct (pop_attributable s1) as [s2|] eqn:Q; [|discriminate]. cbn. intros H S.
    assert (state_ok s2) as S2.
    { apply (pop_ok s1); auto. revert P. unfold pop_attr. destruct (p_attrs s); [discriminate|].
      intros E. injection E as _ <-. exact S. }
    destruct (p_globals s2) as [[l g]|].
    - injection H as <-. unfold state_ok. cbn. apply ids_update; [apply plain_globals|easy].
    - destruct (p_attributables s2); [discriminate|]. injection H as <-. unfold state_ok. cbn.
      destruct (p_attrs s2); repeat (apply ids_update; [first [apply plain_set | apply plain_collect]|]); easy. }
  destruct (str_eqb _ (py "event")).
  { unfold end_event. destruct (p_trace s) as [t'|] eqn:T; [|discriminate]. intros H S. apply pop_ok in H; [easy|].
    destruct S as (A & B & C). unfold state_ok. cbn. split; [|split].
    - rewrite flat_map_update_same; [easy|]. now intros [].
    - apply (once_store _ _ (p_event s)); [|easy]. intros []; cbn; auto. right. rewrite somes_app. reflexivity.
    - apply once_update; [now intros []|congruence]. }
  destruct (str_eqb _ (py "trace")).
  { unfold end_trace. destruct (p_log s) as [t'|] eqn:T; [|discriminate]. intros H S. apply pop_ok in H; [easy|].
    destruct S as (A & B & C). unfold state_ok. cbn. split; [|split].
    - rewrite flat_map_update_same; [easy|]. now intros [].
    - apply once_update; [now intros []|easy].
    - apply (once_store _ _ (p_trace s)); [|easy]. intros []; cbn; auto. right. rewrite somes_app. reflexivity. }
  destruct (str_eqb _ (py "log")); [apply pop_ok | intros H; now injection H as <-].
Qed.

Lemma run_ok es : forall s s', xes_run mgr urlparse draw es s = Ok s' -> state_ok s -> state_ok s'.
Proof.
  unfold xes_run. induction es as [|e es IH]; cbn; intros s s'; [intros H; now injection H as <-|].
  destruct (xes_step mgr urlparse draw s e) as [s1|] eqn:E; [|discriminate]. cbn. intros H S. apply (IH s1); auto.
  destruct e; cbn in E; [eapply start_ok | eapply end_ok | injection E as <-]; eauto.
Qed.

Lemma init_ok : state_ok ps_init.
Proof. repeat split; cbn; try constructor; try discriminate; auto. Qed.

(** The number of events before a place on the heap. *)
Definition rank (h : list pobj) (i : nat) : nat := List.length (flat_map id_of (firstn i h)).

Lemma rank_id h i d m : nth_error h i = Some (OEvent d m) -> nth_error (flat_map id_of h) (rank h i) = Some d.
Proof.
  unfold rank. revert i. induction h as [|o h IH]; intros [|i]; cbn; try discriminate.
  - intros H. injection H as ->. reflexivity.
  - intros H. rewrite app_length, nth_error_app2 by lia. rewrite <- IH with (i := i) by easy. f_equal. lia.
Qed.
Lemma rank_lt h : forall i j d m, nth_error h i = Some (OEvent d m) -> i < j -> rank h i < rank h j.
Proof.
  unfold rank. induction h as [|o h IH]; intros [|i] [|j] d m; cbn; try discriminate; try lia.
  - intros H _. injection H as ->. cbn. lia.
  - intros H L. rewrite !app_length. specialize (IH i j d m H). lia.
Qed.

Lemma picked_events h es (evs : list event) :
  Forall2 (fun o e => exists i, o = Some i /\ event_in h i e) es evs ->
  Forall2 (fun i e => exists m, nth_error h i = Some (OEvent (ev_id e) m)) (somes es) evs.
Proof.
  induction 1 as [|o e es evs (i & -> & m & E & _) F IH]; cbn; constructor; eauto.
Qed.

Lemma picked_traces h ts (trs : list trace) :
  Forall2 (fun o t => exists i, o = Some i /\ trace_in h i t) ts trs ->
  Forall2 (fun i e => exists m, nth_error h i = Some (OEvent (ev_id e) m))
    (flat_map (fun i => match nth_error h i with Some o => erefs o | None => [] end) (somes ts))
    (flat_map tr_events trs).
Proof.
  induction 1 as [|o t ts trs (i & -> & m & es & E & _ & F') F IH]; cbn; [constructor|].
  rewrite E. cbn [erefs]. apply Forall2_app; [now apply picked_events | exact IH].
Qed.

Lemma drawn_nth n k i : nth_error (map draw (seq 0 n)) k = Some i -> i = draw k.
Proof.
  intros H. assert (k < n) as L.
  { rewrite <- (seq_length n 0), <- (map_length draw). apply nth_error_Some. congruence. }
  rewrite (nth_error_nth' _ (draw 0)) in H by (now rewrite map_length, seq_length).
  injection H as <-. rewrite map_nth, seq_nth; [reflexivity|easy].
Qed.

Theorem xes_ids es s r l : xes_run mgr urlparse draw es ps_init = Ok s -> log_in (p_heap s) r l ->
  own_draws draw (p_drawn s) (event_ids l).
Proof.
  intros R (m & ts & gt & ge & H & _ & T & _).
  destruct (run_ok _ _ _ R init_ok) as (A & (De & _ & _) & (Dt & _ & _)).
  set (h := p_heap s) in *.
  assert (NoDup (somes ts)) as Ds by (apply (flat_map_nodup_at trefs h r _ Dt H)).
  pose proof (pick_nodup erefs h (somes ts) De Ds) as Dr.
  pose proof (picked_traces h ts _ T) as P. unfold event_ids, log_events.
  revert Dr P. generalize (flat_map (fun i => match nth_error h i with Some o => erefs o | None => [] end) (somes ts)) as refs.
  intros refs Dr P. exists (map (rank h) refs). split; [|split].
  - apply NoDup_map_in; auto. intros x y X Y E.
    assert (forall z, In z refs -> exists d q, nth_error h z = Some (OEvent d q)) as K.
    { clear - P. induction P as [|a b la lb (q & Q) F IH]; intros z []; [subst; eauto | auto]. }
    destruct (K x X) as (d & q & Hx). destruct (K y Y) as (d' & q' & Hy).
    destruct (Nat.lt_trichotomy x y) as [L|[L|L]]; auto.
    + pose proof (rank_lt h x y d q Hx L). lia.
    + pose proof (rank_lt h y x d' q' Hy L). lia.
  - clear - P A. induction P as [|a b la lb (q & Q) F IH]; cbn; constructor; auto.
    apply rank_id in Q. assert (rank h a < List.length (flat_map id_of h)) as L by (apply nth_error_Some; congruence).
    rewrite A, map_length, seq_length in L. exact L.
  - clear - P A. induction P as [|a b la lb (q & Q) F IH]; cbn; f_equal; auto.
    apply rank_id in Q. rewrite A in Q. now apply drawn_nth in Q.
Qed.
End Xes.

(** ** MXML *)

Section Mxml.
Variable draw : nat -> N.

Definition tids (t : mtrace) : list N := map ev_id (somes (mt_events t)).
Definition oids {A} (f : A -> list N) (o : option A) : list N := match o with Some x => f x | None => [] end.
Definition lids (l : mlog) : list N := flat_map tids (ml_traces l).

(** All ids in sight, and the draws they come from: entries are discarded now and then. *)
Definition all_ids (s : mstate) : list N :=
  flat_map lids (m_logs s) ++ oids lids (m_process s) ++ oids tids (m_instance s) ++ oids (fun e => [ev_id e]) (m_entry s).
Definition m_ok (s : mstate) : Prop := own_draws draw (m_drawn s) (all_ids s).

Lemma own_draws_drop n l1 l2 l3 : own_draws draw n (l1 ++ l2 ++ l3) -> own_draws draw n (l1 ++ l3).
Proof.
  intros (ks & D & B & E).
  symmetry in E. apply map_eq_app in E as (k1 & k23 & -> & E1 & E23). apply map_eq_app in E23 as (k2 & k3 & -> & E2 & E3).
  exists (k1 ++ k3). rewrite map_app, E1, E3. split; [|split; [|easy]].
  - clear - D. induction k2 as [|a k2 IH]; [easy|]. apply IH. now apply NoDup_remove_1 in D.
  - rewrite !Forall_app in B. rewrite Forall_app. tauto.
Qed.
Lemma own_draws_end n l1 l2 : own_draws draw n (l1 ++ l2) -> own_draws draw n l1.
Proof. intros H. rewrite <- (app_nil_r l1). apply (own_draws_drop n l1 l2 []). now rewrite app_nil_r. Qed.
Lemma own_draws_new n l : own_draws draw n l -> own_draws draw (S n) (l ++ [draw n]).
Proof.
  intros (ks & D & B & ->). exists (ks ++ [n]). rewrite map_app. split; [|split; [|easy]].
  - apply NoDup_app_make; auto; [constructor; [easy|constructor]|]. intros x X [<-|[]].
    rewrite Forall_forall in B. specialize (B _ X). lia.
  - apply Forall_app. split; [eapply Forall_impl; [|exact B]; cbn; lia | constructor; [lia|constructor]].
Qed.

Lemma put_trace_ids a t : tids (put_trace a t) = tids t.
Proof. reflexivity. Qed.
Lemma put_log_ids a t : lids (put_log a t) = lids t.
Proof. reflexivity. Qed.
Lemma reference_trace_ids atts t : tids (add_reference put_trace atts t) = tids t.
Proof. unfold add_reference. now destruct (model_reference atts). Qed.
Lemma reference_log_ids atts t : lids (add_reference put_log atts t) = lids t.
Proof. unfold add_reference. now destruct (model_reference atts). Qed.
Lemma name_trace_ids o t : tids (add_name put_trace o t) = tids t.
Proof. unfold add_name. destruct o; [now destruct (nonblank _)|easy]. Qed.
Lemma name_log_ids o t : lids (add_name put_log o t) = lids t.
Proof. unfold add_name. destruct o; [now destruct (nonblank _)|easy]. Qed.

Lemma entry_put_ok a s s' : entry_put a s = Ok s' -> m_ok s -> m_ok s'.
Proof.
  unfold entry_put. destruct (m_entry s) as [e|] eqn:E; [|discriminate]. intros H. injection H as <-.
  unfold m_ok, all_ids. cbn. now rewrite E.
Qed.

Lemma start_process_ids atts s : oids lids (m_process (start_process atts s)) = [].
Proof.
  unfold start_process. cbn [set_process m_process oids]. rewrite reference_log_ids.
  destruct (sget (py "description") atts) as [d|]; [destruct (nonempty d && nonempty (lower d))|];
    rewrite ?put_log_ids, name_log_ids; now destruct (m_source s).
Qed.
Lemma start_instance_ids atts s : oids tids (m_instance (start_instance atts s)) = [].
Proof.
  unfold start_instance. cbn [set_instance m_instance oids]. rewrite reference_trace_ids.
  destruct (sget (py "description") atts) as [d|]; [destruct (nonempty d && nonblank d)|];
    now rewrite ?put_trace_ids, name_trace_ids.
Qed.

Lemma mx_start_ok t a s s' : mx_start draw t a s = Ok s' -> m_ok s -> m_ok s'.
Proof.
  unfold mx_start.
  destruct (str_eqb t (py "Source")); [intros H; now injection H as <-|].
  destruct (str_eqb t (py "Process")).
  { intros H. injection H as <-. unfold m_ok, all_ids. rewrite start_process_ids.
    change (own_draws draw (m_drawn s) (all_ids s) -> own_draws draw (m_drawn s)
      (flat_map lids (m_logs s) ++ [] ++ oids tids (m_instance s) ++ oids (fun e => [ev_id e]) (m_entry s))).
    apply own_draws_drop. }
  destruct (str_eqb t (py "ProcessInstance")).
  { intros H. injection H as <-. unfold m_ok, all_ids. rewrite start_instance_ids.
    change (own_draws draw (m_drawn s) (all_ids s) -> own_draws draw (m_drawn s)
      (flat_map lids (m_logs s) ++ oids lids (m_process s) ++ [] ++ oids (fun e => [ev_id e]) (m_entry s))).
    unfold all_ids. rewrite !app_assoc, app_nil_r, <- (app_assoc (_ ++ _) (oids tids _)). apply own_draws_drop. }
  destruct (str_eqb t (py "AuditTrailEntry")).
  { intros H. injection H as <-. unfold m_ok, all_ids. cbn. rewrite !app_assoc. intros H.
    apply own_draws_end in H. now apply own_draws_new. }
  destruct (str_eqb t (py "Attribute")).
  { unfold start_attribute. destruct (sget (py "name") a); [|discriminate]. intros H. now injection H as <-. }
  destruct (str_eqb t (py "EventType")); [intros H; now injection H as <-|].
  destruct (str_eqb t (py "WorkflowModelElement")).
  { unfold start_model_element. destruct (model_reference a); [apply entry_put_ok | intros H; now injection H as <-]. }
  destruct (str_eqb t (py "Originator")); intros H; now injection H as <-.
Qed.

Lemma append_ok s t : m_instance s = Some t -> m_ok s ->
  own_draws draw (m_drawn s) (flat_map lids (m_logs s) ++ oids lids (m_process s) ++ tids (mk_mt (mt_attrs t) (mt_events t ++ [m_entry s]))).
Proof.
  intros E. unfold m_ok, all_ids. rewrite E. cbn [oids]. unfold tids. cbn [mt_events]. rewrite somes_app, map_app.
  destruct (m_entry s); cbn; now rewrite ?app_nil_r.
Qed.

Lemma end_entry_ok s s' : end_entry s = Ok s' -> m_ok s -> m_ok s'.
Proof.
  unfold end_entry. intros H S.
  assert (exists t, m_instance s = Some t /\ m_drawn s' = m_drawn s /\ all_ids s' =
    flat_map lids (m_logs s) ++ oids lids (m_process s) ++ tids (mk_mt (mt_attrs t) (mt_events t ++ [m_entry s]))) as (t & E & D & A).
  { destruct (m_timestamp s) as [d|]; [destruct (m_last s) as [d'|]; [destruct (py_gt (PDate d) (PDate d')) as [[]|]|]|]; cbn in H;
      try discriminate; destruct (m_instance s) as [t|]; cbn in H; try discriminate; injection H as <-;
      exists t; split; auto; split; auto; unfold all_ids; cbn; now rewrite app_nil_r. }
  unfold m_ok. rewrite D, A. now apply append_ok.
Qed.

Lemma end_instance_ok s s' : end_instance s = Ok s' -> m_ok s -> m_ok s'.
Proof.
  unfold end_instance. destruct (m_instance s) as [t|] eqn:I; [|discriminate].
  destruct (mt_events t) as [|e es] eqn:E.
  - cbn. intros H. injection H as <-. unfold m_ok, all_ids. cbn. rewrite I. cbn. unfold tids. rewrite E. easy.
  - destruct (m_process s) as [l|] eqn:P; [|discriminate]. cbn. intros H. injection H as <-.
    unfold m_ok, all_ids. cbn [set_times set_instance set_process m_logs m_process m_instance m_entry m_drawn oids]. rewrite I, P. cbn [oids].
    set (l' := mk_ml _ _ _ _ _ _). assert (lids l' = lids l ++ tids t) as ->.
    { unfold lids, l'. cbn. rewrite flat_map_app. cbn. now rewrite app_nil_r. }
    now rewrite <- !app_assoc.
Qed.

Lemma end_process_ok s s' : end_process s = Ok s' -> m_ok s -> m_ok s'.
Proof.
  unfold end_process. destruct (m_process s) as [l|] eqn:P; [|discriminate]. intros H. injection H as <-.
  unfold m_ok, all_ids. cbn [set_times set_instance set_process m_logs m_process m_instance m_entry m_drawn oids]. rewrite P, flat_map_app. cbn [oids flat_map].
  set (l' := mk_ml _ _ _ _ _ _). change (lids l') with (lids l). now rewrite app_nil_r, <- app_assoc.
Qed.

Lemma end_attribute_ok s s' : end_attribute s = Ok s' -> m_ok s -> m_ok s'.
Proof.
  unfold end_attribute. destruct (nonempty (strip (m_buffer s))); cbn; [|intros H; now injection H as <-].
  destruct (m_generic s) as [[c k e v coll meta]|]; cbn; [|discriminate].
  destruct (m_entry s) as [e'|] eqn:E; cbn.
  { intros H. injection H as <-. unfold m_ok, all_ids. cbn. now rewrite E. }
  destruct (m_instance s) as [t|] eqn:I; cbn; [destruct (has_items (mt_events t)); cbn|];
    try (intros H; injection H as <-; unfold m_ok, all_ids; cbn; now rewrite I, E);
    (destruct (m_process s) as [l|] eqn:P; cbn; [destruct (has_items (ml_traces l)); cbn|];
     try (intros H; injection H as <-; unfold m_ok, all_ids; cbn; now rewrite I, P, E));
    (destruct (m_source_open s); cbn; [|intros H; injection H as <-; unfold m_ok, all_ids; cbn; now rewrite I, P, E]);
    (destruct (m_source s); cbn; [|discriminate]); intros H; injection H as <-; unfold m_ok, all_ids; cbn; now rewrite I, P, E.
Qed.

Lemma mx_end_ok t s s' : mx_end t s = Ok s' -> m_ok s -> m_ok s'.
Proof.
  unfold mx_end. intros H S.
  match type of H with (let! _ := ?x in _) = _ => destruct x as [s1|] eqn:E; [|discriminate] end. cbn in H.
  injection H as <-. assert (m_ok s1); [|easy]. revert E.
  destruct (str_eqb t (py "Process")); [intros E; now apply (end_process_ok s)|].
  destruct (str_eqb t (py "ProcessInstance")); [intros E; now apply (end_instance_ok s)|].
  destruct (str_eqb t (py "AuditTrailEntry")); [intros E; now apply (end_entry_ok s)|].
  destruct (str_eqb t (py "Attribute")); [intros E; now apply (end_attribute_ok s)|].
  destruct (str_eqb t (py "EventType")).
  { unfold end_type. destruct (m_type s) as [[c k e v coll meta]|]; [|discriminate].
    destruct (py_eq v (PStr (py "UNKNOWN"))).
    - destruct (nonempty (strip (m_buffer s))).
      + destruct (entry_put _ s) as [s2|] eqn:P; [|discriminate]. cbn. intros E. injection E as <-.
        apply entry_put_ok in P; auto.
      + cbn. intros E. now injection E as <-.
    - destruct (entry_put _ s) as [s2|] eqn:P; [|discriminate]. cbn. intros E. injection E as <-.
      apply entry_put_ok in P; auto. }
  destruct (str_eqb t (py "WorkflowModelElement")).
  { unfold end_model_element. destruct (nonblank _); intros E; [now apply (entry_put_ok _ s s1 E) | now injection E as <-]. }
  destruct (str_eqb t (py "Timestamp")).
  { unfold end_timestamp. destruct (parse_date_time _) as [[d|]|]; cbn; try discriminate; intros E.
    - now apply (entry_put_ok _ _ _ E).
    - now injection E as <-. }
  destruct (str_eqb t (py "Originator")).
  { unfold end_originator. destruct (m_originator s) as [[c k e v coll meta]|]; [|discriminate].
    destruct (entry_put _ s) as [s2|] eqn:P; [|discriminate]. cbn. intros E. injection E as <-.
    apply entry_put_ok in P; auto. }
  intros E. now injection E as <-.
Qed.

Lemma mx_run_ok es : forall s s', mx_run draw es s = Ok s' -> m_ok s -> m_ok s'.
Proof.
  unfold mx_run. induction es as [|e es IH]; cbn; intros s s'; [intros H; now injection H as <-|].
  destruct (mx_step draw s e) as [s1|] eqn:E; [|discriminate]. cbn. intros H S. apply (IH s1); auto.
  destruct e; cbn in E; [eapply mx_start_ok | eapply mx_end_ok | injection E as <-]; eauto.
Qed.

Lemma lids_read l : lids l = map ev_id (read_events l).
Proof.
  unfold lids, read_events. induction (ml_traces l) as [|t ts IH]; [easy|]. cbn. rewrite map_app, IH. reflexivity.
Qed.

Theorem mxml_ids es s : mx_run draw es ms_init = Ok s ->
  own_draws draw (m_drawn s) (map ev_id (flat_map read_events (m_logs s))).
Proof.
  intros R. assert (m_ok s) as M.
  { apply (mx_run_ok es _ _ R). exists []. repeat split; constructor. }
  unfold m_ok, all_ids in M. apply own_draws_end in M. revert M.
  replace (flat_map lids (m_logs s)) with (map ev_id (flat_map read_events (m_logs s))); [easy|].
  induction (m_logs s) as [|l ls IH]; [easy|]. cbn. now rewrite map_app, IH, lids_read.
Qed.
End Mxml.

(** ** After a file *)

Lemma own_draws_nodup draw n ids : (forall i j, draw i = draw j -> i = j) -> own_draws draw n ids -> NoDup ids.
Proof. intros I (ks & D & _ & ->). apply NoDup_map_in; auto. Qed.
