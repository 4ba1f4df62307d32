(** The logs the MXML reader makes. *)
From Coq Require Import String NArith ZArith List Bool Lia.
From Verif Require Import Base.PyBase Base.PyDate Base.PyVal Base.Xml Model.Attr Model.DateConv Model.Log
  Model.Token Model.StdExt Model.MxmlRead Spec.Xes Spec.Mxml
  Proofs.BaseFacts Proofs.StrFacts Proofs.TokenFacts Proofs.XesReadFacts Proofs.MxmlFacts.
Import ListNotations.

Section Run.
Context (draw : nat -> N).

Definition not_filled (c : mstate) : Prop := match m_instance c with Some t => mt_events t = [] | None => True end.
Definition is_grown (c : mstate) : bool := match m_process c with Some l => has_items (ml_traces l) | None => false end.
Definition meta_all (l : list attr) (a : attr) : attr := fold_left (fun a x => put_meta x a) l a.
Definition give (l : list attr) (c : mstate) : mstate :=
  if m_source_open c then
    match m_source c with
    | Some i => set_sources (update i (meta_all l) (m_sources c)) c
    | None => c
    end
  else c.
Definition log_all (l : list attr) (p : mlog) : mlog :=
  mk_ml (put_refs l (ml_attrs p)) (ml_traces p) (ml_exts p) (ml_classifiers p) (ml_gtrace p) (ml_gevent p).
(** Where data goes that is not on a trace. *)
Definition spill (l : list attr) (c : mstate) : mstate :=
  if is_grown c then set_process (option_map (log_all l) (m_process c)) c else give l c.

Lemma give_nil c : give [] c = c.
Proof.
  unfold give. destruct c as [so bu lo pr ins en src ge ty orr op ti la dr]; simpl.
  destruct op; [destruct src as [i|]|]; try reflexivity. unfold set_sources; simpl. f_equal.
  rewrite <- (update_id i so) at 2. now apply update_eq.
Qed.
Lemma give_cons a l c : give l (give [a] c) = give (a :: l) c.
Proof.
  unfold give. destruct c as [so bu lo pr ins en src ge ty orr op ti la dr]; simpl.
  destruct op; [destruct src as [i|]|]; simpl; try reflexivity. unfold set_sources; simpl. rewrite update_twice. reflexivity.
Qed.
Lemma give_app a b c : give b (give a c) = give (a ++ b) c.
Proof.
  revert c. induction a as [|x a IH]; intros c.
  - now rewrite give_nil.
  - rewrite <- give_cons, IH. simpl. now rewrite <- (give_cons x (a ++ b)).
Qed.
Lemma log_all_nil p : log_all [] p = p.
Proof. destruct p; reflexivity. Qed.
Lemma log_all_app a b p : log_all b (log_all a p) = log_all (a ++ b) p.
Proof. unfold log_all, put_refs. cbn. now rewrite fold_left_app. Qed.

Lemma spill_nil c : spill [] c = c.
Proof.
  unfold spill. destruct (is_grown c) eqn:G; [|apply give_nil].
  destruct c as [so bu lo pr ins en src ge ty orr op ti la dr]. unfold is_grown in G. simpl in *.
  destruct pr as [p|]; [|discriminate]. unfold set_process. simpl. now rewrite log_all_nil.
Qed.
Lemma grown_spill l c : is_grown (spill l c) = is_grown c.
Proof.
  unfold spill. destruct (is_grown c) eqn:G.
  - unfold is_grown in *. cbn. destruct (m_process c); [exact G|discriminate].
  - unfold give. destruct (m_source_open c); [destruct (m_source c)|]; exact G.
Qed.
Lemma spill_app a b c : spill b (spill a c) = spill (a ++ b) c.
Proof.
  unfold spill at 1. rewrite grown_spill. unfold spill. destruct (is_grown c) eqn:G; [|apply give_app].
  unfold set_process. cbn. f_equal. destruct (m_process c) eqn:P; [|unfold is_grown in G; rewrite P in G; discriminate]. cbn. now rewrite log_all_app.
Qed.
Lemma place_spill a c : m_entry c = None -> not_filled c -> place a c = spill [a] c.
Proof.
  intros E F. unfold place, spill, is_grown, give. rewrite E.
  assert (X : match m_instance c with Some t => has_items (mt_events t) | None => false end = false).
  { unfold not_filled in F. destruct (m_instance c) as [t|]; [now rewrite F|reflexivity]. }
  rewrite X. destruct (match m_process c with Some l => has_items (ml_traces l) | None => false end); reflexivity.
Qed.
Lemma spill_frame l c : m_entry (spill l c) = m_entry c /\ m_instance (spill l c) = m_instance c
  /\ m_drawn (spill l c) = m_drawn c /\ m_logs (spill l c) = m_logs c.
Proof.
  unfold spill, give. destruct (is_grown c); [auto|]. destruct (m_source_open c); [destruct (m_source c)|]; auto.
Qed.
Lemma place_all_spill l : forall c, m_entry c = None -> not_filled c -> acts place l c = spill l c.
Proof.
  induction l as [|a l IH]; intros c E F.
  - now rewrite spill_nil.
  - unfold acts. cbn [fold_left]. rewrite place_spill by auto. change (acts place l (spill [a] c) = spill (a :: l) c).
    destruct (spill_frame [a] c) as (X & Y & _). rewrite IH; [apply spill_app|congruence|].
    unfold not_filled. rewrite Y. exact F.
Qed.

(** *** Instances *)

Definition with_trace (t : mtrace) (n : nat) (c : mstate) : mstate :=
  mk_ms (m_sources c) (m_buffer c) (m_logs c) (m_process c) (Some t) (m_entry c) (m_source c) (m_generic c)
        (m_type c) (m_originator c) (m_source_open c) (m_timestamp c) (m_last c) n.

Lemma has_items_app {A} (l : list A) x : has_items (l ++ [x]) = true.
Proof. destruct l; reflexivity. Qed.

Lemma instance_filled its : forall c t, m_entry c = None -> m_instance c = Some t -> has_items (mt_events t) = true ->
  acts (act_instance draw) its c
  = with_trace (mk_mt (put_all (lefts its) (mt_attrs t))
                      (mt_events t ++ map Some (number_events draw (m_drawn c) (map index (rights its)))))
               (m_drawn c + List.length (rights its)) c.
Proof.
  unfold acts. induction its as [|[a|l] its IH]; intros c t E I H; cbn [fold_left].
  - simpl. rewrite app_nil_r, Nat.add_0_r. destruct c, t; simpl in *. unfold with_trace. simpl. now rewrite I.
  - cbn [act_instance]. assert (P : place a c = set_instance (Some (put_trace a t)) c).
    { unfold place. rewrite E, I, H. reflexivity. }
    rewrite P. rewrite (IH _ (put_trace a t)); auto.
  - cbn [act_instance]. rewrite I. cbn [option_map].
    rewrite (IH _ (mk_mt (mt_attrs t) (mt_events t ++ [Some (mk_event (draw (m_drawn c)) (index l))]))); auto.
    2: apply has_items_app.
    cbn [lefts rights flat_map app map number_events List.length mt_attrs mt_events m_drawn].
    unfold with_trace. cbn. rewrite E, <- app_assoc, <- plus_n_Sm. reflexivity.
Qed.

Lemma instance_fresh its : forall c m, m_entry c = None -> m_instance c = Some (mk_mt m []) ->
  acts (act_instance draw) its c
  = with_trace (mk_mt (put_all (after_entry its) m) (map Some (number_events draw (m_drawn c) (map index (rights its)))))
               (m_drawn c + List.length (rights its)) (spill (before_entry its) c).
Proof.
  induction its as [|[a|l] its IH]; intros c m E I.
  - simpl. rewrite spill_nil, Nat.add_0_r. destruct c; simpl in *. unfold with_trace. simpl. now rewrite I.
  - unfold acts. cbn [fold_left act_instance]. rewrite place_spill; [|exact E|unfold not_filled; now rewrite I].
    change (acts (act_instance draw) its (spill [a] c) = with_trace (mk_mt (put_all (after_entry its) m)
      (map Some (number_events draw (m_drawn c) (map index (rights its))))) (m_drawn c + List.length (rights its))
      (spill (a :: before_entry its) c)).
    destruct (spill_frame [a] c) as (X & Y & Z & _). rewrite (IH _ m) by congruence. rewrite Z, spill_app. reflexivity.
  - unfold acts. cbn [fold_left act_instance]. rewrite I. cbn [option_map mt_attrs mt_events app].
    fold (acts (act_instance draw) its).
    match goal with |- fold_left _ its ?x = _ => change (acts (act_instance draw) its x = with_trace (mk_mt (put_all (lefts its) m)
      (map Some (number_events draw (m_drawn c) (index l :: map index (rights its))))) (m_drawn c + S (List.length (rights its)))
      (spill [] c)) end.
    rewrite spill_nil.
    rewrite (instance_filled _ _ (mk_mt m [Some (mk_event (draw (m_drawn c)) (index l))])); auto.
    unfold with_trace. cbn. rewrite E. f_equal. lia.
Qed.

Lemma filled_items i : filled i = has_items (rights (snd i)).
Proof. unfold filled, entries. now destruct (rights (snd i)). Qed.

(** *** Processes *)

Definition to_mt (u : trace) : mtrace := mk_mt (tr_attrs u) (map Some (tr_events u)).
Definition with_traces (l : list attr) (ts : list trace) (n : nat) (c : mstate) : mstate :=
  mk_ms (m_sources c) (m_buffer c) (m_logs c)
    (option_map (fun p => mk_ml (put_refs l (ml_attrs p)) (ml_traces p ++ map to_mt ts) (ml_exts p) (ml_classifiers p)
                                (ml_gtrace p) (ml_gevent p)) (m_process c))
    (m_instance c) (m_entry c) (m_source c) (m_generic c) (m_type c) (m_originator c) (m_source_open c)
    (m_timestamp c) (m_last c) n.

Lemma instance_step i c : m_entry c = None -> m_instance c = None ->
  act_process draw (inr i) c
  = let c' := spill (early i) c in
    if filled i then with_traces [] [instance_trace draw (m_drawn c) i] (m_drawn c + List.length (entries i)) c' else c'.
Proof.
  intros E I. destruct i as [atts its]. cbn [act_process].
  rewrite (instance_fresh its _ (index (own_attrs atts))) by auto.
  set (c0 := set_instance _ c). unfold finish, with_trace at 1. cbn [m_instance mt_events].
  assert (S : spill (before_entry its) c0 = set_instance (Some (mk_mt (index (own_attrs atts)) [])) (spill (before_entry its) c)).
  { unfold spill, give, is_grown, c0. cbn. destruct (m_process c) as [p|]; [destruct (has_items (ml_traces p))|];
      try reflexivity; (destruct (m_source_open c); [destruct (m_source c)|]; reflexivity). }
  rewrite S. change (m_drawn c0) with (m_drawn c). unfold early, entries. cbn [fst snd].
  destruct (spill_frame (before_entry its) c) as (X & Y & Z & _).
  assert (T : instance_trace draw (m_drawn c) (atts, its)
              = mk_trace (put_all (after_entry its) (index (own_attrs atts))) (number_events draw (m_drawn c) (map index (rights its)))).
  { unfold instance_trace. cbn [fst snd]. f_equal. unfold own_attrs. rewrite <- index_app, <- !app_assoc. reflexivity. }
  rewrite T. clear T. rewrite filled_items. cbn [snd].
  destruct (rights its) as [|r rs] eqn:R; cbn [has_items map number_events List.length].
  - rewrite Nat.add_0_r. unfold with_trace. cbn. destruct (spill (before_entry its) c); cbn in *. subst. rewrite I. reflexivity.
  - unfold with_traces, with_trace. cbn. rewrite E in X. rewrite I in Y. rewrite X, Y.
    destruct (m_process (spill (before_entry its) c)); reflexivity.
Qed.

Lemma with_traces_twice a ts n b us k c :
  with_traces b us k (with_traces a ts n c) = with_traces (a ++ b) (ts ++ us) k c.
Proof.
  unfold with_traces. cbn. f_equal. destruct (m_process c); [|reflexivity]. cbn.
  unfold put_refs. rewrite fold_left_app, map_app, app_assoc. reflexivity.
Qed.
Lemma with_traces_spill a l c : is_grown c = true ->
  spill l c = with_traces l [] (m_drawn c) c /\ is_grown (with_traces a [] (m_drawn c) c) = true.
Proof.
  unfold spill, is_grown. intros G. destruct (m_process c) as [p|] eqn:P; [|discriminate]. rewrite G. split.
  - unfold with_traces. rewrite P. cbn. rewrite app_nil_r. reflexivity.
  - cbn. rewrite P. cbn. now rewrite app_nil_r.
Qed.
Lemma grown_with a ts n c : is_grown c = true -> is_grown (with_traces a ts n c) = true.
Proof.
  unfold is_grown. cbn. destruct (m_process c) as [p|]; [|discriminate]. cbn. destruct (ml_traces p); [discriminate|reflexivity].
Qed.

Lemma spill_grown l c : is_grown c = true -> spill l c = with_traces l [] (m_drawn c) c.
Proof. intros G. now apply (with_traces_spill []). Qed.

Lemma kept_cons_data (a : attr) its : kept (inl a :: its) = kept its.
Proof. reflexivity. Qed.
Lemma kept_cons i its : kept (inr i :: its) = if filled i then i :: kept its else kept its.
Proof. reflexivity. Qed.
Lemma process_entries_cons i its : process_entries (inr i :: its) = List.length (entries i) + process_entries its.
Proof. reflexivity. Qed.
Lemma not_filled_none i : filled i = false -> List.length (entries i) = 0.
Proof. unfold filled. now destruct (entries i). Qed.

Lemma process_grown its : forall c, m_entry c = None -> m_instance c = None -> is_grown c = true ->
  acts (act_process draw) its c
  = with_traces (flat_map loose its) (instance_traces draw (m_drawn c) (kept its)) (m_drawn c + process_entries its) c.
Proof.
  induction its as [|[a|i] its IH]; intros c E I G.
  - simpl. unfold process_entries. simpl. rewrite Nat.add_0_r, <- spill_grown, spill_nil by auto. reflexivity.
  - unfold acts. cbn [fold_left]. change (acts (act_process draw) its (place a c) = with_traces ([a] ++ flat_map loose its)
      (instance_traces draw (m_drawn c) (kept its)) (m_drawn c + process_entries its) c).
    rewrite place_spill, spill_grown by (auto; unfold not_filled; now rewrite I).
    rewrite IH; auto using grown_with. rewrite with_traces_twice. reflexivity.
  - unfold acts. cbn [fold_left]. change (acts (act_process draw) its (act_process draw (inr i) c)
      = with_traces (early i ++ flat_map loose its)
      (instance_traces draw (m_drawn c) (kept (inr i :: its))) (m_drawn c + process_entries (inr i :: its)) c).
    rewrite instance_step by auto. cbv zeta. rewrite spill_grown by auto. rewrite kept_cons, process_entries_cons.
    destruct (filled i) eqn:F.
    + rewrite with_traces_twice, app_nil_r. rewrite IH; auto using grown_with. cbn [m_drawn with_traces].
      rewrite with_traces_twice. cbn [app instance_traces]. f_equal. lia.
    + rewrite IH; auto using grown_with. rewrite with_traces_twice, (not_filled_none i F). cbn [app]. reflexivity.
Qed.

Lemma give_with a ts n l c : with_traces a ts n (give l c) = give l (with_traces a ts n c).
Proof. unfold give. destruct c as [so bu lo pr ins en src ge ty orr op ti la dr]; simpl. destruct op; [destruct src|]; reflexivity. Qed.
Lemma spill_give l c : is_grown c = false -> spill l c = give l c.
Proof. unfold spill. now intros ->. Qed.
Lemma give_frame l c : m_entry (give l c) = m_entry c /\ m_instance (give l c) = m_instance c
  /\ m_drawn (give l c) = m_drawn c /\ m_logs (give l c) = m_logs c /\ m_process (give l c) = m_process c
  /\ m_source (give l c) = m_source c /\ m_source_open (give l c) = m_source_open c.
Proof. unfold give. destruct (m_source_open c) eqn:O; [destruct (m_source c) eqn:S|]; cbn; rewrite ?O, ?S; auto 10. Qed.
Lemma grown_give l c : is_grown (give l c) = is_grown c.
Proof. unfold is_grown. destruct (give_frame l c) as (_ & _ & _ & _ & -> & _). reflexivity. Qed.
Lemma with_traces_nil c : with_traces [] [] (m_drawn c) c = c.
Proof.
  destruct c as [so bu lo pr ins en src ge ty orr op ti la dr]. unfold with_traces. simpl. f_equal.
  destruct pr as [p|]; [|reflexivity]. destruct p. simpl. now rewrite app_nil_r.
Qed.

Lemma process_fresh its : forall c p, m_entry c = None -> m_instance c = None ->
  m_process c = Some p -> ml_traces p = [] ->
  acts (act_process draw) its c
  = give (astray its)
         (with_traces (log_data its) (instance_traces draw (m_drawn c) (kept its)) (m_drawn c + process_entries its) c).
Proof.
  induction its as [|[a|i] its IH]; intros c p E I P T;
    assert (G : is_grown c = false) by (unfold is_grown; now rewrite P, T).
  - simpl. unfold process_entries. simpl. rewrite Nat.add_0_r, with_traces_nil, give_nil. reflexivity.
  - unfold acts. cbn [fold_left]. change (acts (act_process draw) its (place a c) = give ([a] ++ astray its) (with_traces (log_data its)
      (instance_traces draw (m_drawn c) (kept its)) (m_drawn c + process_entries its) c)).
    rewrite place_spill, spill_give by (auto; unfold not_filled; now rewrite I).
    destruct (give_frame [a] c) as (A & B & C & D & F & _).
    rewrite (IH _ p) by congruence. rewrite C, give_with, give_app. reflexivity.
  - unfold acts. cbn [fold_left]. change (acts (act_process draw) its (act_process draw (inr i) c)
      = give (astray (inr i :: its)) (with_traces (log_data (inr i :: its))
      (instance_traces draw (m_drawn c) (kept (inr i :: its))) (m_drawn c + process_entries (inr i :: its)) c)).
    rewrite instance_step by auto. cbv zeta. rewrite spill_give by auto. rewrite kept_cons, process_entries_cons.
    cbn [astray log_data]. destruct (give_frame (early i) c) as (A & B & C & D & F & _).
    destruct (filled i) eqn:Fl.
    + rewrite process_grown.
      * rewrite with_traces_twice, app_nil_r. cbn [m_drawn with_traces app instance_traces]. rewrite give_with. f_equal. f_equal. lia.
      * exact (eq_trans A E).
      * exact (eq_trans B I).
      * unfold is_grown. cbn. rewrite F, P. cbn. now rewrite T.
    + rewrite (IH _ p) by congruence. rewrite C, give_with, give_app, (not_filled_none i Fl). reflexivity.
Qed.

(** *** Documents *)

Lemma put_refs_is S l : forall m m',
  Forall2 (fun x y => fst x = fst y /\ ref_is S (snd x) (snd y)) m m' ->
  Forall2 (fun x y => fst x = fst y /\ ref_is S (snd x) (snd y)) (put_refs l m) (put_all l m').
Proof.
  unfold put_refs, put_all. induction l as [|a l IH]; intros m m' H; simpl; [exact H|].
  apply IH. now apply sset_forall2.
Qed.
Lemma to_mt_is ts : Forall2 trace_is (map to_mt ts) ts.
Proof. induction ts; constructor; auto. split; reflexivity. Qed.

Lemma meta_all_source atts l : forall d, meta_all l (source_attr atts d) = source_attr atts (d ++ l).
Proof.
  unfold meta_all. induction l as [|a l IH]; intros d; cbn [fold_left].
  - now rewrite app_nil_r.
  - replace (put_meta a (source_attr atts d)) with (source_attr atts (d ++ [a])).
    + rewrite IH, <- app_assoc. reflexivity.
    + unfold source_attr. rewrite !app_assoc, index_app. reflexivity.
Qed.

Definition made_log (src : option nat) (n : nat) (atts : sdict pystr) (its : list (attr + instance)) : mlog :=
  mk_ml (put_refs (name_of (att "id" atts []) ++ [model_attr (py "standard")]
                   ++ description_of (nonempty_text (sget (py "description") atts)) ++ reference_of atts ++ log_data its)
                  (match src with Some i => [(py "source", MSource i)] | None => [] end))
        (map to_mt (instance_traces draw n (kept its)))
        [ext_concept; ext_org; ext_lifecycle; ext_semantic; ext_time] mxml_classifiers
        [name_attr (py "UNKNOWN")] [name_attr (py "UNKNOWN"); transition_attr (py "complete") []].

Lemma process_step atts its c : in_doc c ->
  act_doc draw (DProcess atts its) c
  = give (astray its)
      (mk_ms (m_sources c) (m_buffer c) (m_logs c ++ [made_log (m_source c) (m_drawn c) atts its]) None
             (m_instance c) (m_entry c) (m_source c) (m_generic c) (m_type c) (m_originator c) (m_source_open c)
             (m_timestamp c) (m_last c) (m_drawn c + process_entries its)).
Proof.
  intros (E & I & P & S). cbn [act_doc]. rewrite (process_fresh its _ (fresh_log c atts)); auto.
  assert (L : made_log (m_source c) (m_drawn c) atts its =
    let p := fresh_log c atts in
    mk_ml (put_refs (log_data its) (ml_attrs p)) (ml_traces p ++ map to_mt (instance_traces draw (m_drawn c) (kept its)))
          (ml_exts p) (ml_classifiers p ++ mxml_classifiers)
          (ml_gtrace p ++ [name_attr (py "UNKNOWN")])
          (ml_gevent p ++ [name_attr (py "UNKNOWN"); transition_attr (py "complete") []])).
  { unfold made_log, fresh_log. cbn [ml_attrs ml_traces ml_exts ml_classifiers ml_gtrace ml_gevent app].
    unfold put_refs. rewrite <- fold_left_app, <- app_assoc. cbn [app]. rewrite <- !app_assoc. reflexivity. }
  rewrite L. unfold file_log. destruct (give_frame (astray its) (with_traces (log_data its)
    (instance_traces draw (m_drawn (set_process (Some (fresh_log c atts)) c)) (kept its))
    (m_drawn (set_process (Some (fresh_log c atts)) c) + process_entries its) (set_process (Some (fresh_log c atts)) c)))
    as (_ & _ & _ & _ & -> & _).
  cbn [with_traces set_process m_process option_map].
  unfold give. destruct c as [f1 f2 f3 f4 f5 f6 f7 f8 f9 f10 f11 f12 f13 f14]. cbn [m_source m_source_open with_traces set_process].
  destruct f11; [destruct f7|]; reflexivity.
Qed.

Lemma made_log_is S src a n atts its :
  match src, a with
  | Some i, Some a => nth_error S i = Some a /\ a_key a = py "source"
  | None, None => True
  | _, _ => False
  end ->
  log_is S (made_log src n atts its) (process_log draw n a atts its).
Proof.
  intros H. unfold log_is, made_log, process_log. cbn. split; [|split; [apply to_mt_is|auto 10]].
  destruct src as [i|], a as [a|]; try easy; cbn [opt_list app].
  - rewrite index_put. change (put_all (a :: ?l) []) with (put_all l (sset (a_key a) a [])). destruct H as [H ->].
    apply put_refs_is. constructor; [|constructor]. split; auto.
  - rewrite index_put. apply put_refs_is. constructor.
Qed.

Lemma doc_open its : forall c olds atts d, in_doc c ->
  m_source c = Some (List.length olds) -> m_source_open c = true -> m_sources c = olds ++ [source_attr atts d] ->
  exists new rest,
    m_logs (acts (act_doc draw) its c) = m_logs c ++ new
    /\ m_sources (acts (act_doc draw) its c) = (olds ++ [source_attr atts (d ++ to_source its)]) ++ rest
    /\ Forall2 (log_is (m_sources (acts (act_doc draw) its c))) new
         (item_logs draw (m_drawn c) (Some (source_attr atts (d ++ to_source its))) its).
Proof.
  induction its as [|x its IH]; intros c olds atts d H S O E.
  - exists [], []. simpl. rewrite !app_nil_r, E. repeat split. constructor.
  - pose proof (act_doc_keep draw x c H) as H'. destruct x as [a|satts data|patts pits].
    + change (acts (act_doc draw) (DData a :: its) c) with (acts (act_doc draw) its (place a c)).
      cbn [to_source item_logs]. assert (P : place a c = give [a] c).
      { destruct H as (A & B & C & D). rewrite place_spill, spill_give; auto.
        - unfold is_grown. now rewrite C.
        - unfold not_filled. now rewrite B. }
      cbn [act_doc] in H'. rewrite P in *. destruct (give_frame [a] c) as (F1 & F2 & F3 & F4 & F5 & F6 & F7).
      destruct (IH (give [a] c) olds atts (d ++ [a])) as (new & rest & X & Y & Z); auto; try congruence.
      { unfold give. rewrite O, S. cbn. rewrite E, update_app_r, meta_all_source. reflexivity. }
      rewrite <- (app_assoc d) in Y, Z. rewrite F3 in Z. rewrite F4 in X. exists new, rest. auto.
    + change (acts (act_doc draw) (DSource satts data :: its) c) with (acts (act_doc draw) its (act_doc draw (DSource satts data) c)).
      cbn [to_source item_logs].
      set (c1 := act_doc draw (DSource satts data) c) in *.
      assert (C1 : c1 = give data (mk_ms (m_sources c ++ [source_attr satts []]) (m_buffer c) (m_logs c) (m_process c) (m_instance c) (m_entry c)
               (Some (List.length (m_sources c))) (m_generic c) (m_type c) (m_originator c) true
               (m_timestamp c) (m_last c) (m_drawn c))).
      { subst c1. cbn [act_doc]. destruct H as (A & B & C & D). rewrite place_all_spill, spill_give; auto.
        - unfold is_grown. cbn. now rewrite C.
        - unfold not_filled. cbn. now rewrite B. }
      clearbody c1. unfold give in C1. cbn in C1. rewrite update_app_r in C1. rewrite meta_all_source in C1. cbn [app] in C1.
      destruct (IH c1 (m_sources c) satts data) as (new & rest & X & Y & Z); auto; try (now rewrite C1).
      exists new, ((source_attr satts (data ++ to_source its)) :: rest).
      assert (L : m_logs c1 = m_logs c) by now rewrite C1. assert (Dr : m_drawn c1 = m_drawn c) by now rewrite C1.
      rewrite L in X. rewrite Dr in Z. split; [exact X|]. split; [|exact Z].
      rewrite Y, E, app_nil_r, <- !app_assoc. reflexivity.
    + change (acts (act_doc draw) (DProcess patts pits :: its) c) with (acts (act_doc draw) its (act_doc draw (DProcess patts pits) c)).
      cbn [to_source item_logs].
      set (c1 := act_doc draw (DProcess patts pits) c) in *.
      assert (C1 := process_step patts pits c H). fold c1 in C1.
      clearbody c1. unfold give in C1. cbn in C1. rewrite O, S, E, update_app_r, meta_all_source in C1. cbn in C1.
      destruct (IH c1 olds atts (d ++ astray pits)) as (new & rest & X & Y & Z); auto; try (now rewrite C1).
      rewrite <- (app_assoc d) in Y, Z.
      exists (made_log (Some (List.length olds)) (m_drawn c) patts pits :: new), rest.
      split; [|split; [exact Y|]].
      * rewrite X, C1. cbn. rewrite <- app_assoc. reflexivity.
      * constructor.
        -- apply made_log_is. split; [|reflexivity]. rewrite Y, <- app_assoc, nth_error_app2 by lia. rewrite Nat.sub_diag. reflexivity.
        -- assert (Dr : m_drawn c1 = m_drawn c + process_entries pits) by now rewrite C1. rewrite <- Dr. exact Z.
Qed.

Lemma doc_closed its : forall c, in_doc c -> m_source c = None -> m_source_open c = false ->
  exists new,
    m_logs (acts (act_doc draw) its c) = m_logs c ++ new
    /\ Forall2 (log_is (m_sources (acts (act_doc draw) its c))) new (item_logs draw (m_drawn c) None its).
Proof.
  induction its as [|x its IH]; intros c H S O.
  - exists []. simpl. rewrite !app_nil_r. split; constructor.
  - pose proof (act_doc_keep draw x c H) as H'. destruct x as [a|satts data|patts pits].
    + change (acts (act_doc draw) (DData a :: its) c) with (acts (act_doc draw) its (place a c)).
      cbn [to_source item_logs]. assert (P : place a c = c).
      { destruct H as (A & B & C & D). rewrite place_spill, spill_give; auto.
        - unfold give. now rewrite O.
        - unfold is_grown. now rewrite C.
        - unfold not_filled. now rewrite B. }
      rewrite P. now apply IH.
    + change (acts (act_doc draw) (DSource satts data :: its) c) with (acts (act_doc draw) its (act_doc draw (DSource satts data) c)).
      cbn [to_source item_logs].
      set (c1 := act_doc draw (DSource satts data) c) in *.
      assert (C1 : c1 = give data (mk_ms (m_sources c ++ [source_attr satts []]) (m_buffer c) (m_logs c) (m_process c) (m_instance c) (m_entry c)
               (Some (List.length (m_sources c))) (m_generic c) (m_type c) (m_originator c) true
               (m_timestamp c) (m_last c) (m_drawn c))).
      { subst c1. cbn [act_doc]. destruct H as (A & B & C & D). rewrite place_all_spill, spill_give; auto.
        - unfold is_grown. cbn. now rewrite C.
        - unfold not_filled. cbn. now rewrite B. }
      clearbody c1. unfold give in C1. cbn in C1. rewrite update_app_r in C1. rewrite meta_all_source in C1. cbn [app] in C1.
      destruct (doc_open its c1 (m_sources c) satts data) as (new & rest & X & Y & Z); auto; try (now rewrite C1).
      exists new.
      assert (L : m_logs c1 = m_logs c) by now rewrite C1. assert (Dr : m_drawn c1 = m_drawn c) by now rewrite C1.
      rewrite L in X. rewrite Dr in Z. split; [exact X|exact Z].
    + change (acts (act_doc draw) (DProcess patts pits :: its) c) with (acts (act_doc draw) its (act_doc draw (DProcess patts pits) c)).
      cbn [to_source item_logs].
      set (c1 := act_doc draw (DProcess patts pits) c) in *.
      assert (C1 := process_step patts pits c H). fold c1 in C1.
      clearbody c1. unfold give in C1. cbn in C1. rewrite O in C1.
      destruct (IH c1) as (new & X & Z); auto; try (rewrite C1; exact S); try (now rewrite C1).
      exists (made_log None (m_drawn c) patts pits :: new).
      split.
      * rewrite X, C1. cbn. rewrite S, <- app_assoc. reflexivity.
      * constructor.
        -- now apply made_log_is.
        -- assert (Dr : m_drawn c1 = m_drawn c + process_entries pits) by now rewrite C1. rewrite <- Dr. exact Z.
Qed.

Lemma mxml_reads doc logs : mxml_logs draw doc = Some logs ->
  exists s, mxml_parse draw doc = Ok s /\ Forall2 (log_is (m_sources s)) (m_logs s) logs.
Proof.
  unfold mxml_logs. destruct (mxml_items doc) as [its|] eqn:E; [|discriminate]. intros [= <-].
  destruct (document_runs draw doc its E) as (s & R & C). exists s. split; [exact R|].
  destruct (doc_closed its ms_init) as (new & X & Z); [repeat split; discriminate|reflexivity|reflexivity|].
  rewrite <- C in X, Z. cbn in X, Z. now rewrite X.
Qed.
End Run.
