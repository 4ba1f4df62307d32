From Coq Require Import String NArith ZArith List Bool Lia.
From Verif Require Import Base.PyBase Base.PyVal Base.Xml Model.Attr Model.Log Model.XmlText Model.MxmlWrite Spec.Mxml Spec.MxmlWritten
  Proofs.BaseFacts Proofs.MxmlRoundFacts.
Import ListNotations.

Definition late_res {A} (late : list exn) (x : A) : res A := match late with [] => Ok x | _ => Raise TypeError end.

Lemma et_tree_elem t a text kids :
  et_tree (EElem t a text kids)
  = let! a' := map_res et_attribute a in let! s := et_text text in let! ns := map_res et_tree kids in Ok (XElem t a' (s ++ ns)).
Proof.
  cbn [et_tree]. set (many := fix many (l : list enode) : res (list xnode) := _).
  assert (M : forall l, many l = map_res et_tree l).
  { induction l as [|y l IH]; [reflexivity|]. cbn [many map_res]. fold many. now rewrite IH. }
  now rewrite M.
Qed.
Lemma elem_late t a text kids la lt lk a' s ns :
  map_res et_attribute a = late_res la a' -> et_text text = late_res lt s -> map_res et_tree kids = late_res lk ns ->
  et_tree (EElem t a text kids) = late_res (la ++ lt ++ lk) (XElem t a' (s ++ ns)).
Proof.
  intros A T K. rewrite et_tree_elem, A, T, K. destruct la, lt, lk; reflexivity.
Qed.
Lemma map_res_cons_late {A B} (f : A -> res B) x y l l' lx ll : f x = late_res lx y -> map_res f l = late_res ll l' ->
  map_res f (x :: l) = late_res (lx ++ ll) (y :: l').
Proof. intros X L. cbn [map_res]. rewrite X, L. destruct lx, ll; reflexivity. Qed.
Lemma map_res_app_late {A B} (f : A -> res B) l1 l2 r1 r2 e1 e2 : map_res f l1 = late_res e1 r1 -> map_res f l2 = late_res e2 r2 ->
  map_res f (l1 ++ l2) = late_res (e1 ++ e2) (r1 ++ r2).
Proof.
  revert r1 e1. induction l1 as [|x l1 IH]; intros r1 e1 A0 B0.
  - destruct e1; cbn in A0; [injection A0 as <-; exact B0|discriminate].
  - cbn [map_res app] in *. destruct (f x) as [y|e] eqn:F.
    + destruct (map_res f l1) as [t|e] eqn:M.
      * destruct e1; [|discriminate]. injection A0 as <-. rewrite (IH t [] eq_refl B0). destruct e2; reflexivity.
      * destruct e1; [discriminate|]. injection A0 as ->. now rewrite (IH r1 (e0 :: e1) eq_refl B0).
    + destruct e1; [discriminate|]. injection A0 as ->. reflexivity.
Qed.

(** What building and then writing gives. *)
Definition built (r : res enode) (early late : list exn) (x : xnode) : Prop :=
  match early with e :: _ => r = Raise e | [] => exists n, r = Ok n /\ et_tree n = late_res late x end.
Definition built_all (r : res (list enode)) (early late : list exn) (xs : list xnode) : Prop :=
  match early with e :: _ => r = Raise e | [] => exists ns, r = Ok ns /\ map_res et_tree ns = late_res late xs end.
Definition got_atts (r : res (list (pystr * pyval))) (early late : list exn) (xs : sdict pystr) : Prop :=
  match early with e :: _ => r = Raise e | [] => exists ns, r = Ok ns /\ map_res et_attribute ns = late_res late xs end.
Definition got_value (r : res pyval) (early late : list exn) (xs : list xnode) : Prop :=
  match early with e :: _ => r = Raise e | [] => exists v, r = Ok v /\ et_text v = late_res late xs end.

Lemma built_map {A} (f : A -> res enode) early late doc l : (forall x, built (f x) (early x) (late x) (doc x)) ->
  built_all (map_res f l) (flat_map early l) (flat_map late l) (map doc l).
Proof.
  intros H. induction l as [|x l IH]; [exists []; split; reflexivity|].
  cbn [flat_map map map_res]. specialize (H x). unfold built in H. destruct (early x) as [|e el]; [|cbn; now rewrite H].
  destruct H as (n & -> & N). cbn [app]. unfold built_all in *. destruct (flat_map early l) as [|e el]; [|now rewrite IH].
  destruct IH as (ns & -> & NS). exists (n :: ns). split; [reflexivity|]. now apply map_res_cons_late.
Qed.

Section Write.
Context `{FIO : FloatIO}.

Lemma late_self {A} (l : list exn) (x : A) : late_res (l ++ []) x = late_res l x.
Proof. now rewrite app_nil_r. Qed.

Lemma reference_got m : got_atts (reference_atts m) (reference_fault m) (late_reference m) (reference m).
Proof.
  unfold reference_atts, reference_fault, late_reference, reference, at_key, text_of. destruct (sget _ m) as [a|]; [|exists []; split; reflexivity].
  unfold no_value, get_value, not_text. destruct (is_collection (a_cls a)); [reflexivity|]. cbn [got_atts bind].
  exists [(py "modelReference", a_val a)]. split; [reflexivity|]. destruct (a_val a); reflexivity.
Qed.
Lemma shown_text a : et_text (a_val a) = late_res (unshown a) (shown (a_val a)).
Proof. unfold et_text, unshown. destruct (a_val a) as [|[|]| | | | | |]; cbn -[truthy]; try reflexivity; destruct (truthy _); reflexivity. Qed.
Lemma text_text s : et_text (PStr s) = Ok (text_nodes s).
Proof. destruct s; reflexivity. Qed.

Lemma attr_str_fails : forall a e, attr_str a = Raise e -> e = AttributeError.
Proof.
  fix IH 1. intros [c k x v coll meta] e. cbn [attr_str].
  destruct c; try discriminate; try (destruct v; congruence).
  all: match goal with |- bind (?f _) _ = _ -> _ => set (items := f) end.
  all: assert (Q : forall l e, items l = Raise e -> e = AttributeError);
    [fix IHl 1; intros [|y l] e'; cbn [items]; [discriminate|]; fold items; destruct (attr_str y) as [s|e2] eqn:E;
      [destruct (items l) as [r|e3] eqn:E3; [discriminate|]; intros [= <-]; exact (IHl l e3 E3)|intros [= <-]; exact (IH y e2 E)]
    |destruct (items coll) as [r|e2] eqn:E; cbn [bind]; [discriminate|]; intros [= <-]; exact (Q coll e2 E)].
Qed.

Lemma data_entry_built a : match (if refers a then match a_meta a, attr_str a with [], Ok _ => [] | _, _ => [AttributeError] end else []) with
  | e :: _ => data_entry a = Raise e
  | [] => exists ns, data_entry a = Ok ns /\ map_res et_tree ns
      = Ok (if refers a then [XElem (py "attribute") [(py "name", py "semantic:modelReference")]
                         match attr_str a with Ok s => text_nodes s | Raise _ => [] end] else [])
  end.
Proof.
  unfold refers, data_entry. destruct (str_eqb_spec (a_key a) (py "semantic:modelReference")) as [E|E]; [|exists []; split; reflexivity].
  destruct (a_meta a) as [|kv me].
  - destruct (attr_str a) as [s|e] eqn:S; cbn.
    + eexists. split; [reflexivity|]. rewrite E. cbn -[py]. destruct s; reflexivity.
    + f_equal. now apply attr_str_fails in S.
  - pose proof (reference_got (kv :: me)) as R. unfold got_atts in R.
    assert (RF : Forall (eq AttributeError) (reference_fault (kv :: me))).
    { unfold reference_fault, at_key, no_value. destruct (sget _ _); [destruct (is_collection _)|]; repeat constructor. }
    destruct (reference_fault (kv :: me)) as [|e el].
    + destruct R as (r & -> & _). cbn [bind]. destruct (attr_str a) as [s|e] eqn:S; cbn [bind]; [reflexivity|]. f_equal. now apply attr_str_fails in S.
    + rewrite R. cbn [bind]. inversion RF. now subst.
Qed.
Lemma data_built m : built (add_data m) (data_fault m) [] (data_doc m).
Proof.
  assert (H : match data_fault m with e :: _ => map_res data_entry (map snd m) = Raise e
     | [] => exists nss, map_res data_entry (map snd m) = Ok nss /\ map_res et_tree (List.concat nss)
        = Ok (map (fun a => XElem (py "attribute") [(py "name", py "semantic:modelReference")]
                         match attr_str a with Ok s => text_nodes s | Raise _ => [] end) (filter refers (map snd m))) end).
  { unfold data_fault. induction (map snd m) as [|a l IH]; [exists []; split; reflexivity|]. cbn [filter map_res].
    pose proof (data_entry_built a) as D. destruct (refers a) eqn:RA.
    - cbn [flat_map map]. destruct (a_meta a); [destruct (attr_str a) as [s|e] eqn:S|]; cbn [app].
      + destruct D as (ns & -> & T). destruct (flat_map _ (filter refers l)); [|now rewrite IH].
        destruct IH as (nss & -> & IH). eexists. split; [reflexivity|]. cbn [List.concat].
        exact (map_res_app_late et_tree ns (List.concat nss) _ _ [] [] T IH).
      + now rewrite D.
      + now rewrite D.
    - destruct D as (ns & -> & T). destruct (flat_map _ (filter refers l)); [|now rewrite IH].
      destruct IH as (nss & -> & IH). eexists. split; [reflexivity|]. cbn [List.concat].
      exact (map_res_app_late et_tree ns (List.concat nss) _ _ [] [] T IH). }
  unfold add_data, built. destruct (data_fault m) as [|e el]; [|now rewrite H].
  destruct H as (nss & -> & H). cbn [bind]. eexists. split; [reflexivity|].
  exact (elem_late (py "Data") [] PNone (List.concat nss) [] [] [] [] [] _ eq_refl eq_refl H).
Qed.

Lemma name_got m : got_value (extract_name m) (at_key "concept:name" no_value m) (at_key "concept:name" unshown m) (shown_at "concept:name" m).
Proof.
  unfold extract_name, at_key, shown_at. destruct (sget _ m) as [a|]; [|exists PNone; split; reflexivity].
  unfold no_value, get_value. destruct (is_collection _); [reflexivity|]. cbn [got_value]. exists (a_val a). split; [reflexivity|].
  apply shown_text.
Qed.
Lemma type_built m : built (write_type m) (type_fault m) (at_key "lifecycle:transition" (fun a => late_reference (a_meta a)) m) (type_doc m).
Proof.
  unfold write_type, type_fault, type_doc, at_key. destruct (sget _ m) as [a|]; [|eexists; split; reflexivity].
  pose proof (reference_got (a_meta a)) as R. unfold got_atts in R. unfold built. destruct (reference_fault (a_meta a)) as [|e el]; [|now rewrite R].
  destruct R as (r & -> & R). cbn [bind app]. unfold get_value. destruct (is_collection (a_cls a)); [reflexivity|]. cbn [bind].
  destruct (a_val a) as [|s| | | | | |]; try reflexivity. change known_types with standard_types.
  destruct (existsb _ standard_types) eqn:K; eexists; (split; [reflexivity|]).
  - assert (T : text_nodes (lower (strip s)) = [XText (lower (strip s))]).
    { destruct (lower (strip s)); [discriminate|reflexivity]. }
    rewrite <- T. pose proof (elem_late (py "EventType") r (PStr (lower (strip s))) [] _ [] [] _ _ [] R (text_text _) eq_refl) as E.
    rewrite !app_nil_r in E. exact E.
  - assert (R2 : map_res et_attribute (r ++ [(py "unknownType", PStr s)]) = late_res (late_reference (a_meta a) ++ []) (reference (a_meta a) ++ [(py "unknownType", s)]))
      by (apply map_res_app_late; [exact R|reflexivity]).
    pose proof (elem_late (py "EventType") _ (PStr (py "unknown")) [] _ [] [] _ _ [] R2 (text_text _) eq_refl) as E.
    rewrite !app_nil_r in E. exact E.
Qed.
Lemma field_built t (g : pyval -> pyval) (late : attr -> list exn) shw a :
  (et_text (g (a_val a)) = late_res (late a) (shw a)) ->
  match field_fault a with
  | e :: _ => (let! r := reference_atts (a_meta a) in let! v := get_value a in Ok [EElem t r (g v) []]) = Raise e
  | [] => exists ns, (let! r := reference_atts (a_meta a) in let! v := get_value a in Ok [EElem t r (g v) []]) = Ok ns
          /\ map_res et_tree ns = late_res (late_reference (a_meta a) ++ late a) [XElem t (reference (a_meta a)) (shw a)]
  end.
Proof.
  intros G. pose proof (reference_got (a_meta a)) as R. unfold got_atts in R. unfold field_fault, no_value, get_value.
  destruct (reference_fault (a_meta a)) as [|e el]; [|cbn [app]; now rewrite R].
  destruct R as (r & -> & R). cbn [bind app]. destruct (is_collection _); [reflexivity|]. cbn [bind]. eexists. split; [reflexivity|].
  pose proof (elem_late t r (g (a_val a)) [] _ _ [] _ _ [] R G eq_refl) as E. rewrite !app_nil_r in E.
  pose proof (map_res_cons_late et_tree _ _ [] [] _ [] E eq_refl) as E2. now rewrite app_nil_r in E2.
Qed.
Lemma originator_built m : built_all (write_originator m) (flat_map field_fault (originator m)) (flat_map late_field (originator m))
  (map (fun a => XElem (py "originator") (reference (a_meta a)) (shown (a_val a))) (originator m)).
Proof.
  assert (O : originator m = match originator_attr m with Some a => [a] | None => [] end).
  { unfold originator, first_of, originator_attr. cbn [flat_map]. destruct (sget (py "org:resource") m); [reflexivity|].
    destruct (sget (py "org:role") m); [reflexivity|]. destruct (sget (py "org:group") m); reflexivity. }
  rewrite O. unfold write_originator. destruct (originator_attr m) as [a|]; [|exists []; split; reflexivity].
  cbn [flat_map map]. rewrite !app_nil_r.
  exact (field_built (py "originator") (fun v => v) unshown (fun a => shown (a_val a)) a (shown_text a)).
Qed.
Lemma time_built m : built_all (write_timestamp m) (flat_map field_fault (first_of ["time:timestamp"%string] m))
  (flat_map (fun a => late_reference (a_meta a)) (first_of ["time:timestamp"%string] m))
  (map (fun a => XElem (py "timestamp") (reference (a_meta a)) (text_nodes (py_str (a_val a)))) (first_of ["time:timestamp"%string] m)).
Proof.
  unfold first_of, write_timestamp. cbn [flat_map]. destruct (sget (py "time:timestamp") m) as [a|]; [|exists []; split; reflexivity].
  cbn [flat_map map app firstn]. rewrite !app_nil_r.
  pose proof (field_built (py "timestamp") (fun v => PStr (py_str v)) (fun _ => []) (fun a => text_nodes (py_str (a_val a))) a (text_text _)) as F.
  cbv beta in F. rewrite app_nil_r in F. exact F.
Qed.

Lemma event_built e : built (mwrite_event e) (event_fault e) (late_event e) (event_doc e).
Proof.
  unfold mwrite_event, event_fault, late_event, event_doc. cbv zeta. set (m := ev_attrs e).
  pose proof (data_built m) as D. pose proof (reference_got m) as R. pose proof (name_got m) as N. pose proof (type_built m) as T.
  pose proof (originator_built m) as O. pose proof (time_built m) as W.
  unfold built, built_all, got_atts, got_value in *.
  destruct (data_fault m) as [|? ?]; [|cbn [app]; now rewrite D]. destruct D as (d & -> & D). cbn [bind app].
  destruct (reference_fault m) as [|? ?]; [|cbn [app]; now rewrite R]. destruct R as (r & -> & R). cbn [bind app].
  destruct (at_key "concept:name" no_value m) as [|? ?]; [|cbn [app]; now rewrite N]. destruct N as (n & -> & N). cbn [bind app].
  destruct (type_fault m) as [|? ?]; [|cbn [app]; now rewrite T]. destruct T as (t & -> & T). cbn [bind app].
  destruct (flat_map field_fault (originator m)) as [|? ?]; [|cbn [app]; now rewrite O]. destruct O as (o & -> & O). cbn [bind app].
  destruct (flat_map field_fault (first_of _ m)) as [|? ?]; [|now rewrite W]. destruct W as (w & -> & W). cbn [bind].
  eexists. split; [reflexivity|].
  pose proof (elem_late (py "WorkflowModelElement") r n [] _ _ [] _ _ [] R N eq_refl) as E. rewrite !app_nil_r in E.
  pose proof (map_res_cons_late et_tree _ _ _ _ _ _ D (map_res_cons_late et_tree _ _ _ _ _ _ E
    (map_res_cons_late et_tree _ _ _ _ _ _ T (map_res_app_late et_tree _ _ _ _ _ _ O W)))) as K.
  pose proof (elem_late (py "AuditTrailEntry") [] PNone _ [] [] _ [] [] _ eq_refl eq_refl K) as F.
  cbn [app] in F. rewrite <- !app_assoc in F. exact F.
Qed.

Lemma named_got m none none2 : match name_fault m with
  | e :: _ => (let! n := extract_name m in let! text := prefixed none (or_text (py "None") n) in Ok (n, text)) = Raise e
  | [] => exists n text, extract_name m = Ok n /\ prefixed none (or_text (py "None") n) = Ok text
     /\ map_res et_attribute [(py "id", or_text (py none2) n); (py "description", text)]
        = Ok [(py "id", or_none none2 (text_of "concept:name" m)); (py "description", none ++ or_none "None" (text_of "concept:name" m))]
  end.
Proof.
  unfold name_fault, at_key, extract_name, text_of. destruct (sget _ m) as [a|]; [|do 2 eexists; repeat split; reflexivity].
  unfold no_value, get_value. destruct (is_collection _); [reflexivity|]. cbn [app bind].
  destruct (a_val a); try reflexivity; do 2 eexists; repeat split; reflexivity.
Qed.

Lemma trace_built t : built (mwrite_trace t) (trace_fault t) (late_trace t) (trace_doc t).
Proof.
  unfold mwrite_trace, trace_fault, late_trace, trace_doc. cbv zeta. set (m := tr_attrs t).
  pose proof (named_got m (py "instance with id ") "None") as N. pose proof (data_built m) as D. pose proof (reference_got m) as R.
  pose proof (built_map mwrite_event event_fault late_event event_doc (tr_events t) event_built) as ES.
  unfold built, built_all, got_atts in *.
  destruct (name_fault m) as [|? ?].
  2: { cbn [app]. destruct (extract_name m) as [n|]; cbn [bind] in *; [|now injection N as ->]. destruct (prefixed _ _); cbn [bind] in *; [discriminate|now injection N as ->]. }
  destruct N as (n & text & -> & P & N). cbn [bind app]. rewrite P. cbn [bind].
  destruct (reference_fault m) as [|? ?]; [|cbn [app]; now rewrite R]. destruct R as (r & -> & R). cbn [bind app].
  destruct (data_fault m) as [|? ?]; [|cbn [app]; now rewrite D]. destruct D as (d & -> & D). cbn [bind app].
  destruct (flat_map event_fault (tr_events t)) as [|? ?]; [|now rewrite ES]. destruct ES as (es & -> & ES). cbn [bind].
  eexists. split; [reflexivity|].
  pose proof (elem_late (py "ProcessInstance") _ PNone _ _ [] _ _ [] _ (map_res_app_late et_attribute _ _ _ _ [] _ N R) eq_refl
    (map_res_cons_late et_tree _ _ _ _ _ _ D ES)) as F.
  cbn [app] in F. exact F.
Qed.

Lemma log_built l : built (mwrite_log l) (log_fault l) (late_log l) (log_doc l).
Proof.
  unfold mwrite_log, log_fault, late_log, log_doc. cbv zeta. set (m := lg_attrs l).
  pose proof (named_got m (py "process with id ") "none") as N. pose proof (data_built m) as D. pose proof (reference_got m) as R.
  pose proof (built_map mwrite_trace trace_fault late_trace trace_doc (lg_traces l) trace_built) as ES.
  unfold built, built_all, got_atts in *.
  destruct (name_fault m) as [|? ?].
  2: { cbn [app]. destruct (extract_name m) as [n|]; cbn [bind] in *; [|now injection N as ->]. destruct (prefixed _ _); cbn [bind] in *; [discriminate|now injection N as ->]. }
  destruct N as (n & text & -> & P & N). cbn [bind app]. rewrite P. cbn [bind].
  destruct (reference_fault m) as [|? ?]; [|cbn [app]; now rewrite R]. destruct R as (r & -> & R). cbn [bind app].
  destruct (data_fault m) as [|? ?]; [|cbn [app]; now rewrite D]. destruct D as (d & -> & D). cbn [bind app].
  destruct (flat_map trace_fault (lg_traces l)) as [|? ?]; [|now rewrite ES]. destruct ES as (es & -> & ES). cbn [bind].
  eexists. split; [reflexivity|].
  pose proof (elem_late (py "Process") _ PNone _ _ [] _ _ [] _ (map_res_app_late et_attribute _ _ _ _ [] _ N R) eq_refl
    (map_res_cons_late et_tree _ _ _ _ _ _ D ES)) as F.
  assert (S : et_tree (EElem (py "Source") [(py "program", PStr (py "XES MXML serialization")); (py "openxes.version", PStr (py "1.0RC7"))] PNone [])
    = late_res [] (XElem (py "Source") [(py "program", py "XES MXML serialization"); (py "openxes.version", py "1.0RC7")] [])) by reflexivity.
  pose proof (elem_late (py "WorkflowLog") [] PNone _ [] [] _ [] [] _ eq_refl eq_refl
    (map_res_cons_late et_tree _ _ _ _ _ _ S (map_res_cons_late et_tree _ _ _ _ _ _ F (eq_refl : map_res et_tree [] = late_res [] [])))) as G.
  cbn [app] in G. rewrite app_nil_r in G. exact G.
Qed.

Theorem mxml_write_outcome l : mxml_serialize l = match write_faults l with [] => Ok (log_doc l) | e :: _ => Raise e end.
Proof.
  unfold mxml_serialize, write_faults. pose proof (log_built l) as B. unfold built in B.
  destruct (log_fault l) as [|e el]; [|cbn [app]; now rewrite B]. destruct B as (n & -> & B). cbn [bind app]. rewrite B.
  assert (L : Forall (eq TypeError) (late_log l)).
  { unfold late_log, late_trace, late_event, late_field, late_reference, at_key, not_text, unshown.
    repeat first [apply Forall_app; split | apply Forall_flat_map; apply Forall_forall; intros ? _
                 | match goal with |- Forall _ (match ?x with _ => _ end) => destruct x end | constructor]; auto. }
  destruct (late_log l) as [|e el]; [reflexivity|]. inversion L. now subst.
Qed.
Theorem mxml_write_exceptions l e : mxml_serialize l = Raise e -> e = AttributeError \/ e = TypeError.
Proof.
  rewrite mxml_write_outcome. intros H.
  assert (F : Forall (fun e => e = AttributeError \/ e = TypeError) (write_faults l)).
  { unfold write_faults, log_fault, late_log, trace_fault, late_trace, event_fault, late_event, type_fault, name_fault, data_fault, field_fault,
      late_field, reference_fault, late_reference, at_key, not_text, unshown, no_value.
    repeat first [apply Forall_app; split | apply Forall_flat_map; apply Forall_forall; intros ? _
                 | match goal with |- Forall _ (match ?x with _ => _ end) => destruct x end | left; reflexivity | right; reflexivity | apply Forall_nil | apply Forall_cons]. }
  destruct (write_faults l) as [|e' el]; [discriminate|]. injection H as ->. now inversion F.
Qed.

(** Simple logs. *)
Lemma simple_key m k a : simple m -> sget k m = Some a -> a_key a = k
    /\ (In k text_keys -> texty a /\ a_cls a <> CTimestamp) /\ (k = py "time:timestamp" -> a_cls a = CTimestamp)
    /\ (k = py "semantic:modelReference" -> a_meta a = [])
    /\ forall r, sget (py "semantic:modelReference") (a_meta a) = Some r -> texty r.
Proof.
  intros S G. apply sget_in in G. unfold simple in S. rewrite Forall_forall in S. specialize (S _ G). cbn [fst snd] in S.
  destruct S as (A & B). now split.
Qed.
Lemma texty_fault a : texty a -> no_value a = [] /\ not_text a = [] /\ unshown a = [].
Proof. intros [C (s & V)]. unfold no_value, not_text, unshown. now rewrite C, V. Qed.
Lemma simple_reference m : (forall r, sget (py "semantic:modelReference") m = Some r -> texty r) -> reference_fault m = [] /\ late_reference m = [].
Proof.
  intros H. unfold reference_fault, late_reference, at_key. destruct (sget _ m) as [r|]; [|now split].
  destruct (texty_fault r (H r eq_refl)) as (A & B & _). now split.
Qed.
Lemma simple_own m : simple m -> forall r, sget (py "semantic:modelReference") m = Some r -> texty r.
Proof. intros S r G. destruct (simple_key m _ r S G) as (_ & T & _). apply T. unfold text_keys. cbn [In]. tauto. Qed.
Lemma simple_data m : simple m -> data_fault m = [].
Proof.
  intros S. unfold data_fault. unfold simple in S. induction S as [|[k a] m (E & T & _ & M & _) _ IH]; [reflexivity|]. cbn [fst snd map filter] in *.
  unfold refers at 1. destruct (str_eqb_spec (a_key a) (py "semantic:modelReference")) as [K|K]; [|exact IH].
  cbn [flat_map]. rewrite (M (eq_trans E K)). rewrite E, K in T.
  destruct T as [[C (s & V)] NT]; [unfold text_keys; cbn [In]; tauto|].
  assert (O : exists s', attr_str a = Ok s').
  { destruct a as [c ? ? v ? ?]. cbn in C, V, NT. destruct c; try discriminate; first [eexists; reflexivity|now destruct NT]. }
  destruct O as (s' & ->). exact IH.
Qed.
Lemma simple_at m k (f : attr -> list exn) : simple m -> (forall a, sget (py k) m = Some a -> f a = []) -> at_key k f m = [].
Proof. intros S H. unfold at_key. destruct (sget (py k) m); auto. Qed.
Lemma first_of_in ks m a : In a (first_of ks m) -> exists k, In k ks /\ sget (py k) m = Some a.
Proof.
  unfold first_of. intros I0. assert (J : In a (flat_map (fun k => match sget (py k) m with Some a => [a] | None => [] end) ks)).
  { destruct (flat_map _ ks); [destruct I0|]. destruct I0 as [<-|[]]. now left. }
  apply in_flat_map in J. destruct J as (k & K & J). exists k. split; [exact K|]. destruct (sget _ m); [|destruct J]. destruct J as [<-|[]]. reflexivity.
Qed.
Lemma flat_nil {A B} (f : A -> list B) l : (forall a, In a l -> f a = []) -> flat_map f l = [].
Proof. induction l as [|a l IH]; intros H; [reflexivity|]. cbn [flat_map]. rewrite (H a) by now left. apply IH. intros x I0. apply H. now right. Qed.

Lemma simple_event e : simple (ev_attrs e) -> event_fault e = [] /\ late_event e = [].
Proof.
  intros S. unfold event_fault, late_event. cbv zeta. set (m := ev_attrs e) in *.
  destruct (simple_reference m (simple_own m S)) as [R1 R2].
  assert (Q : forall k a, In k text_keys -> sget k m = Some a -> texty a /\ reference_fault (a_meta a) = [] /\ late_reference (a_meta a) = []).
  { intros k a K G. destruct (simple_key m k a S G) as (_ & T & _ & _ & M). split; [apply T, K|now apply simple_reference]. }
  assert (O : forall a, In a (originator m) -> texty a /\ reference_fault (a_meta a) = [] /\ late_reference (a_meta a) = []).
  { intros a I0. apply first_of_in in I0. destruct I0 as (k & K & G). apply (Q (py k) a); [|exact G].
    unfold text_keys. destruct K as [<-|[<-|[<-|[]]]]; cbn [In]; tauto. }
  assert (W : forall a, In a (first_of ["time:timestamp"%string] m) -> no_value a = [] /\ reference_fault (a_meta a) = [] /\ late_reference (a_meta a) = []).
  { intros a I0. apply first_of_in in I0. destruct I0 as (k & [<-|[]] & G). destruct (simple_key m _ a S G) as (_ & _ & T & _ & M).
    unfold no_value. rewrite (T eq_refl). split; [reflexivity|now apply simple_reference]. }
  rewrite (simple_data m S), R1, R2. cbn [app]. split.
  - rewrite (simple_at m "concept:name" no_value S).
    2: { intros a G. destruct (Q _ a (or_introl eq_refl) G) as [T _]. now apply texty_fault. }
    unfold type_fault. rewrite (simple_at m "lifecycle:transition" _ S).
    2: { intros a G. destruct (Q _ a (or_intror (or_introl eq_refl)) G) as ([C (s & V)] & -> & _). now rewrite C, V. }
    cbn [app]. rewrite flat_nil; [rewrite flat_nil; [reflexivity|]|].
    + intros a I0. destruct (W a I0) as (A & B & _). unfold field_fault. now rewrite A, B.
    + intros a I0. destruct (O a I0) as (A & B & _). unfold field_fault. rewrite B. now apply texty_fault.
  - rewrite (simple_at m "concept:name" unshown S).
    2: { intros a G. destruct (Q _ a (or_introl eq_refl) G) as [T _]. now apply texty_fault. }
    rewrite (simple_at m "lifecycle:transition" _ S).
    2: { intros a G. now destruct (Q _ a (or_intror (or_introl eq_refl)) G) as (_ & _ & ->). }
    cbn [app]. rewrite flat_nil; [rewrite flat_nil; [reflexivity|]|].
    + intros a I0. now destruct (W a I0) as (_ & _ & ->).
    + intros a I0. destruct (O a I0) as (A & _ & B). unfold late_field. rewrite B. now apply texty_fault.
Qed.
Lemma simple_head m : simple m -> name_fault m = [] /\ reference_fault m = [] /\ data_fault m = [] /\ late_reference m = [].
Proof.
  intros S. destruct (simple_reference m (simple_own m S)) as [-> ->]. rewrite (simple_data m S). repeat split.
  unfold name_fault. apply (simple_at m _ _ S). intros a G. destruct (simple_key m _ a S G) as (_ & T & _).
  destruct T as [[C (s & V)] _]; [now left|]. unfold no_value. now rewrite C, V.
Qed.
Theorem mxml_write_simple l : simple_log l -> mxml_serialize l = Ok (log_doc l).
Proof.
  intros [S TS]. rewrite mxml_write_outcome. unfold write_faults, log_fault, late_log. cbv zeta.
  destruct (simple_head _ S) as (-> & -> & -> & ->). cbn [app]. rewrite Forall_forall in TS.
  rewrite flat_nil; [rewrite flat_nil; [reflexivity|]|]; intros t I0; destruct (TS t I0) as [ST ES]; rewrite Forall_forall in ES;
    unfold trace_fault, late_trace; cbv zeta; destruct (simple_head _ ST) as (A & B & C & D); rewrite ?A, ?B, ?C, ?D; cbn [app]; apply flat_nil;
    intros e J; now apply simple_event, ES.
Qed.
End Write.
