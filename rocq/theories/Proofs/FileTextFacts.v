(** Proofs about the texts a file has to hold. *)
From Coq Require Import String NArith ZArith List Bool Lia.
From Verif Require Import Base.PyBase Base.PyDate Base.PyVal Base.Xml Model.Attr Model.Log Model.Token
  Model.Registry Model.XesWrite Model.XesRead Model.XmlText Model.XmlChars Spec.DateText Spec.Xes Spec.XmlNorm Spec.Survive Spec.FileTexts
  Proofs.AttrInd Proofs.BaseFacts Proofs.XmlTextFacts Proofs.XmlFileFacts Proofs.XesLogFacts Proofs.StatFacts Proofs.TokenFacts.
Import ListNotations.

(** ** Plain characters *)
Section Chars.
Variable q : N -> bool.
Hypothesis Q : forall c, (32 <= c)%N -> (c <= 126)%N -> q c = true.
Let good (s : pystr) : bool := forallb q s.

Lemma good_digit d : (d < 16)%N -> q (digit_char d) = true.
Proof. intros H. unfold digit_char. destruct (N.ltb_spec d 10); apply Q; lia. Qed.
Lemma good_digits l : Forall (fun d => (d < 16)%N) l -> good (map digit_char l) = true.
Proof. unfold good. induction 1; [reflexivity|]. cbn. rewrite good_digit by assumption. exact IHForall. Qed.
Lemma good_base b n : (2 <= b)%N -> (b <= 16)%N -> good (print_base b n) = true.
Proof.
  intros H1 H2. rewrite print_base_eq. apply good_digits. destruct (base_digits_spec b n H1) as (_ & F & _).
  eapply Forall_impl; [|exact F]. cbn. intros; lia.
Qed.
Lemma good_Z z : good (print_Z z) = true.
Proof.
  destruct z; cbn [print_Z]; unfold print_N.
  - apply good_base; lia.
  - apply good_base; lia.
  - unfold good. cbn [forallb]. rewrite (Q 45) by lia. apply good_base; lia.
Qed.
Lemma good_app a b : good (a ++ b) = good a && good b.
Proof. apply forallb_app. Qed.
Lemma good_py (s : pystr) : forallb (fun c => (32 <=? c)%N && (c <=? 126)%N) s = true -> good s = true.
Proof.
  unfold good. rewrite !forallb_forall. intros H c I. specialize (H c I). apply andb_true_iff in H as [A B].
  apply N.leb_le in A, B. now apply Q.
Qed.
Lemma good_pad w s : good s = true -> good (pad0 w s) = true.
Proof.
  intros H. unfold pad0. rewrite good_app, H, andb_true_r. unfold good. apply forallb_forall. intros c I.
  apply repeat_spec in I as ->. apply Q; lia.
Qed.
Lemma good_join sep l : good sep = true -> forallb good l = true -> good (join sep l) = true.
Proof.
  intros S. induction l as [|a [|b t] IH]; intros H; [reflexivity| |].
  - cbn in H. rewrite andb_true_r in H. exact H.
  - cbn [forallb] in H. apply andb_true_iff in H as [A B]. change (join sep (a :: b :: t)) with (a ++ sep ++ join sep (b :: t)).
    rewrite !good_app, A, S, (IH B). reflexivity.
Qed.
Lemma good_rev s : good (rev s) = good s.
Proof.
  apply Bool.eq_iff_eq_true. unfold good. rewrite !forallb_forall. split; intros H c I; apply H; now apply in_rev in I || (apply in_rev; rewrite rev_involutive).
Qed.
Lemma good_split_aux sep s : forall k acc, good acc = true -> good s = true -> forallb good (split_aux sep k acc s) = true.
Proof.
  induction s as [|c s IH]; intros k acc A S; cbn [split_aux].
  - cbn. now rewrite good_rev, A.
  - unfold good in S. cbn [forallb] in S. apply andb_true_iff in S as [C S]. destruct k; [|now apply IH].
    destruct (starts_with sep (c :: s)).
    + cbn [forallb]. rewrite good_rev, A. apply IH; [reflexivity | exact S].
    + apply IH; [|exact S]. unfold good. cbn. rewrite C. exact A.
Qed.
Lemma good_replace old new s : good new = true -> good s = true -> good (replace old new s) = true.
Proof. intros N S. apply good_join; [exact N|]. now apply good_split_aux. Qed.
Lemma good_firstn n s : good s = true -> good (firstn n s) = true.
Proof. unfold good. rewrite !forallb_forall. intros H c I. apply H. revert s I H. induction n; intros [|x s] I H; try destruct I; [now left|]. right. apply (IHn s); [assumption|]. intros; apply H; now right. Qed.
Lemma good_skipn n s : good s = true -> good (skipn n s) = true.
Proof. unfold good. rewrite !forallb_forall. intros H c I. apply H. clear H. revert s I. induction n; intros [|x s] I; cbn in *; auto. Qed.

Lemma good_uuid u : good (uuid_str u) = true.
Proof.
  unfold uuid_str. assert (H : good (hex32 u) = true) by (apply good_pad, good_base; lia).
  rewrite !good_app, !good_firstn, good_skipn by (repeat apply good_skipn; exact H).
  unfold good. cbn [forallb]. rewrite (Q 45) by lia. reflexivity.
Qed.

Lemma good_p2 z : good (p2 z) = true.
Proof. apply good_pad, good_Z. Qed.
Lemma good_zone z : tz_given_name z = None -> good (tz_name z) = true.
Proof.
  intros E. unfold tz_name. rewrite E. destruct (tz_off z =? 0)%Z; [apply good_py; reflexivity|]. cbv zeta.
  rewrite !good_app, !good_p2, (good_py (py "UTC")), (good_py (py ":")) by reflexivity.
  cbn [andb]. apply andb_true_iff. split; [destruct (tz_off z <? 0)%Z; apply good_py; reflexivity|].
  match goal with |- good (if ?b then _ else _) = true => destruct b end; [reflexivity|].
  rewrite !good_app, good_p2, (good_py (py ":")) by reflexivity. cbn [andb].
  match goal with |- good (if ?b then _ else _) = true => destruct b end; [reflexivity|].
  rewrite good_app, (good_py (py ".")) by reflexivity. cbn [andb]. apply good_pad, good_Z.
Qed.
Lemma good_date d : minute_zone d -> good (timestamp_str d) = true.
Proof.
  intros M. unfold timestamp_str, dt_digits, dt_zone_text, minute_zone in *.
  rewrite !good_app, !good_p2, !good_pad, !(good_py (py _)) by (reflexivity || apply good_Z). cbn [andb].
  destruct (tz d) as [z|]; [|apply good_py; reflexivity]. destruct M as [E _].
  repeat (apply good_replace; [apply good_py; reflexivity|]). now apply good_zone.
Qed.

(** ** Key lists *)
Lemma join_chars sep l : good sep = true -> good (join sep l) = forallb good l.
Proof.
  intros S. induction l as [|a [|b t] IH]; [reflexivity| |].
  - cbn. now rewrite andb_true_r.
  - change (join sep (a :: b :: t)) with (a ++ sep ++ join sep (b :: t)).
    rewrite !good_app, S, IH. reflexivity.
Qed.
Lemma split_chars c s : q c = true -> forall acc, forallb good (split_aux [c] 0 acc s) = good acc && good s.
Proof.
  intros C. induction s as [|x s IH]; intros acc; cbn [split_aux].
  - cbn. now rewrite good_rev, !andb_true_r.
  - cbn [starts_with]. destruct (N.eqb c x) eqn:E; cbn [andb].
    + apply N.eqb_eq in E as <-. cbn [List.length Nat.sub forallb]. rewrite IH, good_rev. unfold good. cbn [forallb]. rewrite C. reflexivity.
    + rewrite IH. unfold good. cbn [forallb]. rewrite andb_assoc, (andb_comm (q x)). reflexivity.
Qed.
Lemma dropped_good e : nonempty (replace (py " ") [] e) = false -> good e = true.
Proof.
  unfold nonempty. rewrite negb_false_iff, str_eqb_eq. unfold replace. intros E.
  assert (H : good (join [] (split (py " ") e)) = true) by (rewrite E; reflexivity).
  rewrite join_chars in H by reflexivity. unfold split in H. change (py " ") with [32%N] in H.
  rewrite split_chars in H by (apply Q; lia). exact H.
Qed.
Lemma format_chars ks : good (format_token ks) = forallb good ks.
Proof.
  unfold format_token. rewrite join_chars by (apply good_py; reflexivity).
  induction ks as [|k ks IH]; [reflexivity|]. cbn [map filter forallb].
  set (e := if Nat.ltb 1 (List.length (split (py " ") k)) then py "'" ++ k ++ py "'" else k).
  assert (E : good e = good k).
  { subst e. destruct (Nat.ltb _ _); [|reflexivity]. rewrite !good_app, (good_py (py "'")) by reflexivity. now rewrite andb_true_r. }
  destruct (nonempty (replace (py " ") [] e)) eqn:D.
  - cbn [forallb]. now rewrite E, IH.
  - apply dropped_good in D. rewrite <- E, D. exact IH.
Qed.
End Chars.

Lemma good_xid q : (forall c, (32 <= c)%N -> (c <= 126)%N -> q c = true) -> forall u, forallb q (xid_str u) = true.
Proof.
  intros Q u. unfold xid_str, upper.
  assert (U : forallb (fun c => q (upper_ascii c)) (uuid_str u) = true).
  { apply good_uuid. intros c A B. unfold upper_ascii.
    destruct (N.leb_spec 97 c), (N.leb_spec c 122); cbn [andb]; apply Q; lia. }
  rewrite <- U. generalize (uuid_str u). induction p as [|c s IH]; [reflexivity|]. cbn. now rewrite IH.
Qed.

(** ** Trees *)
Section Trees.
Context `{FIO : FloatIO}.
Variable q : N -> bool.
Hypothesis Q : forall c, (32 <= c)%N -> (c <= 126)%N -> q c = true.
Variable T : xnode -> bool.
Hypothesis T_elem : forall t a kids, T (XElem t a kids) = forallb (fun kv => forallb q (snd kv)) a && forallb T kids.
Let fine (l : list pystr) : bool := forallb (forallb q) l.

Lemma fine_app a b : fine (a ++ b) = fine a && fine b.
Proof. apply forallb_app. Qed.

Lemma value_fine c k e v coll meta s : is_collection c = false -> readable_value c v ->
  attr_str (mk_attr c k e v coll meta) = Ok s -> forallb q s = fine (value_texts v).
Proof.
  intros C R H. destruct c; try discriminate C; destruct v; try contradiction R; cbn [attr_str] in H;
    injection H as <-; unfold fine; cbn [value_texts forallb py_str]; rewrite ?andb_true_r; try reflexivity.
  - apply good_date; [exact Q | apply R].
  - apply good_Z, Q.
  - destruct b; apply good_py; try exact Q; reflexivity.
  - apply good_xid, Q.
Qed.

Lemma write_attr_fine a : forall n, readable a -> write_attr a = Ok n -> T n = fine (attr_texts a).
Proof.
  induction a as [c k e v coll meta IC IM] using attr_ind2. intros n R W.
  inversion R as [? RV RK]; subst. cbn [a_cls a_val] in RV. unfold kids_of in RK. cbn [a_cls a_coll a_meta] in RK.
  cbn [write_attr] in W. cbn [attr_texts]. destruct (is_collection c) eqn:C.
  - set (many := fix many (l : list attr) : res (list xnode) := _) in W.
    destruct (many coll) as [ns|x] eqn:E; [|discriminate]. cbn in W. injection W as <-.
    rewrite T_elem. unfold fine. cbn [forallb snd]. rewrite andb_true_r. f_equal.
    revert ns E. clear - IC RK. induction coll as [|x l IH]; intros ns E; cbn in E; [injection E as <-; reflexivity|].
    inversion_clear IC. inversion_clear RK.
    destruct (write_attr x) as [n|] eqn:X; [|discriminate].
    destruct (many l) as [ms|] eqn:M; [|discriminate]. injection E as <-.
    cbn [forallb flat_map]. rewrite (H n) by auto. unfold fine. rewrite forallb_app. f_equal. now apply IH.
  - destruct (attr_str _) as [s|] eqn:V; [|discriminate]. cbn [bind] in W.
    set (many := fix many (m : list (pystr * attr)) : res (list xnode) := _) in W.
    destruct (many meta) as [ns|x] eqn:E; [|discriminate]. cbn in W. injection W as <-.
    rewrite T_elem. unfold fine. cbn [forallb snd]. rewrite andb_true_r, <- andb_assoc. f_equal. rewrite forallb_app.
    rewrite (value_fine _ _ _ _ _ _ _ C RV V). fold fine. f_equal.
    revert ns E. clear - IM RK. induction meta as [|[j x] l IH]; intros ns E; cbn in E; [injection E as <-; reflexivity|].
    inversion_clear IM. inversion_clear RK. cbn [snd] in *.
    destruct (write_attr x) as [n|] eqn:X; [|discriminate].
    destruct (many l) as [ms|] eqn:M; [|discriminate]. injection E as <-.
    cbn [forallb flat_map]. rewrite (H n) by auto. unfold fine. rewrite forallb_app. f_equal. now apply IH.
Qed.

Lemma map_fine {A} (f : A -> res xnode) (g : A -> list pystr) (P : A -> Prop) :
  (forall x n, P x -> f x = Ok n -> T n = fine (g x)) ->
  forall l ns, Forall P l -> map_res f l = Ok ns -> forallb T ns = fine (flat_map g l).
Proof.
  intros H l. induction l as [|x l IH]; intros ns F M; cbn in M; [injection M as <-; reflexivity|].
  inversion_clear F. destruct (f x) as [n|] eqn:E; [|discriminate]. destruct (map_res f l) as [ms|] eqn:G; [|discriminate].
  injection M as <-. cbn [forallb flat_map]. rewrite fine_app, (H x n) by assumption. f_equal. now apply IH.
Qed.

Lemma attrs_fine l ns : Forall readable l -> add_attributes l = Ok ns -> forallb T ns = fine (flat_map attr_texts l).
Proof. apply map_fine. intros; now apply write_attr_fine. Qed.
Lemma map_attrs_fine m ns : readable_map m -> add_attributes (map snd m) = Ok ns -> forallb T ns = fine (map_texts m).
Proof.
  intros R W. rewrite (attrs_fine _ _ R W). unfold map_texts. f_equal.
  induction m as [|x m IH]; [reflexivity|]. cbn. f_equal. clear - m. induction m as [|x m IH]; [reflexivity|]. cbn. now rewrite IH.
Qed.
Lemma globals_fine scope l ns : forallb q scope = true -> Forall readable l -> add_global_attributes scope l = Ok ns ->
  forallb T ns = fine (flat_map attr_texts l).
Proof.
  intros S R W. destruct l as [|a l]; [injection W as <-; reflexivity|]. unfold add_global_attributes in W.
  destruct (add_attributes (a :: l)) as [ms|] eqn:E; [|discriminate]. injection W as <-.
  cbn [forallb]. rewrite T_elem, andb_true_r. cbn [forallb snd]. rewrite S. cbn [andb]. now apply attrs_fine.
Qed.

Lemma serialize_fine l doc : readable_log l -> xes_serialize l = Ok doc -> T doc = fine (log_texts l).
Proof.
  intros (RA & RT & RE & RL) W. unfold xes_serialize in W.
  destruct (add_global_attributes (py "trace") (lg_gtrace l)) as [gt|] eqn:GT; [|discriminate]. cbn [bind] in W.
  destruct (add_global_attributes (py "event") (lg_gevent l)) as [ge|] eqn:GE; [|discriminate]. cbn [bind] in W.
  destruct (add_attributes (map snd (lg_attrs l))) as [ns|] eqn:NS; [|discriminate]. cbn [bind] in W.
  destruct (map_res write_trace (lg_traces l)) as [ts|] eqn:TS; [|discriminate]. cbn [bind] in W. injection W as <-.
  rewrite T_elem. unfold log_texts. rewrite !fine_app, !forallb_app.
  replace (forallb (fun kv => forallb q (snd kv)) xes_features) with true.
  2: { unfold xes_features. cbn [forallb snd]. rewrite !(good_py q Q) by reflexivity. reflexivity. }
  cbn [andb]. f_equal.
  { induction (lg_exts l) as [|x xs IH]; [reflexivity|]. cbn [map forallb flat_map]. rewrite fine_app, IH. f_equal.
    unfold write_extension. rewrite T_elem. cbn [forallb snd]. now rewrite andb_true_r. }
  f_equal. { apply (globals_fine (py "trace")); [apply good_py; [exact Q | reflexivity] | exact RT | exact GT]. }
  f_equal. { apply (globals_fine (py "event")); [apply good_py; [exact Q | reflexivity] | exact RE | exact GE]. }
  f_equal.
  { induction (lg_classifiers l) as [|c cs IH]; [reflexivity|]. cbn [map forallb flat_map]. rewrite fine_app, IH. f_equal.
    unfold write_classifier. rewrite T_elem. cbn [forallb snd]. rewrite !andb_true_r.
    pose proof (format_chars q Q (cl_keys c)) as E. cbn beta in E. rewrite E. reflexivity. }
  f_equal. { now apply map_attrs_fine. }
  refine (map_fine write_trace trace_texts _ _ _ _ RL TS).
  intros t n [R1 R2] W. unfold write_trace in W.
  destruct (add_attributes (map snd (tr_attrs t))) as [ms|] eqn:M; [|discriminate]. cbn [bind] in W.
  destruct (map_res write_event (tr_events t)) as [es|] eqn:E; [|discriminate]. cbn [bind] in W. injection W as <-.
  rewrite T_elem. cbn [forallb andb]. rewrite forallb_app. unfold trace_texts. rewrite fine_app. f_equal; [now apply map_attrs_fine|].
  refine (map_fine write_event event_texts _ _ _ _ R2 E).
  intros e n R W. unfold write_event in W.
  destruct (add_attributes (map snd (ev_attrs e))) as [es'|] eqn:M'; [|discriminate]. cbn [bind] in W. injection W as <-.
  rewrite T_elem. cbn [forallb andb]. unfold event_texts. now apply map_attrs_fine.
Qed.
End Trees.

Section Logs.
Context `{FIO : FloatIO}.
Lemma fine_forall q (l : list pystr) : forallb (forallb q) l = true <-> Forall (fun s => forallb q s = true) l.
Proof. rewrite forallb_forall, Forall_forall. reflexivity. Qed.

Lemma log_legal l doc : readable_log l -> xes_serialize l = Ok doc -> (legal_tree doc = true <-> legal_log l).
Proof.
  intros R W. rewrite (fun Q => serialize_fine legal Q legal_tree (fun _ _ _ => eq_refl) l doc R W); [apply fine_forall|].
  intros c A B. unfold legal. apply N.leb_le in A as A'. rewrite A'. replace (c <=? 55295)%N with true by (symmetry; apply N.leb_le; lia).
  now rewrite !orb_true_r.
Qed.
Lemma log_calm l doc : readable_log l -> xes_serialize l = Ok doc -> (calm_tree doc = true <-> smooth_log l).
Proof.
  intros R W. 
  rewrite (fun Q => serialize_fine (fun c => negb ((c =? 9) || (c =? 10) || (c =? 13))%N) Q calm_tree (fun _ _ _ => eq_refl) l doc R W);
    [apply fine_forall|].
  intros c A B. destruct (N.eqb_spec c 9), (N.eqb_spec c 10), (N.eqb_spec c 13); solve [lia | reflexivity].
Qed.
Lemma smooth_calm l : readable_log l -> smooth_log l -> calm_log l.
Proof. intros R S doc W. now apply (log_calm l doc R W). Qed.
Lemma file_exists mgr urlparse draw l : readable_log l -> keyed_log l -> legal_log l -> smooth_log l ->
  exists l', stored mgr urlparse draw l l'
    /\ same_map mgr (lg_attrs l) (lg_attrs l') /\ Forall2 (same_trace mgr) (lg_traces l) (lg_traces l').
Proof.
  intros R K L S. pose proof (smooth_calm l R S) as C.
  destruct (stored_exists mgr urlparse draw l R K C) as (l' & H).
  - intros doc W. now apply (log_legal l doc R W).
  - exists l'. split; [exact H|]. now apply (stored_content mgr urlparse draw).
Qed.

(** ** Line breaks and tabs *)
Hypothesis F : forall f, calm (float_repr f) = true.
Let q (c : N) : bool := negb ((c =? 9) || (c =? 10) || (c =? 13))%N.
Lemma plain_calm c : (32 <= c)%N -> (c <= 126)%N -> q c = true.
Proof. intros A B. unfold q. destruct (N.eqb_spec c 9), (N.eqb_spec c 10), (N.eqb_spec c 13); solve [lia | reflexivity]. Qed.
Let same_value s : forallb q s = true -> normal_value s = s.
Proof. apply calm_value. Qed.

Lemma blanked_str c k e v coll meta : is_collection c = false -> readable_value c v ->
  exists s, attr_str (mk_attr c k e v coll meta) = Ok s
  /\ attr_str (blanked_attr (mk_attr c k e v coll meta)) = Ok (normal_value s).
Proof.
  intros C R. destruct c; try discriminate C; destruct v; try contradiction R; cbn [attr_str blanked_attr blanked_value];
    eexists; (split; [reflexivity|]); f_equal; cbn [py_str]; try reflexivity; symmetry; apply same_value.
  - apply good_date; [exact plain_calm | apply R].
  - apply good_Z, plain_calm.
  - apply F.
  - destruct b; reflexivity.
  - apply good_xid, plain_calm.
Qed.

Lemma write_blanked a : readable a -> exists n, write_attr a = Ok n /\ write_attr (blanked_attr a) = Ok (normal n).
Proof.
  induction a as [c k e v coll meta IC IM] using attr_ind2. intros R.
  inversion R as [? RV RK]; subst. cbn [a_cls a_val] in RV. unfold kids_of in RK. cbn [a_cls a_coll a_meta] in RK.
  destruct (is_collection c) eqn:C.
  - set (many := fix many (l : list attr) : res (list xnode) :=
        match l with
        | [] => Ok []
        | x :: t => match write_attr x with
                    | Ok n => match many t with Ok ns => Ok (n :: ns) | Raise e => Raise e end
                    | Raise e => Raise e
                    end
        end).
    assert (M : exists ns, many coll = Ok ns /\ many (map blanked_attr coll) = Ok (map normal ns)).
    { clear - IC RK. induction coll as [|x l IH]; [exists []; split; reflexivity|]. inversion_clear IC. inversion_clear RK.
      destruct (H H1) as (n & E1 & E2). destruct (IH H0 H2) as (ns & E3 & E4). exists (n :: ns).
      cbn [many map]. fold many. now rewrite E1, E2, E3, E4. }
    destruct M as (ns & M1 & M2). exists (XElem (xes_tag c) [(py "key", k)] ns).
    cbn [blanked_attr write_attr]. rewrite C. fold many. rewrite M1, M2. split; reflexivity.
  - set (many := fix many_map (m : list (pystr * attr)) : res (list xnode) :=
        match m with
        | [] => Ok []
        | (_, x) :: t => match write_attr x with
                         | Ok n => match many_map t with Ok ns => Ok (n :: ns) | Raise e => Raise e end
                         | Raise e => Raise e
                         end
        end).
    assert (M : exists ns, many meta = Ok ns
      /\ many (map (fun kv => (normal_value (fst kv), blanked_attr (snd kv))) meta) = Ok (map normal ns)).
    { clear - IM RK. induction meta as [|[j x] l IH]; [exists []; split; reflexivity|]. inversion_clear IM. inversion_clear RK.
      cbn [snd] in *. destruct (H H1) as (n & E1 & E2). destruct (IH H0 H2) as (ns & E3 & E4). exists (n :: ns).
      cbn [many map fst snd]. fold many. now rewrite E1, E2, E3, E4. }
    destruct M as (ns & M1 & M2). destruct (blanked_str c k e v coll meta C RV) as (s & S1 & S2).
    exists (XElem (xes_tag c) [(py "key", k); (py "value", s)] ns).
    cbn [blanked_attr write_attr] in *. rewrite C. fold many.
    split; [rewrite S1 | rewrite S2]; cbn [bind]; [rewrite M1 | rewrite M2]; reflexivity.
Qed.

Lemma writes_blanked {A} (f : A -> res xnode) (b : A -> A) (P : A -> Prop) :
  (forall x, P x -> exists n, f x = Ok n /\ f (b x) = Ok (normal n)) ->
  forall l, Forall P l -> exists ns, map_res f l = Ok ns /\ map_res f (map b l) = Ok (map normal ns).
Proof.
  intros H l. induction 1 as [|x l Px Pl (ns & E1 & E2)]; [exists []; split; reflexivity|].
  destruct (H x Px) as (n & E3 & E4). exists (n :: ns). cbn [map_res map]. now rewrite E1, E2, E3, E4.
Qed.
Lemma map_blanked m : readable_map m ->
  exists ns, add_attributes (map snd m) = Ok ns /\ add_attributes (map snd (blanked_map m)) = Ok (map normal ns).
Proof.
  intros R. replace (map snd (blanked_map m)) with (map blanked_attr (map snd m)).
  - apply (writes_blanked write_attr blanked_attr readable); [exact write_blanked | exact R].
  - unfold blanked_map. rewrite !map_map. reflexivity.
Qed.
Lemma globals_blanked scope l : calm scope = true -> Forall readable l ->
  exists ns, add_global_attributes scope l = Ok ns /\ add_global_attributes scope (map blanked_attr l) = Ok (map normal ns).
Proof.
  intros S R. destruct (writes_blanked write_attr blanked_attr readable write_blanked l R) as (ns & E1 & E2).
  destruct l as [|a l]; [exists []; split; reflexivity|]. cbn [map] in *. unfold add_global_attributes, add_attributes.
  rewrite E1, E2. cbn [bind]. eexists. split; [reflexivity|]. cbn [map normal fst snd]. now rewrite (calm_value scope S).
Qed.
Lemma event_blanked e : readable_map (ev_attrs e) ->
  exists n, write_event e = Ok n /\ write_event (blanked_event e) = Ok (normal n).
Proof.
  intros R. destruct (map_blanked _ R) as (ns & E1 & E2). unfold write_event. cbn [blanked_event ev_attrs].
  rewrite E1, E2. cbn [bind]. eexists. split; reflexivity.
Qed.
Lemma trace_blanked t : readable_map (tr_attrs t) /\ Forall (fun e => readable_map (ev_attrs e)) (tr_events t) ->
  exists n, write_trace t = Ok n /\ write_trace (blanked_trace t) = Ok (normal n).
Proof.
  intros [R1 R2]. destruct (map_blanked _ R1) as (ns & E1 & E2).
  destruct (writes_blanked write_event blanked_event _ event_blanked _ R2) as (es & E3 & E4).
  unfold write_trace. cbn [blanked_trace tr_attrs tr_events]. rewrite E1, E2, E3, E4. cbn [bind].
  eexists. split; [reflexivity|]. cbn [normal map]. now rewrite map_app.
Qed.
Lemma log_blanked l : readable_log l -> smooth_classifiers l ->
  exists doc, xes_serialize l = Ok doc /\ xes_serialize (blanked l) = Ok (normal doc).
Proof.
  intros (RA & RT & RE & RL) SC.
  destruct (globals_blanked (py "trace") _ eq_refl RT) as (gt & G1 & G2).
  destruct (globals_blanked (py "event") _ eq_refl RE) as (ge & G3 & G4).
  destruct (map_blanked _ RA) as (ns & N1 & N2).
  destruct (writes_blanked write_trace blanked_trace _ trace_blanked _ RL) as (ts & T1 & T2).
  unfold xes_serialize. cbn [blanked lg_gtrace lg_gevent lg_attrs lg_traces lg_exts lg_classifiers].
  rewrite G1, G2, G3, G4, N1, N2, T1, T2. cbn [bind]. eexists. split; [reflexivity|].
  cbn [normal]. rewrite !map_app, !map_map.
  replace (map (fun x => normal (write_classifier x)) (lg_classifiers l)) with (map write_classifier (lg_classifiers l)).
  - reflexivity.
  - apply map_ext_in. intros c I. unfold smooth_classifiers in SC. rewrite Forall_forall in SC. specialize (SC c I).
    inversion SC as [|? ? S1 S2]; subst. unfold write_classifier. cbn [normal map fst snd]. rewrite (calm_value _ S1).
    rewrite (calm_value (format_token (cl_keys c))); [reflexivity|].
    change (forallb q (format_token (cl_keys c)) = true).
    pose proof (format_chars q plain_calm (cl_keys c)) as E. cbn beta in E. rewrite E.
    apply forallb_forall. rewrite Forall_forall in S2. exact S2.
Qed.

Lemma blanked_file mgr urlparse draw l : readable_log l -> legal_log l -> smooth_classifiers l ->
  readable_log (blanked l) -> keyed_log (blanked l) ->
  exists l', stored mgr urlparse draw l l'
    /\ same_map mgr (blanked_map (lg_attrs l)) (lg_attrs l')
    /\ Forall2 (same_trace mgr) (map blanked_trace (lg_traces l)) (lg_traces l').
Proof.
  intros R L SC RB K. destruct (log_blanked l R SC) as (doc & W & WB).
  destruct (xes_file l doc W (proj2 (log_legal l doc R W) L)) as (text & es & WX & RX & P).
  destruct (log_roundtrip_same mgr urlparse draw (blanked l) RB K) as (doc' & W' & B).
  rewrite WB in W'. injection W' as <-. destruct (B _ eq_refl) as (s & r & l' & X & PL & LI & A & T & _).
  exists l'. split; [|split; [exact A | exact T]].
  exists doc, text, es, s, r. rewrite P. auto 10.
Qed.

Lemma blanked_readable a : readable a -> readable (blanked_attr a).
Proof.
  induction a as [c k e v coll meta IC IM] using attr_ind2. intros R. inversion R as [? RV RK]; subst.
  constructor; cbn [blanked_attr a_cls a_val] in *.
  - destruct c, v; try contradiction RV; exact RV.
  - unfold kids_of in *. cbn [a_cls a_coll a_meta] in *. destruct (is_collection c).
    + rewrite Forall_map. rewrite Forall_forall in *. auto.
    + rewrite map_map. cbn [snd]. rewrite Forall_map in *. rewrite Forall_forall in *. auto.
Qed.
Lemma blanked_readable_map m : readable_map m -> readable_map (blanked_map m).
Proof.
  unfold readable_map, blanked_map. rewrite map_map. cbn [snd]. rewrite !Forall_map, !Forall_forall.
  intros H x I. apply blanked_readable. auto.
Qed.
Lemma blanked_readable_log l : readable_log l -> readable_log (blanked l).
Proof.
  intros (RA & RT & RE & RL). split; [now apply blanked_readable_map|].
  split; [cbn; rewrite Forall_map; eapply Forall_impl; [|exact RT]; apply blanked_readable|].
  split; [cbn; rewrite Forall_map; eapply Forall_impl; [|exact RE]; apply blanked_readable|].
  cbn. rewrite Forall_map. eapply Forall_impl; [|exact RL]. intros t [R1 R2]. split; [now apply blanked_readable_map|].
  cbn. rewrite Forall_map. eapply Forall_impl; [|exact R2]. intros e. apply blanked_readable_map.
Qed.
End Logs.
