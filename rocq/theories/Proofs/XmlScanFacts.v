(** Lemmas about the textual layer of XML. *)
From Coq Require Import String NArith ZArith List Bool Lia.
From Verif Require Import Base.PyBase Base.Xml Model.XmlText Model.XmlChars Spec.XmlNorm
  Proofs.BaseFacts Proofs.XesReadFacts Proofs.MxmlRoundFacts.
Import ListNotations.
Local Open Scope N_scope.

(** ** Line breaks *)
Definition no_cr (s : pystr) : bool := forallb (fun c => negb (c =? 13)) s.
Lemma no_cr_app a b : no_cr (a ++ b) = no_cr a && no_cr b. Proof. apply forallb_app. Qed.
Lemma newlines_keep a : forall b, no_cr a = true -> newlines (a ++ b) = a ++ newlines b.
Proof.
  induction a as [|c a IH]; intros b H; [reflexivity|]. cbn in H. apply andb_prop in H. destruct H as [H1 H2].
  cbn [app newlines]. destruct (c =? 13); [discriminate|]. now rewrite IH.
Qed.
Lemma newlines_id a : no_cr a = true -> newlines a = a.
Proof. intros H. rewrite <- (app_nil_r a) at 1. rewrite newlines_keep by exact H. apply app_nil_r. Qed.

(** Induction two characters at a time. *)
Lemma two_ind (P : pystr -> Prop) : P [] -> (forall c, P [c]) -> (forall c d r, P r -> P (d :: r) -> P (c :: d :: r)) -> forall s, P s.
Proof.
  intros P0 P1 P2 s. assert (H : P s /\ forall c, P (c :: s)); [|exact (proj1 H)].
  induction s as [|d s [IH1 IH2]]; [auto|]. split; [apply IH2|]. intros c. apply P2; auto.
Qed.
Lemma newlines_no_cr s : no_cr (newlines s) = true.
Proof.
  pattern s; apply two_ind; clear s; [|intros c|intros c d r IH1 IH2]; [reflexivity| |].
  - cbn [newlines]. destruct (c =? 13) eqn:E; cbn; [reflexivity|now rewrite E].
  - cbn [newlines] in *. destruct (c =? 13) eqn:E.
    + destruct (d =? 10) eqn:D; cbn; [exact IH1|exact IH2].
    + cbn [no_cr forallb]. rewrite E. exact IH2.
Qed.
Lemma newlines_twice s : newlines (newlines s) = newlines s. Proof. apply newlines_id, newlines_no_cr. Qed.
Lemma newlines_forall (p : N -> bool) s : p 10 = true -> forallb p s = true -> forallb p (newlines s) = true.
Proof.
  intros P10. pattern s; apply two_ind; clear s; [|intros c|intros c d r IH1 IH2]; intros H; [reflexivity| |].
  - cbn [newlines]. destruct (c =? 13); [cbn; now rewrite P10|exact H].
  - cbn [forallb] in H. apply andb_prop in H. destruct H as [H1 H2]. apply andb_prop in H2 as H3. destruct H3 as [_ H3].
    cbn [newlines] in *. destruct (c =? 13) eqn:E.
    + destruct (d =? 10); cbn [forallb]; rewrite P10; [exact (IH1 H3)|exact (IH2 H2)].
    + cbn [forallb]. rewrite H1. exact (IH2 H2).
Qed.
Lemma newlines_nil s : newlines s = [] <-> s = [].
Proof. split; [|intros ->; reflexivity]. destruct s as [|c r]; [reflexivity|]. cbn. destruct (c =? 13); discriminate. Qed.

(** An escape that leaves CR and LF alone and writes neither otherwise. *)
Definition line_safe (esc : N -> pystr) : Prop :=
  esc 13 = [13] /\ esc 10 = [10] /\ forall c, c <> 13 -> c <> 10 -> no_cr (esc c) = true /\ exists x w, esc c = x :: w /\ x <> 10.
Lemma newlines_esc esc s : line_safe esc -> forall rest, hd 0 rest <> 10 ->
  newlines (flat_map esc s ++ rest) = flat_map esc (newlines s) ++ newlines rest.
Proof.
  intros (E13 & E10 & EO) rest R.
  pattern s; apply two_ind; clear s; [|intros c|intros c d r IH1 IH2]; [reflexivity| |].
  - cbn [flat_map]. rewrite app_nil_r. destruct (N.eq_dec c 13) as [->|N13].
    + rewrite E13. cbn [newlines app flat_map N.eqb Pos.eqb]. rewrite E10. cbn [app]. f_equal.
      destruct rest as [|x rest]; [reflexivity|]. cbn in R. destruct (x =? 10) eqn:X; [apply N.eqb_eq in X; contradiction|reflexivity].
    + assert (NC : no_cr (esc c) = true).
      { destruct (N.eq_dec c 10) as [->|N10]; [now rewrite E10|now apply EO]. }
      rewrite newlines_keep by exact NC. f_equal. cbn [newlines]. destruct (N.eqb_spec c 13); [contradiction|]. cbn. now rewrite app_nil_r.
  - cbn [flat_map]. rewrite <- app_assoc. destruct (N.eq_dec c 13) as [->|N13].
    + rewrite E13. cbn [app]. change (newlines (13 :: d :: r)) with (10 :: if d =? 10 then newlines r else newlines (d :: r)).
      destruct (N.eq_dec d 10) as [->|D10].
      * rewrite E10. cbn [app newlines N.eqb Pos.eqb flat_map]. rewrite E10. cbn [app]. f_equal. exact IH1.
      * destruct (N.eqb_spec d 10); [contradiction|].
        change (newlines (13 :: (esc d ++ flat_map esc r) ++ rest))
          with (10 :: match (esc d ++ flat_map esc r) ++ rest with
                      | x :: r' => if x =? 10 then newlines r' else newlines ((esc d ++ flat_map esc r) ++ rest)
                      | [] => [] end).
        assert (H : match (esc d ++ flat_map esc r) ++ rest with
                      | x :: r' => if x =? 10 then newlines r' else newlines ((esc d ++ flat_map esc r) ++ rest)
                      | [] => [] end = newlines ((esc d ++ flat_map esc r) ++ rest)).
        { destruct ((esc d ++ flat_map esc r) ++ rest) as [|x y] eqn:Q; [reflexivity|].
          destruct (N.eqb_spec x 10) as [->|]; [|reflexivity]. exfalso.
          destruct (N.eq_dec d 13) as [->|D13]; [rewrite E13 in Q; discriminate|].
          destruct (EO d D13 D10) as [_ (z & w & ED & HD)]. rewrite ED in Q. cbn in Q. injection Q as -> _. now apply HD. }
        rewrite H. cbn [flat_map]. rewrite E10. cbn [app]. f_equal. exact IH2.
    + assert (NC : no_cr (esc c) = true).
      { destruct (N.eq_dec c 10) as [->|N10]; [now rewrite E10|now apply EO]. }
      rewrite newlines_keep by exact NC. change (newlines (c :: d :: r)) with (if c =? 13 then 10 :: (if d =? 10 then newlines r else newlines (d :: r)) else c :: newlines (d :: r)).
      destruct (N.eqb_spec c 13); [contradiction|]. cbn [flat_map]. rewrite <- (app_assoc (esc c) (flat_map esc (newlines (d :: r)))). f_equal. exact IH2.
Qed.
Ltac line_safe_tac := split; [reflexivity|split; [reflexivity|]]; intros c N1 N2.
Lemma cdata_safe : line_safe esc_cdata.
Proof.
  line_safe_tac. unfold esc_cdata. destruct (c =? 38); [split; [reflexivity|now eexists _, _]|].
  destruct (c =? 60); [split; [reflexivity|now eexists _, _]|]. destruct (c =? 62); [split; [reflexivity|now eexists _, _]|].
  split; [cbn; destruct (N.eqb_spec c 13); [contradiction|reflexivity]|]. exists c, []. auto.
Qed.
Lemma dom_safe : line_safe esc_dom.
Proof.
  line_safe_tac. unfold esc_dom. destruct (c =? 38); [split; [reflexivity|now eexists _, _]|].
  destruct (c =? 60); [split; [reflexivity|now eexists _, _]|]. destruct (c =? 34); [split; [reflexivity|now eexists _, _]|].
  destruct (c =? 62); [split; [reflexivity|now eexists _, _]|].
  split; [cbn; destruct (N.eqb_spec c 13); [contradiction|reflexivity]|]. exists c, []. auto.
Qed.
Lemma attrib_no_cr s : no_cr (flat_map esc_attrib s) = true.
Proof.
  induction s as [|c s IH]; [reflexivity|]. cbn [flat_map]. rewrite no_cr_app, IH, andb_true_r. unfold esc_attrib.
  destruct (c =? 38); [reflexivity|]. destruct (c =? 60); [reflexivity|]. destruct (c =? 62); [reflexivity|]. destruct (c =? 34); [reflexivity|].
  destruct (c =? 13) eqn:E; [reflexivity|]. destruct (c =? 10); [reflexivity|]. destruct (c =? 9); [reflexivity|]. cbn. now rewrite E.
Qed.

(** ** The reader, step by step *)
Definition prepend (es : list sax) (o : option (list sax)) : option (list sax) := option_map (app es) o.
Lemma prepend_nil o : prepend [] o = o. Proof. destruct o; reflexivity. Qed.
Lemma prepend_app a b o : prepend a (prepend b o) = prepend (a ++ b) o.
Proof. destruct o; [|reflexivity]. cbn. now rewrite app_assoc. Qed.
Lemma scan_cons c r s s' es : scan_char s c = Some (s', es) -> scan_from (c :: r) s = prepend es (scan_from r s').
Proof. intros H. cbn [scan_from]. rewrite H. reflexivity. Qed.
Lemma scan_quiet c r m o b m' : scan_char (mk_scan m o b) c = Some (mk_scan m' o b, []) ->
  scan_from (c :: r) (mk_scan m o b) = scan_from r (mk_scan m' o b).
Proof. intros H. rewrite (scan_cons _ _ _ _ _ H). apply prepend_nil. Qed.

Lemma range_legal c : 32 <= c -> c <= 55295 -> legal c = true.
Proof. intros H1 H2. unfold legal. apply N.leb_le in H1, H2. rewrite H1, H2. cbn. now rewrite !orb_true_r. Qed.
Lemma name_char_range c : name_char c = true -> 45 <= c /\ c <= 122 /\ c <> 47 /\ c <> 60 /\ c <> 61 /\ c <> 62 /\ c <> 63.
Proof.
  unfold name_char, name_start. rewrite !orb_true_iff, !andb_true_iff, !N.leb_le, !N.eqb_eq. lia.
Qed.
Lemma name_char_legal c : name_char c = true -> legal c = true.
Proof. intros H. apply name_char_range in H. apply range_legal; lia. Qed.
Lemma name_start_char c : name_start c = true -> name_char c = true.
Proof. unfold name_char. now intros ->. Qed.
Lemma name_char_space c : name_char c = true -> xml_space c = false.
Proof. intros H. apply name_char_range in H. unfold xml_space. rewrite !orb_false_iff, !N.eqb_neq. lia. Qed.
Lemma eqb_false a b : a <> b -> (a =? b) = false. Proof. apply N.eqb_neq. Qed.

Lemma scan_open n : forall t rest o b, forallb name_char n = true ->
  scan_from (n ++ rest) (mk_scan (MOpen t) o b) = scan_from rest (mk_scan (MOpen (t ++ n)) o b).
Proof.
  induction n as [|c n IH]; intros t rest o b H; [now rewrite app_nil_r|]. cbn [forallb] in H. apply andb_prop in H. destruct H as [H1 H2].
  cbn [app]. rewrite (scan_quiet c (n ++ rest) (MOpen t) o b (MOpen (t ++ [c]))).
  - rewrite IH by exact H2. now rewrite <- app_assoc.
  - unfold scan_char. rewrite (name_char_legal c H1). cbn [negb sc_mode]. rewrite H1. reflexivity.
Qed.
Lemma scan_key n : forall t a k rest o b, forallb name_char n = true ->
  scan_from (n ++ rest) (mk_scan (MKey t a k) o b) = scan_from rest (mk_scan (MKey t a (k ++ n)) o b).
Proof.
  induction n as [|c n IH]; intros t a k rest o b H; [now rewrite app_nil_r|]. cbn [forallb] in H. apply andb_prop in H. destruct H as [H1 H2].
  cbn [app]. rewrite (scan_quiet c (n ++ rest) (MKey t a k) o b (MKey t a (k ++ [c]))).
  - rewrite IH by exact H2. now rewrite <- app_assoc.
  - unfold scan_char. rewrite (name_char_legal c H1). cbn [negb sc_mode]. rewrite H1. reflexivity.
Qed.
Lemma scan_close n : forall t rest o b, forallb name_char n = true ->
  scan_from (n ++ rest) (mk_scan (MClose t) o b) = scan_from rest (mk_scan (MClose (t ++ n)) o b).
Proof.
  induction n as [|c n IH]; intros t rest o b H; [now rewrite app_nil_r|]. cbn [forallb] in H. apply andb_prop in H. destruct H as [H1 H2].
  cbn [app]. rewrite (scan_quiet c (n ++ rest) (MClose t) o b (MClose (t ++ [c]))).
  - rewrite IH by exact H2. now rewrite <- app_assoc.
  - unfold scan_char. rewrite (name_char_legal c H1). cbn [negb sc_mode]. rewrite H1. reflexivity.
Qed.

(** Text, as written by an escape [esc]. *)
Definition text_ok (esc : N -> pystr) : Prop := forall c rest o0 o b, legal c = true ->
  scan_from (esc c ++ rest) (mk_scan MText (o0 :: o) b) = prepend [SChars [c]] (scan_from rest (mk_scan MText (o0 :: o) b)).
(** Values, where a character [c] comes out as [tr c]. *)
Definition value_ok (ok : N -> bool) (esc : N -> pystr) (tr : N -> N) : Prop := forall c rest t a k v o b, ok c = true ->
  scan_from (esc c ++ rest) (mk_scan (MValue t a k v) o b) = scan_from rest (mk_scan (MValue t a k (v ++ [tr c])) o b).

(** Several characters at once. *)
Fixpoint run (cs : pystr) (s : scan) : option (scan * list sax) :=
  match cs with
  | [] => Some (s, [])
  | c :: r => match scan_char s c with
              | Some (s', es) => match run r s' with Some (s2, es2) => Some (s2, es ++ es2) | None => None end
              | None => None
              end
  end.
Lemma scan_run cs : forall s s' es rest, run cs s = Some (s', es) -> scan_from (cs ++ rest) s = prepend es (scan_from rest s').
Proof.
  induction cs as [|c cs IH]; intros s s' es rest H; cbn [run] in H.
  - injection H as <- <-. now rewrite prepend_nil.
  - destruct (scan_char s c) as [[s1 e1]|] eqn:E; [|discriminate]. destruct (run cs s1) as [[s2 e2]|] eqn:R; [|discriminate].
    injection H as <- <-. cbn [app]. rewrite (scan_cons _ _ _ _ _ E), (IH _ _ _ _ R). apply prepend_app.
Qed.
Lemma run_quiet cs s s' rest : run cs s = Some (s', []) -> scan_from (cs ++ rest) s = scan_from rest s'.
Proof. intros H. rewrite (scan_run _ _ _ _ _ H). apply prepend_nil. Qed.

Lemma raw_text c rest o0 o b : legal c = true -> c <> 38 -> c <> 60 ->
  scan_from (c :: rest) (mk_scan MText (o0 :: o) b) = prepend [SChars [c]] (scan_from rest (mk_scan MText (o0 :: o) b)).
Proof.
  intros L N1 N2. apply scan_cons. unfold scan_char. rewrite L. cbn [negb sc_mode sc_open].
  now rewrite (eqb_false c 60 N2), (eqb_false c 38 N1).
Qed.
Lemma raw_value c rest t a k v o b : legal c = true -> c <> 38 -> c <> 60 -> c <> 34 ->
  scan_from (c :: rest) (mk_scan (MValue t a k v) o b)
  = scan_from rest (mk_scan (MValue t a k (v ++ [if xml_space c then 32 else c])) o b).
Proof.
  intros L N1 N2 N3. apply scan_quiet. unfold scan_char. rewrite L. cbn [negb sc_mode].
  unfold quote. rewrite (eqb_false c 34 N3), (eqb_false c 38 N1), (eqb_false c 60 N2). reflexivity.
Qed.
Ltac eqcase u x := destruct (N.eqb_spec u x) as [->|?]; [first [now apply scan_run|now apply run_quiet]|].
Lemma cdata_text : text_ok esc_cdata.
Proof. intros c rest o0 o b L. unfold esc_cdata. eqcase c 38. eqcase c 60. eqcase c 62. now apply raw_text. Qed.
Lemma dom_text : text_ok esc_dom.
Proof. intros c rest o0 o b L. unfold esc_dom. eqcase c 38. eqcase c 60. eqcase c 34. eqcase c 62. now apply raw_text. Qed.
Lemma blank_space c : c <> 13 -> (if xml_space c then 32 else c) = blank_char c.
Proof.
  intros _. unfold xml_space, blank_char. destruct (N.eqb_spec c 32) as [->|]; [reflexivity|]. reflexivity.
Qed.
Lemma attrib_value : value_ok legal esc_attrib (fun c => c).
Proof.
  intros c rest t a k v o b L. unfold esc_attrib. eqcase c 38. eqcase c 60. eqcase c 62. eqcase c 34. eqcase c 13. eqcase c 10. eqcase c 9.
  cbn [app]. rewrite raw_value by assumption. replace (if xml_space c then 32 else c) with c; [reflexivity|].
  unfold xml_space. rewrite (eqb_false c 9), (eqb_false c 10) by assumption. destruct (N.eqb_spec c 32) as [->|]; reflexivity.
Qed.
Definition plain (c : N) : bool := legal c && negb (c =? 13).
Lemma dom_value : value_ok plain esc_dom blank_char.
Proof.
  intros c rest t a k v o b L. apply andb_prop in L. destruct L as [L L2]. apply negb_true_iff in L2. apply N.eqb_neq in L2.
  unfold esc_dom. eqcase c 38. eqcase c 60. eqcase c 34. eqcase c 62.
  cbn [app]. rewrite raw_value by assumption. now rewrite blank_space.
Qed.

Definition chars (s : pystr) : list sax := map (fun c => SChars [c]) s.
Lemma scan_text esc : text_ok esc -> forall s rest o0 o b, legal_text s = true ->
  scan_from (flat_map esc s ++ rest) (mk_scan MText (o0 :: o) b) = prepend (chars s) (scan_from rest (mk_scan MText (o0 :: o) b)).
Proof.
  intros E. induction s as [|c s IH]; intros rest o0 o b H; [now rewrite prepend_nil|].
  cbn in H. apply andb_prop in H. destruct H as [H1 H2]. cbn [flat_map chars map]. rewrite <- app_assoc, E by exact H1.
  rewrite IH by exact H2. now rewrite prepend_app.
Qed.
Lemma scan_value ok esc tr : value_ok ok esc tr -> forall s rest t a k v o b, forallb ok s = true ->
  scan_from (flat_map esc s ++ rest) (mk_scan (MValue t a k v) o b) = scan_from rest (mk_scan (MValue t a k (v ++ map tr s)) o b).
Proof.
  intros E. induction s as [|c s IH]; intros rest t a k v o b H; [now rewrite app_nil_r|].
  cbn in H. apply andb_prop in H. destruct H as [H1 H2]. cbn [flat_map map]. rewrite <- app_assoc, E by exact H1.
  rewrite IH by exact H2. now rewrite <- app_assoc.
Qed.

(** The attributes of a start tag. *)
Definition tag_mode (t : pystr) (a : sdict pystr) : mode := match a with [] => MOpen t | _ => MTag t a end.
Definition on_atts (f : pystr -> pystr) (a : sdict pystr) : sdict pystr := map (fun kv => (fst kv, f (snd kv))) a.
Lemma on_atts_keys f a : map fst (on_atts f a) = map fst a.
Proof. unfold on_atts. rewrite map_map. reflexivity. Qed.
Lemma tag_space t a rest o b : scan_from (32 :: rest) (mk_scan (tag_mode t a) o b) = scan_from rest (mk_scan (MSpace t a) o b).
Proof. apply scan_quiet. destruct a; reflexivity. Qed.
Lemma smem_keys k (a : sdict pystr) : smem k a = existsb (str_eqb k) (map fst a).
Proof.
  induction a as [|[x v] a IH]; [reflexivity|]. unfold smem, dict_mem in *. cbn [dict_get map fst existsb].
  destruct (str_eqb k x); [reflexivity|]. exact IH.
Qed.
Lemma scan_att ok esc tr : value_ok ok esc tr -> forall k v t a rest o b,
  simple_name k = true -> forallb ok v = true -> smem k a = false ->
  scan_from (print_att esc (k, v) ++ rest) (mk_scan (tag_mode t a) o b) = scan_from rest (mk_scan (tag_mode t (a ++ [(k, map tr v)])) o b).
Proof.
  intros E k v t a rest o b HK HV HM. unfold print_att. cbn [fst snd]. rewrite <- !app_assoc. cbn [app].
  rewrite tag_space. destruct k as [|c k]; [discriminate|]. cbn in HK. apply andb_prop in HK. destruct HK as [HC HK].
  pose proof (name_start_char c HC) as HC'. pose proof (name_char_range c HC') as R. cbn [app].
  rewrite (scan_quiet c _ (MSpace t a) o b (MKey t a [c])).
  2:{ unfold scan_char. rewrite (name_char_legal c HC'). cbn [negb sc_mode]. rewrite (name_char_space c HC'), HC, (eqb_false c 47), (eqb_false c 62) by lia. reflexivity. }
  rewrite scan_key by exact HK. cbn [app].
  rewrite (scan_quiet 61 _ (MKey t a (c :: k)) o b (MEq t a (c :: k))).
  2:{ unfold scan_char. cbn [sc_mode legal negb]. change (negb (legal 61)) with false. change (name_char 61) with false. cbn [N.eqb Pos.eqb]. rewrite HM. reflexivity. }
  rewrite (scan_quiet quote _ (MEq t a (c :: k)) o b (MValue t a (c :: k) [])) by reflexivity.
  rewrite (scan_value ok esc tr E) by exact HV. cbn [app].
  rewrite (scan_quiet quote _ _ o b (tag_mode t (a ++ [(c :: k, map tr v)]))); [reflexivity|].
  unfold tag_mode. destruct a; reflexivity.
Qed.
Lemma existsb_str k l : existsb (str_eqb k) l = false <-> ~ In k l.
Proof.
  split.
  - intros H HI. assert (X : existsb (str_eqb k) l = true) by (apply existsb_exists; exists k; split; [exact HI|apply str_eqb_refl]). congruence.
  - intros H. destruct (existsb (str_eqb k) l) eqn:E; [|reflexivity]. apply existsb_exists in E. destruct E as (y & HY & EY).
    apply str_eqb_eq in EY. subst. contradiction.
Qed.
Lemma scan_atts ok esc tr : value_ok ok esc tr -> forall l t a rest o b,
  forallb (fun kv => simple_name (fst kv)) l = true -> forallb (fun kv => forallb ok (snd kv)) l = true ->
  distinct (map fst l) = true -> (forall k, In k (map fst l) -> ~ In k (map fst a)) ->
  scan_from (flat_map (print_att esc) l ++ rest) (mk_scan (tag_mode t a) o b) = scan_from rest (mk_scan (tag_mode t (a ++ on_atts (map tr) l)) o b).
Proof.
  intros E. induction l as [|[k v] l IH]; intros t a rest o b HK HV HD HA; [cbn; now rewrite app_nil_r|].
  cbn [forallb fst snd map distinct] in *. apply andb_prop in HK, HV, HD. destruct HK as [HK1 HK2], HV as [HV1 HV2], HD as [HD1 HD2].
  cbn [flat_map]. rewrite <- app_assoc, (scan_att ok esc tr E).
  - rewrite IH; auto.
    + unfold on_atts. cbn [map fst snd]. now rewrite <- app_assoc.
    + intros k' H1 H2. rewrite map_app in H2. apply in_app_or in H2. destruct H2 as [H2|[H2|[]]]; [now apply (HA k'); [right|]|].
      cbn in H2. subst k'. apply negb_true_iff in HD1. apply existsb_str in HD1. contradiction.
  - exact HK1.
  - exact HV1.
  - rewrite smem_keys. apply existsb_str. apply HA. now left.
Qed.

(** From the [<] to the end of the attributes. *)
Lemma scan_start ok esc tr : value_ok ok esc tr -> forall t a rest o b,
  simple_name t = true -> forallb (fun kv => simple_name (fst kv)) a = true -> forallb (fun kv => forallb ok (snd kv)) a = true ->
  distinct (map fst a) = true ->
  scan_from (60 :: t ++ flat_map (print_att esc) a ++ rest) (mk_scan MText o b) = scan_from rest (mk_scan (tag_mode t (on_atts (map tr) a)) o b).
Proof.
  intros E t a rest o b HT HK HV HD. rewrite (scan_quiet 60 _ MText o b MLt) by reflexivity.
  destruct t as [|c t]; [discriminate|]. cbn in HT. apply andb_prop in HT. destruct HT as [HC HT].
  pose proof (name_start_char c HC) as HC'. pose proof (name_char_range c HC') as R. cbn [app].
  rewrite (scan_quiet c _ MLt o b (MOpen [c])).
  2:{ unfold scan_char. rewrite (name_char_legal c HC'). cbn [negb sc_mode]. rewrite HC, (eqb_false c 33), (eqb_false c 63), (eqb_false c 47) by lia. reflexivity. }
  rewrite scan_open by exact HT. cbn [app]. change (MOpen (c :: t)) with (tag_mode (c :: t) []). now rewrite (scan_atts ok esc tr E); auto.
Qed.
Definition may_start (o : list pystr) (b : bool) : Prop := o = [] -> b = false.
Lemma scan_gt t a rest o b : may_start o b ->
  scan_from (62 :: rest) (mk_scan (tag_mode t a) o b) = prepend [SStart t a] (scan_from rest (mk_scan MText (t :: o) true)).
Proof.
  intros M. apply scan_cons. destruct o as [|o0 o]; [rewrite (M eq_refl)|]; destruct a; reflexivity.
Qed.
Lemma scan_slash t a rest o b : may_start o b ->
  scan_from (47 :: 62 :: rest) (mk_scan (tag_mode t a) o b) = prepend [SStart t a; SEnd t] (scan_from rest (mk_scan MText o true)).
Proof.
  intros M. apply (scan_run [47; 62]). destruct o as [|o0 o]; [rewrite (M eq_refl)|]; destruct a; reflexivity.
Qed.
Lemma scan_space_slash t a rest o b : may_start o b ->
  scan_from (32 :: 47 :: 62 :: rest) (mk_scan (tag_mode t a) o b) = prepend [SStart t a; SEnd t] (scan_from rest (mk_scan MText o true)).
Proof.
  intros M. apply (scan_run [32; 47; 62]). destruct o as [|o0 o]; [rewrite (M eq_refl)|]; destruct a; reflexivity.
Qed.
Lemma scan_end t rest o b : simple_name t = true ->
  scan_from (60 :: 47 :: t ++ 62 :: rest) (mk_scan MText (t :: o) b) = prepend [SEnd t] (scan_from rest (mk_scan MText o b)).
Proof.
  intros HT. change (60 :: 47 :: t ++ 62 :: rest) with ([60; 47] ++ t ++ 62 :: rest).
  rewrite (run_quiet [60; 47] _ (mk_scan (MClose []) (t :: o) b)) by reflexivity.
  assert (HN : forallb name_char t = true).
  { destruct t as [|c t]; [discriminate|]. cbn in *. apply andb_prop in HT. destruct HT as [HC HT]. now rewrite (name_start_char c HC). }
  rewrite scan_close by exact HN. cbn [app]. apply scan_cons. unfold scan_char. cbn [sc_mode sc_open]. 
  change (negb (legal 62)) with false. change (name_char 62) with false. cbn [N.eqb Pos.eqb]. now rewrite str_eqb_refl.
Qed.

(** Calls of a tree, one call for each character. *)
Fixpoint sax1 (x : xnode) : list sax :=
  match x with
  | XElem t a kids => SStart t a :: flat_map sax1 kids ++ [SEnd t]
  | XText s => chars s
  end.
(** States in which a tree may begin. *)
Definition ready (x : xnode) (o : list pystr) (b : bool) : Prop :=
  (o <> [] /\ b = true) \/ (is_text x = false /\ o = [] /\ b = false).
Lemma ready_in x t o : ready x (t :: o) true. Proof. left. now split. Qed.
Lemma ready_start x o b : ready x o b -> may_start o b.
Proof. intros [[H _]|(_ & _ & H)] E; [contradiction|exact H]. Qed.
Lemma shaped_elem t a kids : shaped (XElem t a kids) = true ->
  simple_name t = true /\ forallb (fun kv => simple_name (fst kv)) a = true /\ distinct (map fst a) = true
  /\ apart kids = true /\ Forall (fun x => shaped x = true) kids.
Proof.
  cbn [shaped]. rewrite !andb_true_iff. intros ((((H1 & H2) & H3) & H4) & H5). repeat split; auto.
  apply Forall_forall. now apply forallb_forall.
Qed.
Lemma legal_elem t a kids : legal_tree (XElem t a kids) = true ->
  forallb (fun kv => forallb legal (snd kv)) a = true /\ Forall (fun x => legal_tree x = true) kids.
Proof.
  cbn [legal_tree]. rewrite andb_true_iff. intros (H1 & H2). split; [exact H1|]. apply Forall_forall. now apply forallb_forall.
Qed.
Lemma on_atts_id a : on_atts (map (fun c => c)) a = a.
Proof. unfold on_atts. rewrite (map_ext _ (fun kv => kv)); [apply map_id|]. intros [k v]. cbn. now rewrite map_id. Qed.

(** ElementTree's text is read back as it is. *)
Lemma scan_et x : forall rest o b, shaped x = true -> legal_tree x = true -> ready x o b ->
  scan_from (et_print x ++ rest) (mk_scan MText o b) = prepend (sax1 x) (scan_from rest (mk_scan MText o true)).
Proof.
  induction x as [t a kids IH|s] using xnode_ind2; intros rest o b HS HL HR.
  - apply shaped_elem in HS. destruct HS as (ST & SA & SD & _ & SK). apply legal_elem in HL. destruct HL as (LA & LK).
    pose proof (ready_start _ _ _ HR) as M.
    assert (K : forall rest, scan_from (flat_map et_print kids ++ rest) (mk_scan MText (t :: o) true)
                = prepend (flat_map sax1 kids) (scan_from rest (mk_scan MText (t :: o) true))).
    { clear -IH SK LK. induction IH as [|x l HX IH IHl]; intros rest; [now rewrite prepend_nil|].
      inversion SK; inversion LK; subst. cbn [flat_map]. rewrite <- app_assoc, HX by (auto using ready_in).
      rewrite IHl by auto. apply prepend_app. }
    cbn [et_print]. rewrite <- !app_assoc. cbn [app]. rewrite (scan_start legal esc_attrib _ attrib_value) by auto. rewrite on_atts_id.
    destruct kids as [|k0 kids0]; [apply scan_space_slash; exact M|]. set (kids := k0 :: kids0) in *.
    cbn [app]. rewrite scan_gt by exact M. rewrite <- app_assoc, K. cbn [app]. rewrite <- app_assoc. cbn [app].
    rewrite scan_end by exact ST. rewrite !prepend_app. reflexivity.
  - destruct HR as [[HO ->]|[H _]]; [|discriminate]. destruct o as [|o0 o]; [contradiction|]. now apply scan_text; [apply cdata_text|].
Qed.

(** ** Pretty printing *)
Definition dom_core (d : nat) (x : xnode) : pystr :=
  match x with
  | XText s => flat_map esc_dom s
  | XElem t a kids =>
      60 :: t ++ flat_map (print_att esc_dom) a
      ++ match kids with
         | [] => [47; 62]
         | [XText s] => 62 :: flat_map esc_dom s ++ 60 :: 47 :: t ++ [62]
         | _ => 62 :: 10 :: flat_map (dom_print (S d)) kids ++ tabs d ++ 60 :: 47 :: t ++ [62]
         end
  end.
Lemma esc_tabs d : flat_map esc_dom (tabs d) = tabs d.
Proof. unfold tabs. induction d as [|d IH]; [reflexivity|]. cbn [repeat flat_map]. now rewrite IH. Qed.
Lemma dom_core_eq d x : dom_print d x = tabs d ++ dom_core d x ++ [10].
Proof.
  destruct x as [t a kids|s].
  - cbn [dom_print dom_core]. f_equal. cbn [app]. f_equal. rewrite <- !app_assoc. reflexivity.
  - cbn [dom_print dom_core]. rewrite !flat_map_app, esc_tabs. reflexivity.
Qed.
Lemma tabs_legal d : legal_text (tabs d) = true.
Proof. unfold tabs. induction d; [reflexivity|exact IHd]. Qed.
Lemma scan_tabs d rest o0 o b :
  scan_from (tabs d ++ rest) (mk_scan MText (o0 :: o) b) = prepend (chars (tabs d)) (scan_from rest (mk_scan MText (o0 :: o) b)).
Proof. rewrite <- (esc_tabs d) at 1. apply scan_text; [apply dom_text|apply tabs_legal]. Qed.

(** Blanks in the values. *)
Fixpoint blanked (x : xnode) : xnode :=
  match x with XText _ => x | XElem t a kids => XElem t (on_atts (map blank_char) a) (map blanked kids) end.
Fixpoint plain_tree (x : xnode) : bool :=
  match x with
  | XText s => forallb plain s
  | XElem _ a kids => forallb (fun kv => forallb plain (snd kv)) a && forallb plain_tree kids
  end.
Lemma plain_elem t a kids : plain_tree (XElem t a kids) = true ->
  forallb (fun kv => forallb plain (snd kv)) a = true /\ Forall (fun x => plain_tree x = true) kids.
Proof.
  cbn [plain_tree]. rewrite andb_true_iff. intros (H1 & H2). split; [exact H1|]. apply Forall_forall. now apply forallb_forall.
Qed.
Lemma plain_legal s : forallb plain s = true -> legal_text s = true.
Proof.
  unfold legal_text. rewrite !forallb_forall. intros H c HC. specialize (H c HC). apply andb_prop in H. apply H.
Qed.
Lemma flat_map_map {A B C} (f : B -> list C) (g : A -> B) l : flat_map f (map g l) = flat_map (fun x => f (g x)) l.
Proof. induction l as [|x l IH]; [reflexivity|]. cbn. now rewrite IH. Qed.
Lemma lines_rearranged (f : xnode -> list sax) t l :
  [SChars [10]] ++ flat_map (fun k => t ++ f k ++ [SChars [10]]) l = flat_map (fun k => SChars [10] :: t ++ f k) l ++ [SChars [10]].
Proof.
  induction l as [|x l IH]; [reflexivity|]. cbn [flat_map app]. rewrite <- !app_assoc. cbn [app] in *. f_equal. f_equal. f_equal. exact IH.
Qed.
Lemma sax1_many d kids : flat_map sax1 (flat_map (fun k => [newline (S d); pretty (S d) k]) kids ++ [newline d])
  = flat_map (fun k => SChars [10] :: chars (tabs (S d)) ++ sax1 (pretty (S d) k)) kids ++ SChars [10] :: chars (tabs d).
Proof.
  rewrite flat_map_app. cbn [flat_map]. rewrite app_nil_r. f_equal.
  induction kids as [|x l IH]; [reflexivity|]. cbn [flat_map app]. rewrite IH. unfold newline at 1. cbn [sax1 chars map]. rewrite <- app_assoc. reflexivity.
Qed.
Lemma kids_cases (l : list xnode) : l = [] \/ (exists s, l = [XText s]) \/
  (forall A (a : A) (b : pystr -> A) (c : A), match l with [] => a | [XText s] => b s | _ => c end = c).
Proof. destruct l as [|[t a k|s] [|y l]]; [now left| | |right; left; now exists s|]; right; right; reflexivity. Qed.

Lemma scan_dom x : forall d rest o b, shaped x = true -> plain_tree x = true -> ready x o b ->
  scan_from (dom_core d x ++ rest) (mk_scan MText o b) = prepend (sax1 (pretty d (blanked x))) (scan_from rest (mk_scan MText o true)).
Proof.
  induction x as [t a kids IH|s] using xnode_ind2; intros d rest o b HS HL HR.
  - apply shaped_elem in HS. destruct HS as (ST & SA & SD & _ & SK). apply plain_elem in HL. destruct HL as (LA & LK).
    pose proof (ready_start _ _ _ HR) as M.
    cbn [dom_core blanked app]. rewrite <- !app_assoc.
    rewrite (scan_start plain esc_dom _ dom_value) by auto. set (a' := on_atts (map blank_char) a).
    destruct (kids_cases kids) as [->|[[s ->]|KC]].
    + apply scan_slash. exact M.
    + inversion LK; subst. cbn [app]. rewrite scan_gt by exact M. rewrite <- app_assoc. rewrite (scan_text _ dom_text) by (now apply plain_legal).
      cbn [app]. rewrite <- app_assoc. cbn [app]. rewrite scan_end by exact ST. rewrite !prepend_app. cbn [map blanked pretty sax1 flat_map app]. now rewrite app_nil_r.
    + rewrite KC. cbn [app]. rewrite scan_gt by exact M.
      assert (K : forall rest, scan_from (flat_map (dom_print (S d)) kids ++ rest) (mk_scan MText (t :: o) true)
        = prepend (flat_map (fun k => chars (tabs (S d)) ++ sax1 (pretty (S d) (blanked k)) ++ [SChars [10]]) kids) (scan_from rest (mk_scan MText (t :: o) true))).
      { clear -IH SK LK. induction IH as [|x l HX IH IHl]; intros rest; [now rewrite prepend_nil|].
        inversion SK; inversion LK; subst. cbn [flat_map]. rewrite dom_core_eq, <- !app_assoc. rewrite scan_tabs, HX by (auto using ready_in).
        cbn [app]. rewrite (raw_text 10) by (reflexivity || discriminate). rewrite IHl by auto. now rewrite !prepend_app, <- !app_assoc. }
      rewrite (raw_text 10) by (reflexivity || discriminate). rewrite <- !app_assoc, K, scan_tabs. cbn [app]. rewrite <- app_assoc. cbn [app].
      rewrite scan_end by exact ST. rewrite !prepend_app. f_equal.
      rewrite pretty_elem. unfold pkids.
      assert (KC2 : match map blanked kids with [] | [XText _] => map blanked kids | _ => spread d (map blanked kids) end = spread d (map blanked kids)).
      { destruct kids as [|[t1 a1 k1|s1] [|y l]]; try reflexivity. - now specialize (KC nat 0%nat (fun _ => 1%nat) 2%nat). - now specialize (KC nat 0%nat (fun _ => 1%nat) 2%nat). }
      rewrite KC2. cbn [sax1]. unfold spread. rewrite sax1_many, flat_map_map. rewrite <- !app_assoc. cbn [app]. f_equal.
      pose proof (lines_rearranged (fun k => sax1 (pretty (S d) (blanked k))) (chars (tabs (S d))) kids) as Q. cbn [app] in Q.
      rewrite !app_comm_cons, Q. now rewrite <- !app_assoc.
  - destruct HR as [[HO ->]|[H _]]; [|discriminate]. destruct o as [|o0 o]; [contradiction|].
    apply scan_text; [apply dom_text|]. now apply plain_legal.
Qed.
