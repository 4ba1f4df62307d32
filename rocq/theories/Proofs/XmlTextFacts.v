(** Writing a tree and reading it back. *)
From Coq Require Import String NArith ZArith List Bool Lia.
From Verif Require Import Base.PyBase Base.Xml Model.XmlText Model.XmlChars Spec.XmlNorm
  Proofs.BaseFacts Proofs.XesReadFacts Proofs.XmlScanFacts.
Import ListNotations.
Local Open Scope N_scope.

(** ** Line breaks in what the writers print *)
Fixpoint texts (x : xnode) : xnode :=
  match x with XText s => XText (newlines s) | XElem t a kids => XElem t a (map texts kids) end.
Fixpoint values (x : xnode) : xnode :=
  match x with XText s => XText s | XElem t a kids => XElem t (on_atts newlines a) (map values kids) end.
Lemma normal_parts x : normal x = blanked (values (texts x)).
Proof.
  induction x as [t a kids IH|s] using xnode_ind2; [|reflexivity]. cbn [normal texts values blanked]. f_equal.
  - unfold on_atts. rewrite map_map. reflexivity.
  - rewrite !map_map. apply map_ext_in. intros k HK. rewrite Forall_forall in IH. now apply IH.
Qed.

Lemma name_no_cr n : simple_name n = true -> no_cr n = true.
Proof.
  intros H. assert (HN : forallb name_char n = true).
  { destruct n as [|c n]; [discriminate|]. cbn in *. apply andb_prop in H. destruct H as [HC HT]. now rewrite (name_start_char c HC). }
  unfold no_cr. rewrite forallb_forall in *. intros c HC. specialize (HN c HC). apply name_char_range in HN.
  apply negb_true_iff, N.eqb_neq. lia.
Qed.
Lemma nl_keep1 c r : c <> 13 -> newlines (c :: r) = c :: newlines r.
Proof. intros H. cbn. now rewrite (eqb_false c 13 H). Qed.
Lemma nl_atts_et a : forall rest, forallb (fun kv => simple_name (fst kv)) a = true ->
  newlines (flat_map (print_att esc_attrib) a ++ rest) = flat_map (print_att esc_attrib) a ++ newlines rest.
Proof.
  induction a as [|[k v] a IH]; intros rest H; [reflexivity|]. cbn [forallb fst] in H. apply andb_prop in H. destruct H as [H1 H2].
  cbn [flat_map]. rewrite <- !app_assoc, newlines_keep; [now rewrite IH|].
  unfold print_att. cbn [fst snd]. rewrite !no_cr_app, (name_no_cr k H1), attrib_no_cr. reflexivity.
Qed.
Lemma nl_et x : forall rest, shaped x = true -> (is_text x = true -> hd 0 rest <> 10) ->
  newlines (et_print x ++ rest) = et_print (texts x) ++ newlines rest.
Proof.
  induction x as [t a kids IH|s] using xnode_ind2; intros rest HS HR.
  - apply shaped_elem in HS. destruct HS as (ST & SA & SD & AP & SK). clear HR SD.
    assert (K : forall r, newlines (flat_map et_print kids ++ 60 :: r) = flat_map et_print (map texts kids) ++ newlines (60 :: r)).
    { clear -IH SK AP. induction IH as [|x l HX IH IHl]; intros r; [reflexivity|]. inversion SK; subst.
      assert (AP' : apart l = true) by (destruct l; [reflexivity|]; cbn [apart] in AP; apply andb_prop in AP; apply AP).
      cbn [flat_map map]. rewrite <- !app_assoc, HX.
      - now rewrite IHl.
      - assumption.
      - intros TX. destruct l as [|y l]; [discriminate|]. cbn [apart] in AP. rewrite TX in AP. destruct y as [ty ay ky|sy]; [|discriminate]. discriminate. }
    cbn [et_print texts app]. rewrite nl_keep1 by discriminate. f_equal. rewrite <- !app_assoc.
    rewrite newlines_keep by (now apply name_no_cr). f_equal. rewrite nl_atts_et by exact SA. f_equal.
    destruct kids as [|k0 kids0]; [reflexivity|]. set (kids := k0 :: kids0) in *.
    change (map texts (k0 :: kids0)) with (map texts kids). destruct (map texts kids) as [|y0 y] eqn:EM; [discriminate|].
    cbn [app]. rewrite nl_keep1 by discriminate. f_equal. rewrite <- !app_assoc. cbn [app]. rewrite K. f_equal.
    rewrite !nl_keep1 by discriminate. f_equal. f_equal. rewrite <- !app_assoc. rewrite newlines_keep by (now apply name_no_cr). f_equal.
  - cbn [et_print texts]. apply newlines_esc; [apply cdata_safe|now apply HR].
Qed.

(** No carriage return in the text. *)
Fixpoint lf_tree (x : xnode) : bool :=
  match x with XText s => no_cr s | XElem _ _ kids => forallb lf_tree kids end.
Lemma esc_dom_no_cr s : no_cr s = true -> no_cr (flat_map esc_dom s) = true.
Proof.
  induction s as [|c s IH]; [reflexivity|]. cbn [no_cr forallb flat_map]. intros H. apply andb_prop in H. destruct H as [H1 H2].
  rewrite no_cr_app. rewrite IH by exact H2. rewrite andb_true_r. unfold esc_dom.
  destruct (c =? 38); [reflexivity|]. destruct (c =? 60); [reflexivity|]. destruct (c =? 34); [reflexivity|]. destruct (c =? 62); [reflexivity|].
  cbn. now rewrite H1.
Qed.
Lemma tabs_no_cr d : no_cr (tabs d) = true. Proof. unfold tabs. induction d; [reflexivity|exact IHd]. Qed.
Lemma nl_atts_dom a : forall rest, forallb (fun kv => simple_name (fst kv)) a = true ->
  newlines (flat_map (print_att esc_dom) a ++ rest) = flat_map (print_att esc_dom) (on_atts newlines a) ++ newlines rest.
Proof.
  induction a as [|[k v] a IH]; intros rest H; [reflexivity|]. cbn [forallb fst] in H. apply andb_prop in H. destruct H as [H1 H2].
  unfold on_atts. cbn [flat_map map fst snd]. fold (on_atts newlines a). unfold print_att at 1 3. cbn [fst snd]. rewrite <- !app_assoc. cbn [app].
  rewrite nl_keep1 by discriminate. f_equal. rewrite newlines_keep by (now apply name_no_cr). f_equal.
  rewrite !nl_keep1 by discriminate. f_equal. f_equal. rewrite (newlines_esc _ _ dom_safe) by discriminate. f_equal.
  rewrite nl_keep1 by discriminate. f_equal. now apply IH.
Qed.
Lemma nl_dom x : forall d rest, shaped x = true -> lf_tree x = true ->
  newlines (dom_print d x ++ rest) = dom_print d (values x) ++ newlines rest.
Proof.
  induction x as [t a kids IH|s] using xnode_ind2; intros d rest HS HL.
  - apply shaped_elem in HS. destruct HS as (ST & SA & SD & AP & SK). clear SD AP.
    assert (LK : Forall (fun x => lf_tree x = true) kids) by (apply Forall_forall; now apply forallb_forall).
    assert (K : forall r, newlines (flat_map (dom_print (S d)) kids ++ r) = flat_map (dom_print (S d)) (map values kids) ++ newlines r).
    { clear -IH SK LK. induction IH as [|x l HX IH IHl]; intros r; [reflexivity|]. inversion SK; inversion LK; subst.
      cbn [flat_map map]. rewrite <- !app_assoc, HX by assumption. now rewrite IHl. }
    rewrite !dom_core_eq. cbn [values dom_core app]. rewrite <- !app_assoc. cbn [app].
    rewrite newlines_keep by apply tabs_no_cr. f_equal. rewrite nl_keep1 by discriminate. f_equal. rewrite <- !app_assoc.
    rewrite newlines_keep by (now apply name_no_cr). f_equal. rewrite nl_atts_dom by exact SA. f_equal.
    destruct (kids_cases kids) as [->|[[s ->]|KC]].
    + cbn [map app]. now rewrite !nl_keep1 by discriminate.
    + cbn [map values app]. inversion LK; subst. rewrite <- !app_assoc. cbn [app]. rewrite nl_keep1 by discriminate. f_equal.
      rewrite newlines_keep by (now apply esc_dom_no_cr). f_equal. rewrite !nl_keep1 by discriminate. f_equal. f_equal.
      rewrite <- !app_assoc. rewrite newlines_keep by (now apply name_no_cr). f_equal.
    + assert (KC2 : forall A (a : A) (b : pystr -> A) (c : A), match map values kids with [] => a | [XText s] => b s | _ => c end = c).
      { intros A a0 b0 c0. destruct kids as [|[t1 a1 k1|s1] [|y l]]; try reflexivity; now specialize (KC nat 0%nat (fun _ => 1%nat) 2%nat). }
      rewrite KC, KC2. cbn [app]. rewrite <- !app_assoc. rewrite !nl_keep1 by discriminate. f_equal. f_equal.
      rewrite K. f_equal. rewrite newlines_keep by apply tabs_no_cr. f_equal. cbn [app]. rewrite <- !app_assoc. rewrite !nl_keep1 by discriminate. f_equal. f_equal.
      rewrite newlines_keep by (now apply name_no_cr). f_equal.
  - cbn [dom_print values]. apply newlines_keep, esc_dom_no_cr. rewrite !no_cr_app, tabs_no_cr. cbn in HL. now rewrite HL.
Qed.

(** ** The conditions are kept *)
Lemma apart_map f l : (forall x, is_text (f x) = is_text x) -> apart (map f l) = apart l.
Proof.
  intros H. induction l as [|x l IH]; [reflexivity|]. destruct l as [|y l]; [reflexivity|].
  change (apart (map f (x :: y :: l))) with (negb (is_text (f x) && is_text (f y)) && apart (map f (y :: l))).
  rewrite IH, !H. reflexivity.
Qed.
Lemma forallb_map' {A B} (p : B -> bool) (f : A -> B) l : forallb p (map f l) = forallb (fun x => p (f x)) l.
Proof. induction l as [|x l IH]; [reflexivity|]. cbn. now rewrite IH. Qed.
Lemma forallb_Forall {A} (p : A -> bool) l : forallb p l = true <-> Forall (fun x => p x = true) l.
Proof. rewrite Forall_forall. apply forallb_forall. Qed.
Lemma forallb_ext_F {A} (p q : A -> bool) l : Forall (fun x => p x = q x) l -> forallb p l = forallb q l.
Proof. induction 1 as [|x l H F IH]; [reflexivity|]. cbn. now rewrite H, IH. Qed.
Lemma shaped_texts x : shaped (texts x) = shaped x.
Proof.
  induction x as [t a kids IH|s] using xnode_ind2.
  - cbn [texts shaped]. rewrite apart_map by (now intros []). rewrite forallb_map'. f_equal. now apply forallb_ext_F.
  - cbn [texts shaped]. destruct s as [|c s]; [reflexivity|]. destruct (newlines (c :: s)) eqn:E; [|reflexivity]. apply (proj1 (newlines_nil _)) in E. discriminate.
Qed.
Lemma shaped_values x : shaped (values x) = shaped x.
Proof.
  induction x as [t a kids IH|s] using xnode_ind2; [|reflexivity].
  cbn [values shaped]. rewrite apart_map by (now intros []). rewrite forallb_map', on_atts_keys.
  unfold on_atts. rewrite forallb_map'. f_equal. now apply forallb_ext_F.
Qed.
Lemma legal_texts x : legal_tree x = true -> legal_tree (texts x) = true.
Proof.
  induction x as [t a kids IH|s] using xnode_ind2.
  - cbn [texts legal_tree]. rewrite !andb_true_iff, forallb_map'. intros [H1 H2]. split; [exact H1|].
    rewrite !forallb_forall in *. intros x HX. rewrite Forall_forall in IH. auto.
  - cbn [texts legal_tree]. now apply newlines_forall.
Qed.
Lemma texts_lf x : lf_tree (texts x) = true.
Proof.
  induction x as [t a kids IH|s] using xnode_ind2; [|apply newlines_no_cr]. cbn [texts lf_tree]. rewrite forallb_map'. now apply forallb_Forall.
Qed.
Lemma plain_newlines s : legal_text s = true -> forallb plain (newlines s) = true.
Proof.
  intros H. pose proof (newlines_no_cr s) as H1. apply (newlines_forall legal s eq_refl) in H.
  unfold no_cr in H1. rewrite forallb_forall in *. intros c HC. unfold plain. now rewrite H, H1.
Qed.
Lemma plain_values x : legal_tree x = true -> lf_tree x = true -> plain_tree (values x) = true.
Proof.
  induction x as [t a kids IH|s] using xnode_ind2; cbn [values plain_tree legal_tree lf_tree]; intros HL HF.
  - apply andb_prop in HL. destruct HL as [H1 H2]. unfold on_atts. rewrite !forallb_map'. apply andb_true_iff. split.
    + rewrite forallb_forall in *. intros kv HK. apply plain_newlines. now apply H1.
    + rewrite !forallb_forall in *. rewrite Forall_forall in IH. auto.
  - rewrite <- (newlines_id s HF). now apply plain_newlines.
Qed.

(** ** minidom's document *)
Definition no_text (l : list xnode) : bool := match l with XText _ :: _ => false | _ => true end.
Lemma dom_chars s : forall t a k o rest r0, dom_from (chars s ++ rest) ((t, a, XText r0 :: k) :: o) = dom_from rest ((t, a, XText (r0 ++ s) :: k) :: o).
Proof.
  induction s as [|c s IH]; intros t a k o rest r0; [now rewrite app_nil_r|]. cbn. rewrite IH. now rewrite <- app_assoc.
Qed.
Lemma dom_text_node s t a k o rest : s <> [] -> no_text k = true ->
  dom_from (chars s ++ rest) ((t, a, k) :: o) = dom_from rest ((t, a, XText s :: k) :: o).
Proof.
  intros NS HK. destruct s as [|c s]; [contradiction|]. cbn [chars map app dom_from].
  assert (E : add_text [c] k = XText [c] :: k) by (destruct k as [|[]]; [reflexivity|reflexivity|discriminate]).
  rewrite E. apply (dom_chars s t a k o rest [c]).
Qed.
Lemma dom_back x : forall t a k o rest, shaped x = true -> (is_text x = true -> no_text k = true) ->
  dom_from (sax1 x ++ rest) ((t, a, k) :: o) = dom_from rest ((t, a, x :: k) :: o).
Proof.
  induction x as [t1 a1 kids IH|s] using xnode_ind2; intros t a k o rest HS HK.
  - apply shaped_elem in HS. destruct HS as (_ & _ & _ & AP & SK). cbn [sax1 app dom_from]. rewrite <- app_assoc.
    assert (K : forall k1 r, (match kids with x :: _ => is_text x = true -> no_text k1 = true | [] => True end) ->
      dom_from (flat_map sax1 kids ++ r) ((t1, a1, k1) :: (t, a, k) :: o) = dom_from r ((t1, a1, rev kids ++ k1) :: (t, a, k) :: o)).
    { clear -IH SK AP. induction IH as [|x l HX IH IHl]; intros k1 r HK1; [reflexivity|]. inversion SK; subst.
      assert (AP' : apart l = true) by (destruct l; [reflexivity|]; cbn [apart] in AP; apply andb_prop in AP; apply AP).
      cbn [flat_map rev]. rewrite <- !app_assoc, HX by assumption. rewrite IHl; [reflexivity|assumption|assumption|].
      destruct l as [|y l]; [exact I|]. intros TY. cbn [apart] in AP. destruct x; [reflexivity|]. rewrite TY in AP. discriminate. }
    rewrite K by (destruct kids; [exact I|reflexivity]). cbn [app dom_from]. now rewrite app_nil_r, rev_involutive.
  - apply dom_text_node; [now destruct s|now apply HK].
Qed.
Lemma dom_root t a kids : shaped (XElem t a kids) = true -> dom_from (sax1 (XElem t a kids)) [] = Some (XElem t a kids).
Proof.
  intros HS. pose proof (dom_back (XElem t a kids) (py "r") [] [] [] [SEnd (py "r")] HS ltac:(discriminate)) as H.
  cbn [sax1 app] in *. cbn [dom_from] in *.
  (* same steps, one element further out *)
  clear H. apply shaped_elem in HS. destruct HS as (_ & _ & _ & AP & SK).
  assert (K : forall k1 r, (match kids with x :: _ => is_text x = true -> no_text k1 = true | [] => True end) ->
      dom_from (flat_map sax1 kids ++ r) [(t, a, k1)] = dom_from r [(t, a, rev kids ++ k1)]).
  { induction kids as [|x l IHl]; intros k1 r HK1; [reflexivity|]. inversion SK; subst.
    assert (AP' : apart l = true) by (destruct l; [reflexivity|]; cbn [apart] in AP; apply andb_prop in AP; apply AP).
    cbn [flat_map rev]. rewrite <- !app_assoc, dom_back by assumption. rewrite IHl; [reflexivity|assumption|assumption|].
    destruct l as [|y l]; [exact I|]. intros TY. cbn [apart] in AP. destruct x; [reflexivity|]. rewrite TY in AP. discriminate. }
  rewrite K by (destruct kids; [exact I|reflexivity]). cbn [dom_from]. now rewrite app_nil_r, rev_involutive.
Qed.

(** ** Pieces of text *)
Lemma merge_cons e r r' : merge r = merge r' -> merge (e :: r) = merge (e :: r').
Proof. intros H. destruct e; cbn; rewrite H; reflexivity. Qed.
Lemma merge_chars s r : merge (chars s ++ r) = merge (SChars s :: r).
Proof.
  revert r. induction s as [|c s IH]; intros r; [cbn; now destruct (merge r) as [|[]]|].
  cbn [chars map app]. rewrite (merge_cons _ _ (SChars s :: r) (IH r)). cbn [merge]. destruct (merge r) as [|[] r']; cbn; try reflexivity; destruct s; reflexivity.
Qed.
Lemma merge_sax x : forall r, merge (sax1 x ++ r) = merge (sax_of x ++ r).
Proof.
  induction x as [t a kids IH|s] using xnode_ind2; intros r; [|apply merge_chars].
  cbn [sax1 sax_of app]. apply merge_cons. rewrite <- !app_assoc. generalize ([SEnd t] ++ r). clear -IH.
  induction IH as [|x l HX IH IHl]; intros r; [reflexivity|]. cbn [flat_map]. rewrite <- !app_assoc, HX.
  assert (G : forall x r r', merge r = merge r' -> merge (sax_of x ++ r) = merge (sax_of x ++ r')).
  { clear. intros x r r' H. generalize (sax_of x). intros l. induction l as [|e l IH]; [exact H|]. cbn [app]. now apply merge_cons. }
  apply G, IHl.
Qed.
Lemma sax1_same x : same_calls (sax1 x) (sax_of x).
Proof. unfold same_calls. rewrite <- (app_nil_r (sax1 x)), <- (app_nil_r (sax_of x)). apply merge_sax. Qed.

(** ** Both passes *)
Definition fine_comments (cs : list pystr) : Prop :=
  no_cr (flat_map comment cs) = true
  /\ run (flat_map comment cs) (mk_scan MText [] false) = Some (mk_scan MText [] false, []).
Lemma comments_fine : fine_comments xes_comments /\ fine_comments mxml_comments.
Proof. repeat split; vm_compute; reflexivity. Qed.

Lemma read_et t a kids (x := XElem t a kids) : shaped x = true -> legal_tree x = true ->
  read_xml (et_print x) = Some (sax1 (texts x)).
Proof.
  intros HS HL. unfold read_xml. rewrite <- (app_nil_r (et_print x)). rewrite nl_et by (exact HS || discriminate).
  rewrite scan_et.
  - cbn [newlines scan_from prepend sc_mode sc_open sc_root option_map]. now rewrite app_nil_r.
  - now rewrite shaped_texts.
  - now apply legal_texts.
  - right. now repeat split.
Qed.
Lemma write_some cs t a kids (x := XElem t a kids) : shaped x = true -> legal_tree x = true ->
  write_xml cs x = Some (declaration ++ flat_map comment cs ++ dom_print 0 (texts x)).
Proof.
  intros HS HL. unfold write_xml. pose proof (read_et t a kids HS HL) as R. fold x in R. rewrite R.
  assert (HS' : shaped (texts x) = true) by (now rewrite shaped_texts). unfold x in *. cbn [texts] in *. now rewrite (dom_root _ _ _ HS').
Qed.
Lemma read_dom cs t a kids (x := XElem t a kids) : fine_comments cs -> shaped x = true -> legal_tree x = true ->
  read_xml (declaration ++ flat_map comment cs ++ dom_print 0 (texts x)) = Some (sax1 (pretty 0 (normal x))).
Proof.
  intros [HC1 HC2] HS HL. unfold read_xml. rewrite newlines_keep by reflexivity. rewrite (newlines_keep (flat_map comment cs)) by exact HC1.
  rewrite <- (app_nil_r (dom_print 0 (texts x))). rewrite nl_dom by (rewrite ?shaped_texts; auto using texts_lf).
  rewrite (run_quiet declaration _ (mk_scan MText [] false)) by reflexivity. rewrite (run_quiet _ _ _ _ HC2).
  rewrite dom_core_eq. cbn [tabs repeat app]. rewrite <- app_assoc. rewrite scan_dom.
  - rewrite <- normal_parts. rewrite (run_quiet [10] _ (mk_scan MText [] true)) by reflexivity. cbn. now rewrite app_nil_r.
  - now rewrite shaped_values, shaped_texts.
  - apply plain_values; [now apply legal_texts|apply texts_lf].
  - right. now repeat split.
Qed.

(** ** Characters that may not occur *)
Lemma scan_illegal c cs1 cs2 s : legal c = false -> scan_from (cs1 ++ c :: cs2) s = None.
Proof.
  intros L. revert s. induction cs1 as [|x cs1 IH]; intros s; cbn [app scan_from].
  - unfold scan_char. now rewrite L.
  - destruct (scan_char s x) as [[s' es]|]; [now rewrite IH|reflexivity].
Qed.
Lemma illegal_in c text : legal c = false -> In c text -> read_xml text = None.
Proof.
  intros L H. apply in_split in H. destruct H as (l1 & l2 & ->). unfold read_xml.
  assert (C13 : c <> 13) by (intros ->; discriminate). assert (C10 : c <> 10) by (intros ->; discriminate).
  assert (S : forall l1, exists m1 m2, newlines (l1 ++ c :: l2) = m1 ++ c :: m2).
  { clear l1. intros l1. pattern l1. apply two_ind; clear l1; [|intros d|intros d e r IH1 IH2].
    - exists [], (newlines l2). cbn [app]. now rewrite nl_keep1.
    - cbn [app newlines]. rewrite (eqb_false c 10 C10), (eqb_false c 13 C13). destruct (d =? 13).
      + now exists [10], (newlines l2).
      + now exists [d], (newlines l2).
    - cbn [app] in *. cbn [newlines]. destruct (d =? 13).
      + destruct (e =? 10) eqn:E10.
        * destruct IH1 as (m1 & m2 & H). rewrite H. now exists (10 :: m1), m2.
        * destruct IH2 as (m1 & m2 & H). cbn [newlines] in H. rewrite H. now exists (10 :: m1), m2.
      + destruct IH2 as (m1 & m2 & H). cbn [newlines] in H. rewrite H. now exists (d :: m1), m2. }
  destruct (S l1) as (m1 & m2 & ->). now apply scan_illegal.
Qed.
Lemma attrib_through c : legal c = false -> esc_attrib c = [c].
Proof.
  intros L. unfold esc_attrib. repeat match goal with |- context [c =? ?n] => rewrite (eqb_false c n) by (intros ->; discriminate) end. reflexivity.
Qed.
Lemma cdata_through c : legal c = false -> esc_cdata c = [c].
Proof.
  intros L. unfold esc_cdata. repeat match goal with |- context [c =? ?n] => rewrite (eqb_false c n) by (intros ->; discriminate) end. reflexivity.
Qed.
Lemma not_forallb {A} (p : A -> bool) l : forallb p l = false -> exists x, In x l /\ p x = false.
Proof.
  induction l as [|x l IH]; [discriminate|]. cbn. destruct (p x) eqn:E; [|intros _; exists x; auto].
  intros H. destruct (IH H) as (y & HY & PY). exists y. auto.
Qed.
Lemma esc_in esc s : (forall c, legal c = false -> esc c = [c]) -> legal_text s = false -> exists c, legal c = false /\ In c (flat_map esc s).
Proof.
  intros E H. apply not_forallb in H. destruct H as (c & HC & LC). exists c. split; [exact LC|]. apply in_flat_map. exists c. split; [exact HC|].
  rewrite E by exact LC. now left.
Qed.
Lemma illegal_printed x : legal_tree x = false -> exists c, legal c = false /\ In c (et_print x).
Proof.
  induction x as [t a kids IH|s] using xnode_ind2; cbn [legal_tree]; intros H; [|now apply esc_in; [apply cdata_through|]].
  cbn [et_print]. apply andb_false_iff in H. destruct H as [H|H]; apply not_forallb in H.
  - destruct H as ([k v] & HK & LV). cbn in LV. destruct (esc_in esc_attrib v attrib_through LV) as (c & LC & HC). exists c. split; [exact LC|].
    apply in_or_app. right. apply in_or_app. right. apply in_or_app. left. apply in_flat_map. exists (k, v). split; [exact HK|].
    unfold print_att. cbn [fst snd]. rewrite !in_app_iff. auto.
  - destruct H as (y & HY & LY). rewrite Forall_forall in IH. destruct (IH y HY LY) as (c & LC & HC). exists c. split; [exact LC|].
    destruct kids as [|k0 kids0]; [destruct HY|]. rewrite !in_app_iff. do 4 right. left. apply in_flat_map. now exists y.
Qed.
Lemma write_none cs x : legal_tree x = false -> write_xml cs x = None.
Proof.
  intros H. destruct (illegal_printed x H) as (c & LC & HC). unfold write_xml. now rewrite (illegal_in c _ LC HC).
Qed.

(** ** Nothing to normalise *)
Lemma calm_value s : calm s = true -> normal_value s = s.
Proof.
  intros H. unfold normal_value. assert (NC : no_cr s = true).
  { unfold calm, no_cr in *. rewrite forallb_forall in *. intros c HC. specialize (H c HC). rewrite negb_orb in H. apply andb_prop in H. apply H. }
  rewrite (newlines_id s NC). rewrite <- (map_id s) at 2. apply map_ext_in. intros c HC. unfold calm in H. rewrite forallb_forall in H. specialize (H c HC).
  unfold blank_char. destruct ((c =? 9) || (c =? 10)); [discriminate|reflexivity].
Qed.
Lemma calm_normal x : calm_tree x = true -> normal x = x.
Proof.
  induction x as [t a kids IH|s] using xnode_ind2; cbn [calm_tree normal]; intros H.
  - apply andb_prop in H. destruct H as [H1 H2]. rewrite forallb_forall in H1, H2. f_equal.
    + rewrite <- (map_id a) at 2. apply map_ext_in. intros [k v] HK. cbn [fst snd]. rewrite calm_value; [reflexivity|]. apply (H1 _ HK).
    + rewrite <- (map_id kids) at 2. apply map_ext_in. intros k HK. rewrite Forall_forall in IH. auto.
  - f_equal. now apply newlines_id.
Qed.
Lemma value_calm s : calm (normal_value s) = true.
Proof.
  unfold normal_value, calm. pose proof (newlines_no_cr s) as H. unfold no_cr in H. rewrite forallb_forall in *.
  intros c HC. apply in_map_iff in HC. destruct HC as (d & <- & HD). specialize (H d HD). unfold blank_char.
  destruct (d =? 9) eqn:E9; [reflexivity|]. destruct (d =? 10) eqn:E10; [reflexivity|]. cbn [orb]. now rewrite E9, E10.
Qed.
Lemma normal_calm x : calm_tree (normal x) = true.
Proof.
  induction x as [t a kids IH|s] using xnode_ind2; cbn [calm_tree normal]; [|apply newlines_no_cr].
  rewrite !forallb_map'. cbn [snd]. apply andb_true_iff. split; [|now apply forallb_Forall].
  apply forallb_forall. intros kv _. apply value_calm.
Qed.
Lemma normal_same x : normal x = x <-> calm_tree x = true.
Proof. split; [intros <-; apply normal_calm|apply calm_normal]. Qed.
