(** The lines of the written files. *)
From Coq Require Import String NArith ZArith List Bool Lia.
From Verif Require Import Base.PyBase Base.PyVal Base.Xml Model.Attr Model.Log Model.XmlText Model.XmlChars Model.XesWrite Model.MxmlWrite
  Spec.XmlNorm Spec.XmlLines Proofs.BaseFacts Proofs.AttrInd Proofs.XesRoundFacts Proofs.XesReadFacts Proofs.XmlScanFacts Proofs.XmlTextFacts Proofs.XmlFileFacts.
Import ListNotations.
Local Open Scope N_scope.

(** ** The printer *)
Lemma shown_esc c : shown_char c = esc_dom c.
Proof.
  unfold shown_char, esc_dom. destruct (c =? 38); [reflexivity|]. destruct (c =? 60); [reflexivity|].
  destruct (N.eqb_spec c 62) as [->|]; reflexivity.
Qed.
Lemma shown_all s : shown s = flat_map esc_dom s.
Proof. unfold shown. apply flat_map_ext. exact shown_esc. Qed.
Lemma shown_atts_eq a : shown_atts a = flat_map (print_att esc_dom) a.
Proof. unfold shown_atts. apply flat_map_ext. intros [k v]. cbn [fst snd]. rewrite shown_all. reflexivity. Qed.
Lemma in_lines_app a b : in_lines (a ++ b) = in_lines a ++ in_lines b.
Proof. apply flat_map_app. Qed.
Lemma in_lines_one l : in_lines [l] = l ++ [10]. Proof. cbn. now rewrite app_nil_r. Qed.

Lemma many_lines kids d : Forall (fun x => forall d, dom_print d x = in_lines (xml_lines d x)) kids ->
  flat_map (dom_print d) kids = in_lines (flat_map (xml_lines d) kids).
Proof. induction 1 as [|x l H F IH]; [reflexivity|]. cbn. now rewrite in_lines_app, H, IH. Qed.
Lemma print_lines x : forall d, dom_print d x = in_lines (xml_lines d x).
Proof.
  induction x as [t a kids IH|s] using xnode_ind2; intros d.
  - assert (E : tabs d ++ [60] ++ t ++ flat_map (print_att esc_dom) a ++ ([62; 10] ++ flat_map (dom_print (S d)) kids ++ tabs d ++ [60; 47] ++ t ++ [62]) ++ [10]
      = in_lines ([indented d (py "<" ++ t ++ shown_atts a ++ py ">")] ++ flat_map (xml_lines (S d)) kids ++ [indented d (py "</" ++ t ++ py ">")])).
    { rewrite !in_lines_app, !in_lines_one, <- many_lines by exact IH. unfold indented, tabs. rewrite shown_atts_eq.
      change (py "<") with [60]. change (py ">") with [62]. change (py "</") with [60; 47].
      repeat rewrite <- app_assoc. cbn [app]. repeat rewrite <- app_assoc. reflexivity. }
    destruct kids as [|[t2 a2 k2|s] [|y r]].
    + cbn [dom_print xml_lines]. rewrite in_lines_one. unfold indented. rewrite shown_atts_eq. change (py "<") with [60]. change (py "/>") with [47; 62].
      unfold tabs. repeat rewrite <- app_assoc. reflexivity.
    + exact E.
    + exact E.
    + cbn [dom_print xml_lines]. rewrite in_lines_one. unfold indented. rewrite shown_atts_eq, shown_all.
      change (py "<") with [60]. change (py ">") with [62]. change (py "</") with [60; 47].
      unfold tabs. repeat rewrite <- app_assoc. reflexivity.
    + exact E.
  - cbn [dom_print xml_lines]. rewrite in_lines_one. unfold indented. rewrite shown_all, !flat_map_app, esc_tabs.
    unfold tabs. rewrite <- app_assoc. reflexivity.
Qed.

Lemma lf_newlines s : lf_only s = newlines s.
Proof.
  assert (H : forall n s, (List.length s <= n)%nat -> lf_only s = newlines s); [|now apply (H (List.length s))].
  clear s. induction n as [|n IH]; intros [|c r] L; cbn in L; try reflexivity; [lia|]. cbn [lf_only newlines].
  destruct (c =? 13); [|f_equal; apply IH; lia]. destruct r as [|d r]; [reflexivity|]. cbn [at_lf].
  destruct (N.eqb_spec d 10) as [->|D]; [|f_equal; apply IH; lia].
  cbn [lf_only]. change (10 =? 13) with false. cbv iota. f_equal. apply IH. cbn in L. lia.
Qed.
Lemma lf_tree_texts x : lf_texts x = texts x.
Proof.
  induction x as [t a kids IH|s] using xnode_ind2; cbn; [|now rewrite lf_newlines]. f_equal. now apply map_ext_Forall.
Qed.
Lemma comment_lines cs : flat_map comment cs = in_lines (map (fun c => py "<!--" ++ c ++ py "-->") cs).
Proof.
  induction cs as [|c cs IH]; [reflexivity|]. cbn [flat_map map].
  change (in_lines (?a :: ?b)) with ((a ++ [10]) ++ in_lines b). rewrite IH. unfold comment. repeat rewrite <- app_assoc. reflexivity.
Qed.
Lemma file_lines cs doc : shaped doc = true -> is_text doc = false -> legal_tree doc = true ->
  write_xml cs doc = Some (in_lines ((py "<?xml version=""1.0"" ?>" :: map (fun c => py "<!--" ++ c ++ py "-->") cs) ++ xml_lines 0 (lf_texts doc))).
Proof.
  intros HS HT HL. destruct doc as [t a kids|s]; [|discriminate]. rewrite write_some by assumption.
  rewrite print_lines, lf_tree_texts, comment_lines, in_lines_app. unfold declaration.
  change (in_lines (?a :: ?b)) with ((a ++ [10]) ++ in_lines b). now rewrite <- app_assoc.
Qed.

(** No text nodes in XES. *)
Fixpoint no_texts (x : xnode) : bool := match x with XText _ => false | XElem _ _ kids => forallb no_texts kids end.
Lemma no_texts_same x : no_texts x = true -> lf_texts x = x.
Proof.
  induction x as [t a kids IH|s] using xnode_ind2; cbn; [|discriminate]. intros H. f_equal.
  induction IH as [|x l H1 F IH]; [reflexivity|]. cbn in H. apply andb_prop in H. destruct H as [A B]. cbn. now rewrite H1, IH.
Qed.

(** ** Counting lines *)
Definition sp (acc s : pystr) : list pystr := split_aux [10] 0 acc s.
Lemma sp_cons acc c t : sp acc (c :: t) = if c =? 10 then rev acc :: sp [] t else sp (c :: acc) t.
Proof. unfold sp. cbn [split_aux starts_with]. rewrite N.eqb_sym. destruct (c =? 10); reflexivity. Qed.
Lemma sp_lf u v : forall acc, sp acc (u ++ 10 :: v) = sp acc u ++ sp [] v.
Proof.
  induction u as [|c u IH]; intros acc; [reflexivity|]. cbn [app]. rewrite !sp_cons. destruct (c =? 10); rewrite IH; reflexivity.
Qed.
Lemma sp_plain a b : forallb (fun c => negb (c =? 10)) a = true -> forall acc, sp acc (a ++ b) = sp (rev a ++ acc) b.
Proof.
  induction a as [|c a IH]; intros H acc; [reflexivity|]. cbn in H. apply andb_prop in H. destruct H as [A B].
  cbn [app]. rewrite sp_cons. apply negb_true_iff in A. rewrite A, IH by exact B. cbn [rev]. now rewrite <- app_assoc.
Qed.
Lemma sp_pieces b : forall acc p, In p (sp acc b) ->
  (exists q, p = rev acc ++ q /\ (forall c, In c q -> In c b)) \/ (forall c, In c p -> In c b).
Proof.
  induction b as [|c b IH]; intros acc p H.
  - destruct H as [<-|[]]. left. exists []. rewrite app_nil_r. auto.
  - rewrite sp_cons in H. destruct (c =? 10).
    + destruct H as [<-|H]; [left; exists []; rewrite app_nil_r; split; [reflexivity|intros x []]|]. right. intros x X. right.
      destruct (IH _ _ H) as [[q [-> K]]|K]; exact (K x X).
    + destruct (IH _ _ H) as [[q [-> K]]|K]; [left; exists (c :: q); cbn; rewrite <- app_assoc; split; [reflexivity|]|].
      * intros x [->|X]; [now left|right; exact (K x X)].
      * right. intros x X. right. exact (K x X).
Qed.

Definition hits (ws ls : list pystr) : nat := List.length (filter (fun l => existsb (str_eqb l) ws) ls).
Lemma hits_app ws a b : hits ws (a ++ b) = (hits ws a + hits ws b)%nat.
Proof. unfold hits. now rewrite filter_app, app_length. Qed.
Lemma hits_none ws ls : (forall l, In l ls -> ~ In l ws) -> hits ws ls = O.
Proof.
  intros H. unfold hits. induction ls as [|l ls IH]; [reflexivity|]. cbn [filter].
  destruct (existsb (str_eqb l) ws) eqn:E.
  - apply existsb_exists in E. destruct E as (w & W & E). apply str_eqb_eq in E. subst w. exfalso. apply (H l); [now left|exact W].
  - apply IH. intros x X. apply H. now right.
Qed.
Lemma count_hits ws u : count_lines ws u = hits ws (sp [] u). Proof. reflexivity. Qed.
(** Lines, each of which may have line breaks in it. *)
Fixpoint total (ws ls : list pystr) : nat := match ls with [] => O | l :: r => (count_lines ws l + total ws r)%nat end.
Lemma total_app ws a b : total ws (a ++ b) = (total ws a + total ws b)%nat.
Proof. induction a as [|x a IH]; [reflexivity|]. cbn. rewrite IH. lia. Qed.
Lemma count_total ws ls : ~ In [] ws -> count_lines ws (in_lines ls) = total ws ls.
Proof.
  intros H. induction ls as [|l ls IH].
  - change (count_lines ws (in_lines [])) with (hits ws [[]]). cbn [total]. apply hits_none. intros x [<-|[]]. exact H.
  - cbn [total]. rewrite <- IH, !count_hits. change (in_lines (l :: ls)) with ((l ++ [10]) ++ in_lines ls).
    rewrite <- app_assoc. cbn [app]. now rewrite sp_lf, hits_app.
Qed.

(** The lines looked for: tabs, a start tag, no blank. *)
Definition sought (w : pystr) : Prop := ~ In 32 w /\ exists k c r, w = repeat 9 k ++ 60 :: c :: r /\ c <> 47.
Lemma tabs_first k : forall d x y, repeat 9 k ++ 60 :: x = repeat 9 d ++ 60 :: y -> k = d /\ x = y.
Proof.
  induction k as [|k IH]; intros [|d] x y H; cbn in H; try discriminate.
  - injection H as ->. auto.
  - injection H as H. apply IH in H. destruct H as [-> ->]. auto.
Qed.
Lemma plain_tabs d : forallb (fun c => negb (c =? 10)) (repeat 9 d) = true.
Proof. induction d; [reflexivity|exact IHd]. Qed.
Lemma plain_name t : simple_name t = true -> forallb (fun c => negb (c =? 10)) t = true /\ ~ In 60 t.
Proof.
  assert (C : forall c, name_char c = true -> (c =? 10) = false /\ c <> 60).
  { intros c H. split; [destruct (N.eqb_spec c 10) as [->|]; [discriminate H|reflexivity]|]. intros ->. discriminate H. }
  intros H. assert (F : forallb name_char t = true).
  { destruct t as [|c r]; [discriminate|]. cbn in H |- *. apply andb_prop in H. destruct H as [A B]. rewrite B.
    unfold name_char. rewrite A. reflexivity. }
  rewrite forallb_forall in F. split.
  - apply forallb_forall. intros c X. now rewrite (proj1 (C c (F c X))).
  - intros X. exact (proj2 (C _ (F _ X)) eq_refl).
Qed.
Lemma shown_no_lt s : ~ In 60 (shown s).
Proof.
  unfold shown. intros H. apply in_flat_map in H. destruct H as (c & _ & H). unfold shown_char in H.
  destruct (c =? 38); [cbn in H; intuition discriminate|]. destruct (N.eqb_spec c 60); [cbn in H; intuition discriminate|].
  destruct (c =? 62); [cbn in H; intuition discriminate|]. destruct (c =? 34); [cbn in H; intuition discriminate|].
  destruct H as [H|[]]. congruence.
Qed.
Lemma atts_no_lt a : forallb (fun kv => simple_name (fst kv)) a = true -> ~ In 60 (shown_atts a).
Proof.
  intros F H. unfold shown_atts in H. apply in_flat_map in H. destruct H as ([k v] & K & H). rewrite forallb_forall in F.
  specialize (F _ K). cbn [fst snd] in *. rewrite !in_app_iff in H. cbn in H.
  destruct (plain_name _ F) as [_ L]. pose proof (shown_no_lt v) as S. intuition discriminate.
Qed.
(** A start tag with attributes, whatever its values. *)
Lemma start_tag ws d t a tail : Forall sought ws -> a <> [] -> simple_name t = true ->
  forallb (fun kv => simple_name (fst kv)) a = true -> ~ In 60 tail ->
  count_lines ws (indented d (py "<" ++ t ++ shown_atts a ++ tail)) = O.
Proof.
  intros W A T F L. destruct a as [|[k v] a]; [congruence|]. rewrite count_hits. apply hits_none. intros p P X.
  rewrite Forall_forall in W. destruct (W _ X) as [W1 (n & c & r & W2 & W3)].
  change (shown_atts ((k, v) :: a)) with ((32 :: k ++ py "=""" ++ shown v ++ py """") ++ shown_atts a) in P.
  set (B := k ++ py "=""" ++ shown v ++ py """" ++ shown_atts a ++ tail).
  assert (E : indented d (py "<" ++ t ++ ((32 :: k ++ py "=""" ++ shown v ++ py """") ++ shown_atts a) ++ tail)
    = (repeat 9 d ++ py "<" ++ t ++ [32]) ++ B).
  { unfold indented, B. repeat rewrite <- app_assoc. cbn [app]. repeat rewrite <- app_assoc. reflexivity. }
  rewrite E, sp_plain in P.
  2:{ rewrite !forallb_app, plain_tabs. cbn. now rewrite (proj1 (plain_name _ T)). }
  rewrite app_nil_r in P. apply sp_pieces in P. destruct P as [(q & -> & _)|P].
  - apply W1. rewrite rev_involutive. apply in_or_app. left. apply in_or_app. right. apply in_or_app. right. apply in_or_app. right. now left.
  - assert (I : In 60 p) by (rewrite W2; apply in_or_app; right; now left). apply P in I. unfold B in I.
    cbn in F. apply andb_prop in F. destruct F as [F1 F2].
    rewrite !in_app_iff in I. cbn in I. pose proof (proj2 (plain_name _ F1)). pose proof (shown_no_lt v). pose proof (atts_no_lt _ F2).
    intuition discriminate.
Qed.
Lemma end_tag ws d t : Forall sought ws -> simple_name t = true -> count_lines ws (indented d (py "</" ++ t ++ py ">")) = O.
Proof.
  intros W T. rewrite count_hits. apply hits_none. intros p P X. rewrite Forall_forall in W. destruct (W _ X) as [_ (n & c & r & W2 & W3)].
  unfold indented in P. rewrite <- (app_nil_r (repeat 9 d ++ py "</" ++ t ++ py ">")), sp_plain in P.
  2:{ rewrite !forallb_app, plain_tabs. cbn. now rewrite (proj1 (plain_name _ T)). }
  destruct P as [P|[]]. rewrite app_nil_r, rev_involutive in P. rewrite W2 in P. change (py "</") with [60; 47] in P. cbn [app] in P.
  apply tabs_first in P. destruct P as [_ P]. injection P as P _. congruence.
Qed.

(** Elements without text nodes. *)
Definition start_line (d : nat) (t : pystr) (a : sdict pystr) (kids : list xnode) : pystr :=
  indented d (py "<" ++ t ++ shown_atts a ++ (match kids with [] => py "/>" | _ => py ">" end)).
Definition kids_total ws d kids := total ws (flat_map (xml_lines d) kids).
Lemma elem_total ws d t a kids : Forall sought ws -> simple_name t = true -> Forall (fun x => is_text x = false) kids ->
  total ws (xml_lines d (XElem t a kids)) = (count_lines ws (start_line d t a kids) + kids_total ws (S d) kids)%nat.
Proof.
  intros W T F.
  assert (E : total ws ([indented d (py "<" ++ t ++ shown_atts a ++ py ">")] ++ flat_map (xml_lines (S d)) kids ++ [indented d (py "</" ++ t ++ py ">")])
    = (count_lines ws (indented d (py "<" ++ t ++ shown_atts a ++ py ">")) + kids_total ws (S d) kids)%nat).
  { rewrite !total_app. cbn [total]. rewrite (end_tag ws d t W T). unfold kids_total. lia. }
  destruct kids as [|[t2 a2 k2|s] [|y r]]; try exact E.
  - cbn [xml_lines total]. unfold kids_total, start_line. cbn [flat_map total]. reflexivity.
  - inversion F as [|? ? X]. discriminate X.
Qed.
Lemma kids_app ws d a b : kids_total ws d (a ++ b) = (kids_total ws d a + kids_total ws d b)%nat.
Proof. unfold kids_total. now rewrite flat_map_app, total_app. Qed.
Lemma kids_sum ws d kids n : Forall (fun x => total ws (xml_lines d x) = n) kids -> kids_total ws d kids = (List.length kids * n)%nat.
Proof.
  unfold kids_total. induction 1 as [|x l H F IH]; [reflexivity|]. cbn [flat_map]. rewrite total_app, H, IH. reflexivity.
Qed.

(** Elements that all have attributes. *)
Fixpoint attributed (x : xnode) : bool :=
  match x with XText _ => false | XElem _ [] _ => false | XElem _ (_ :: _) kids => forallb attributed kids end.
Lemma neat_kids l : forallb attributed l = true -> Forall (fun x => is_text x = false) l.
Proof.
  intros H. apply Forall_forall. intros x X. rewrite forallb_forall in H. specialize (H _ X). destruct x; [reflexivity|discriminate].
Qed.
Lemma attributed_none ws x : Forall sought ws -> forall d, shaped x = true -> attributed x = true -> total ws (xml_lines d x) = O.
Proof.
  intros W. induction x as [t a kids IH|s] using xnode_ind2; intros d S A; [|discriminate].
  assert (AK : a <> [] /\ forallb attributed kids = true) by (destruct a; [discriminate|split; [discriminate|exact A]]).
  destruct AK as [A0 AK]. cbn [shaped] in S. repeat (apply andb_prop in S; destruct S as [S ?]).
  rewrite elem_total by (auto using neat_kids). unfold start_line. rewrite start_tag; auto.
  - rewrite (kids_sum _ _ _ O); [lia|]. rewrite Forall_forall in IH |- *. rewrite forallb_forall in AK, H. intros x X. apply IH; auto.
  - destruct kids; cbn; intuition discriminate.
Qed.

(** ** The lines of a log *)
Section Trees.
Context `{FIO : FloatIO}.
Definition inert (x : xnode) : Prop := neat x /\ attributed x = true.
Lemma inert_res {A} (p : xnode -> bool) (f : A -> res xnode) l : (forall x y, In x l -> f x = Ok y -> p y = true) ->
  forall ys, map_res f l = Ok ys -> forallb p ys = true.
Proof.
  induction l as [|x l IH]; intros H ys E; cbn in E.
  - injection E as <-. reflexivity.
  - destruct (f x) as [y|] eqn:EX; [|discriminate]. destruct (map_res f l) as [zs|] eqn:EL; [|discriminate]. injection E as <-.
    cbn. rewrite (H x y (or_introl eq_refl) EX). apply IH; [|reflexivity]. intros a b HA. apply H. now right.
Qed.
Lemma write_attributed a : forall x, write_attr a = Ok x -> attributed x = true.
Proof.
  induction a as [c k e v coll meta IHc IHm] using attr_ind2. intros x. rewrite write_attr_eq.
  rewrite Forall_forall in IHc, IHm. destruct (is_collection c).
  - destruct (map_res write_attr coll) as [ns|] eqn:E; [|discriminate]. cbn [bind]. intros Q. injection Q as <-.
    cbn [attributed]. eapply inert_res; [|exact E]. intros y z HY. now apply IHc.
  - destruct (attr_str _) as [s|]; [|discriminate]. cbn [bind]. destruct (map_res write_attr (map snd meta)) as [ns|] eqn:E; [|discriminate]. cbn [bind].
    intros Q. injection Q as <-. cbn [attributed].
    eapply inert_res; [|exact E]. intros y z HY. apply in_map_iff in HY. destruct HY as (kv & <- & HK). now apply IHm.
Qed.
Lemma attributes_inert l xs : add_attributes l = Ok xs -> Forall inert xs.
Proof.
  intros E. assert (N := attributes_neat _ _ E). assert (A := inert_res attributed _ _ (fun x y _ => write_attributed x y) _ E).
  rewrite forallb_forall in A. rewrite Forall_forall in N |- *. intros x X. split; auto.
Qed.
Lemma globals_inert s l xs : add_global_attributes s l = Ok xs -> Forall inert xs.
Proof.
  intros E. assert (N := globals_neat _ _ _ E). unfold add_global_attributes in E.
  destruct l as [|a l]; [injection E as <-; constructor|].
  destruct (add_attributes (a :: l)) as [ns|] eqn:EA; [|discriminate]. cbn [bind] in E. injection E as <-.
  inversion_clear N. constructor; [|constructor]. split; [assumption|]. cbn [attributed].
  apply attributes_inert in EA. apply forallb_forall. rewrite Forall_forall in EA. intros x X. now apply EA.
Qed.
Lemma inert_zero ws d l : Forall sought ws -> Forall inert l -> kids_total ws d l = O.
Proof.
  intros W F. rewrite (kids_sum ws d l O); [lia|]. revert F. apply Forall_impl. intros x [[S _] A]. now apply attributed_none.
Qed.
Lemma inert_text l : Forall inert l -> Forall (fun x => is_text x = false) l.
Proof. apply Forall_impl. intros x [[_ T] _]. exact T. Qed.
Lemma map_res_each {A B} (f : A -> res B) (P : A -> B -> Prop) l : (forall x y, f x = Ok y -> P x y) ->
  forall ys, map_res f l = Ok ys -> Forall2 P l ys.
Proof.
  intros H. induction l as [|x l IH]; intros ys E; cbn in E.
  - injection E as <-. constructor.
  - destruct (f x) as [y|] eqn:EX; [|discriminate]. destruct (map_res f l) as [zs|]; [|discriminate]. injection E as <-.
    constructor; auto.
Qed.
(** What an event and a trace add. *)
Definition adds ws d n (x : xnode) : Prop := is_text x = false /\ total ws (xml_lines d x) = n.
Lemma event_adds ws n e x : Forall sought ws ->
  (count_lines ws (9 :: 9 :: py "<event>") = n) -> (count_lines ws (9 :: 9 :: py "<event/>") = n) ->
  write_event e = Ok x -> adds ws 2 n x.
Proof.
  intros W C1 C2. unfold write_event. destruct (add_attributes _) as [ns|] eqn:E; [|discriminate]. cbn [bind]. intros Q. injection Q as <-.
  apply attributes_inert in E. split; [reflexivity|]. rewrite elem_total by (auto using inert_text).
  rewrite inert_zero by assumption. unfold start_line. destruct ns; cbn [app shown_atts flat_map indented repeat]; rewrite Nat.add_0_r; assumption.
Qed.
Lemma sum_adds {A} ws d (f : A -> nat) l ys : Forall2 (fun a x => adds ws d (f a) x) l ys -> kids_total ws d ys = list_sum (map f l).
Proof.
  unfold kids_total. induction 1 as [|a x l ys [_ H] F IH]; [reflexivity|]. cbn [flat_map map list_sum fold_right]. rewrite total_app, H, IH. reflexivity.
Qed.
Lemma adds_text {A} ws d (f : A -> nat) l ys : Forall2 (fun a x => adds ws d (f a) x) l ys -> Forall (fun x => is_text x = false) ys.
Proof. induction 1 as [|a x l ys [H _] F IH]; constructor; auto. Qed.
Lemma trace_adds ws n m t x : Forall sought ws ->
  (count_lines ws (9 :: 9 :: py "<event>") = n) -> (count_lines ws (9 :: 9 :: py "<event/>") = n) ->
  (count_lines ws (9 :: py "<trace>") = m) -> (count_lines ws (9 :: py "<trace/>") = m) ->
  write_trace t = Ok x -> adds ws 1 (m + list_sum (map (fun _ => n) (tr_events t)))%nat x.
Proof.
  intros W C1 C2 C3 C4. unfold write_trace. destruct (add_attributes _) as [ns|] eqn:E; [|discriminate].
  destruct (map_res write_event _) as [es|] eqn:EE; [|discriminate]. cbn [bind]. intros Q. injection Q as <-.
  apply attributes_inert in E. apply (map_res_each _ (fun _ x => adds ws 2 n x) _ (fun e x => event_adds ws n e x W C1 C2)) in EE.
  split; [reflexivity|]. rewrite elem_total; [|assumption|reflexivity|].
  - rewrite kids_app, inert_zero by assumption. rewrite (sum_adds _ _ (fun _ => n) _ _ EE). rewrite Nat.add_0_l. f_equal.
    unfold start_line. destruct (ns ++ es); cbn [app shown_atts flat_map indented repeat]; assumption.
  - apply Forall_app. split; [now apply inert_text|]. exact (adds_text _ _ (fun _ => n) _ _ EE).
Qed.
Lemma log_total ws n m l doc : Forall sought ws ->
  (count_lines ws (9 :: 9 :: py "<event>") = n) -> (count_lines ws (9 :: 9 :: py "<event/>") = n) ->
  (count_lines ws (9 :: py "<trace>") = m) -> (count_lines ws (9 :: py "<trace/>") = m) ->
  xes_serialize l = Ok doc ->
  total ws (xml_lines 0 doc) = list_sum (map (fun t => m + list_sum (map (fun _ => n) (tr_events t))) (lg_traces l))%nat.
Proof.
  intros W C1 C2 C3 C4. unfold xes_serialize. destruct (add_global_attributes (py "trace") _) as [gt|] eqn:E1; [|discriminate].
  destruct (add_global_attributes (py "event") _) as [ge|] eqn:E2; [|discriminate].
  destruct (add_attributes _) as [ns|] eqn:E3; [|discriminate]. destruct (map_res write_trace _) as [ts|] eqn:E4; [|discriminate].
  cbn [bind]. intros Q. injection Q as <-.
  apply globals_inert in E1, E2. apply attributes_inert in E3.
  assert (X1 : Forall inert (map write_extension (lg_exts l))).
  { apply Forall_forall. intros x HX. apply in_map_iff in HX. destruct HX as (e & <- & _). split; [|reflexivity]. apply neat_elem; try reflexivity. constructor. }
  assert (X2 : Forall inert (map write_classifier (lg_classifiers l))).
  { apply Forall_forall. intros x HX. apply in_map_iff in HX. destruct HX as (e & <- & _). split; [|reflexivity]. apply neat_elem; try reflexivity. constructor. }
  apply (map_res_each _ (fun t x => adds ws 1 (m + list_sum (map (fun _ => n) (tr_events t)))%nat x) _ (fun t x => trace_adds ws n m t x W C1 C2 C3 C4)) in E4.
  rewrite elem_total; [|assumption|reflexivity|].
  - unfold start_line. rewrite start_tag; [|assumption|discriminate|reflexivity|reflexivity|].
    + rewrite !kids_app, !inert_zero by assumption. cbn [Nat.add]. exact (sum_adds _ _ _ _ _ E4).
    + match goal with |- ~ In 60 (match ?l with _ => _ end) => destruct l end; cbn; intuition discriminate.
  - rewrite !Forall_app. repeat split; try (now apply inert_text). exact (adds_text _ _ _ _ _ E4).
Qed.
Lemma sum_const {A} n (l : list A) : list_sum (map (fun _ => n) l) = (List.length l * n)%nat.
Proof. unfold list_sum. induction l as [|x l IH]; [reflexivity|]. cbn. now rewrite IH. Qed.

Lemma legal_written cs doc text : write_xml cs doc = Some text -> legal_tree doc = true.
Proof. intros E. destruct (legal_tree doc) eqn:L; [reflexivity|]. rewrite write_none in E by exact L. discriminate. Qed.
Lemma attributed_texts x : attributed x = true -> no_texts x = true.
Proof.
  induction x as [t a kids IH|s] using xnode_ind2; [|discriminate]. intros A. cbn [no_texts].
  assert (AK : forallb attributed kids = true) by (destruct a; [discriminate|exact A]).
  apply forallb_forall. rewrite forallb_forall in AK. rewrite Forall_forall in IH. auto.
Qed.
Lemma inert_no_texts l : Forall inert l -> forallb no_texts l = true.
Proof. intros F. apply forallb_forall. rewrite Forall_forall in F. intros x X. apply attributed_texts. now apply F. Qed.
Lemma event_no_texts e x : write_event e = Ok x -> no_texts x = true.
Proof.
  unfold write_event. destruct (add_attributes _) as [ns|] eqn:E; [|discriminate]. cbn [bind]. intros Q. injection Q as <-.
  exact (inert_no_texts _ (attributes_inert _ _ E)).
Qed.
Lemma trace_no_texts t x : write_trace t = Ok x -> no_texts x = true.
Proof.
  unfold write_trace. destruct (add_attributes _) as [ns|] eqn:E; [|discriminate].
  destruct (map_res write_event _) as [es|] eqn:EE; [|discriminate]. cbn [bind]. intros Q. injection Q as <-.
  cbn [no_texts]. rewrite forallb_app, (inert_no_texts _ (attributes_inert _ _ E)). cbn [andb].
  exact (inert_res no_texts _ _ (fun e x _ => event_no_texts e x) _ EE).
Qed.
Lemma xes_no_texts l doc : xes_serialize l = Ok doc -> no_texts doc = true.
Proof.
  unfold xes_serialize. destruct (add_global_attributes (py "trace") _) as [gt|] eqn:E1; [|discriminate].
  destruct (add_global_attributes (py "event") _) as [ge|] eqn:E2; [|discriminate].
  destruct (add_attributes _) as [ns|] eqn:E3; [|discriminate]. destruct (map_res write_trace _) as [ts|] eqn:E4; [|discriminate].
  cbn [bind]. intros Q. injection Q as <-. apply globals_inert in E1, E2. apply attributes_inert in E3.
  cbn [no_texts]. rewrite !forallb_app, (inert_no_texts _ E1), (inert_no_texts _ E2), (inert_no_texts _ E3).
  rewrite (inert_res no_texts _ _ (fun t x _ => trace_no_texts t x) _ E4).
  rewrite !forallb_map'. cbn [no_texts forallb write_extension write_classifier andb].
  assert (T : forall A (l : list A), forallb (fun _ => true) l = true) by (intros A r; now induction r).
  now rewrite !T.
Qed.
Lemma xes_layout l doc text : xes_serialize l = Ok doc -> write_xml xes_comments doc = Some text ->
  text = in_lines (xes_head ++ xml_lines 0 doc).
Proof.
  intros E W. destruct (xes_neat _ _ E) as [S T]. assert (L := legal_written _ _ _ W).
  rewrite (file_lines _ _ S T L) in W. injection W as <-. rewrite (no_texts_same _ (xes_no_texts _ _ E)). reflexivity.
Qed.
Lemma mxml_layout l doc text : mxml_serialize l = Ok doc -> write_xml mxml_comments doc = Some text ->
  text = in_lines (mxml_head ++ xml_lines 0 (lf_texts doc)).
Proof.
  intros E W. destruct (mxml_neat _ _ E) as [S T]. assert (L := legal_written _ _ _ W).
  rewrite (file_lines _ _ S T L) in W. injection W as <-. reflexivity.
Qed.
Lemma sought_traces : Forall sought trace_lines.
Proof.
  unfold sought. repeat constructor; try (cbn; intuition discriminate);
    [exists 1%nat, 116, (py "race>")|exists 1%nat, 116, (py "race/>")]; (split; [reflexivity|discriminate]).
Qed.
Lemma sought_events : Forall sought event_lines.
Proof.
  unfold sought. repeat constructor; try (cbn; intuition discriminate);
    [exists 2%nat, 101, (py "vent>")|exists 2%nat, 101, (py "vent/>")]; (split; [reflexivity|discriminate]).
Qed.
Lemma xes_counts l doc text : xes_serialize l = Ok doc -> write_xml xes_comments doc = Some text ->
  count_lines trace_lines text = List.length (lg_traces l)
  /\ count_lines event_lines text = List.length (flat_map tr_events (lg_traces l)).
Proof.
  intros E W. rewrite (xes_layout _ _ _ E W), !count_total by (cbn; intuition discriminate). rewrite !total_app. split.
  - rewrite (log_total _ 0 1 _ _ sought_traces eq_refl eq_refl eq_refl eq_refl E).
    change (total trace_lines xes_head) with O. induction (lg_traces l) as [|t ts IH]; [reflexivity|].
    cbn [map list_sum fold_right List.length Nat.add] in *. rewrite sum_const, Nat.mul_0_r. cbn. now f_equal.
  - rewrite (log_total _ 1 0 _ _ sought_events eq_refl eq_refl eq_refl eq_refl E).
    change (total event_lines xes_head) with O. induction (lg_traces l) as [|t ts IH]; [reflexivity|].
    cbn [map list_sum fold_right flat_map Nat.add] in *. rewrite sum_const, Nat.mul_1_r, app_length. now f_equal.
Qed.

(** Without line breaks and tabs in the values. *)
Definition lf_free (s : pystr) : bool := forallb (fun c => negb (c =? 10)) s.
Lemma free_app a b : lf_free (a ++ b) = lf_free a && lf_free b. Proof. apply forallb_app. Qed.
Lemma free_shown s : calm s = true -> lf_free (shown s) = true.
Proof.
  induction s as [|c s IH]; [reflexivity|]. intros H. cbn in H. apply andb_prop in H. destruct H as [A B].
  change (shown (c :: s)) with (shown_char c ++ shown s). rewrite free_app, IH by exact B. rewrite andb_true_r.
  unfold shown_char. destruct (c =? 38); [reflexivity|]. destruct (c =? 60); [reflexivity|]. destruct (c =? 62); [reflexivity|].
  destruct (c =? 34); [reflexivity|]. cbn. destruct (c =? 10); [|reflexivity]. rewrite orb_true_r in A. discriminate A.
Qed.
Lemma free_atts a : forallb (fun kv => simple_name (fst kv)) a = true -> forallb (fun kv => calm (snd kv)) a = true ->
  lf_free (shown_atts a) = true.
Proof.
  induction a as [|[k v] a IH]; [reflexivity|]. intros F C. cbn in F, C. apply andb_prop in F, C. destruct F as [F1 F2], C as [C1 C2].
  change (shown_atts ((k, v) :: a)) with ((py " " ++ k ++ py "=""" ++ shown v ++ py """") ++ shown_atts a).
  rewrite !free_app, IH, (free_shown v C1) by assumption. unfold lf_free at 2. rewrite (proj1 (plain_name _ F1)). reflexivity.
Qed.
Lemma free_lines x : forall d, shaped x = true -> no_texts x = true -> calm_tree x = true -> forallb lf_free (xml_lines d x) = true.
Proof.
  induction x as [t a kids IH|s] using xnode_ind2; intros d S T C; [|discriminate].
  cbn [shaped no_texts calm_tree] in S, T, C. repeat (apply andb_prop in S; destruct S as [S ?]). apply andb_prop in C. destruct C as [C1 C2].
  assert (N := proj1 (plain_name _ S)). assert (A := free_atts a ltac:(assumption) C1). assert (TD := plain_tabs d).
  assert (K : forallb lf_free (flat_map (xml_lines (Datatypes.S d)) kids) = true).
  { apply forallb_forall. intros l L. apply in_flat_map in L. destruct L as (x & X & L).
    rewrite Forall_forall in IH. rewrite forallb_forall in T, C2, H.
    specialize (IH x X (Datatypes.S d) (H x X) (T x X) (C2 x X)). rewrite forallb_forall in IH. exact (IH l L). }
  assert (O : forall tail, lf_free tail = true -> lf_free (indented d (py "<" ++ t ++ shown_atts a ++ tail)) = true).
  { intros tail HT. unfold indented. rewrite !free_app, A, HT. unfold lf_free. rewrite TD, N. reflexivity. }
  assert (E : lf_free (indented d (py "</" ++ t ++ py ">")) = true).
  { unfold indented. rewrite !free_app. unfold lf_free. rewrite TD, N. reflexivity. }
  destruct kids as [|[t2 a2 k2|s] [|y r]]; try discriminate T.
  - cbn [xml_lines forallb]. now rewrite O.
  - cbn [xml_lines]. rewrite !forallb_app, K. cbn [forallb]. rewrite O, E by reflexivity. reflexivity.
  - cbn [xml_lines]. rewrite !forallb_app, K. cbn [forallb]. rewrite O, E by reflexivity. reflexivity.
Qed.
Lemma split_lines ls : forallb lf_free ls = true -> split [10] (in_lines ls) = ls ++ [[]].
Proof.
  change (split [10] (in_lines ls)) with (sp [] (in_lines ls)).
  induction ls as [|l ls IH]; [reflexivity|]. cbn [forallb]. intros H. apply andb_prop in H. destruct H as [A B].
  change (in_lines (l :: ls)) with ((l ++ [10]) ++ in_lines ls). rewrite <- app_assoc. cbn [app]. rewrite sp_lf, (IH B).
  rewrite <- (app_nil_r l) at 1. rewrite sp_plain by exact A. cbn. now rewrite app_nil_r, rev_involutive.
Qed.
Lemma xes_one_line l doc text : xes_serialize l = Ok doc -> calm_tree doc = true -> write_xml xes_comments doc = Some text ->
  split [10] text = xes_head ++ xml_lines 0 doc ++ [[]].
Proof.
  intros E C W. rewrite (xes_layout _ _ _ E W), split_lines; [now rewrite <- app_assoc|].
  rewrite forallb_app. rewrite free_lines; [reflexivity|apply (xes_neat _ _ E)|apply (xes_no_texts _ _ E)|exact C].
Qed.
End Trees.
