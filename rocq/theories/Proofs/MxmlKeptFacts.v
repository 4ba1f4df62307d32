(** Proofs for C105. *)
From Coq Require Import String NArith ZArith List Bool Lia.
From Verif Require Import Base.PyBase Base.PyDate Base.PyVal Base.Xml Model.Attr Model.Log Model.XmlChars Model.MxmlWrite Model.FileNames Model.Files
  Base.Codec Spec.OnDisk Proofs.DiskFacts
  Spec.Mxml Spec.MxmlWritten Spec.XmlNorm Spec.XmlLines Spec.MxmlKept
  Spec.DateText Spec.XesWritten Proofs.BaseFacts Proofs.XidFacts Proofs.DateFacts Proofs.MxmlWrittenFacts Proofs.XesWrittenFacts Proofs.SameFileFacts.
Import ListNotations.

Section S.
Context `{FIO : FloatIO}.

(** ** The document drawn from what is kept *)
Definition tn (s : pystr) : list xnode := match s with [] => [] | _ => [XText s] end.
Definition rf (r : option pystr) : sdict pystr := match r with Some s => [(py "modelReference", s)] | None => [] end.
Definition rdata (d : list pystr) : xnode :=
  XElem (py "Data") [] (map (fun s => XElem (py "attribute") [(py "name", py "semantic:modelReference")] (tn s)) d).
Definition rtype (t : pystr + pystr) (r : option pystr) : xnode :=
  match t with
  | inl w => XElem (py "EventType") (rf r) [XText w]
  | inr s => XElem (py "EventType") (rf r ++ [(py "unknownType", s)]) [XText (py "unknown")]
  end.
Definition rfield (tag : string) (o : option (pystr * option pystr)) : list xnode :=
  match o with Some (s, r) => [XElem (py tag) (rf r) (tn s)] | None => [] end.
Definition revent (e : kept_event) : xnode :=
  XElem (py "AuditTrailEntry") []
    ([rdata (ke_data e); XElem (py "WorkflowModelElement") (rf (ke_ref e)) (tn (ke_name e)); rtype (ke_type e) (ke_type_ref e)]
     ++ rfield "originator" (ke_who e) ++ rfield "timestamp" (ke_when e)).
Definition rtrace (t : kept_trace) : xnode :=
  XElem (py "ProcessInstance") ([(py "id", kt_name t); (py "description", py "instance with id " ++ kt_name t)] ++ rf (kt_ref t))
        (rdata (kt_data t) :: map revent (kt_events t)).
Definition rlog (l : kept_log) : xnode :=
  XElem (py "WorkflowLog") []
    [XElem (py "Source") [(py "program", py "XES MXML serialization"); (py "openxes.version", py "1.0RC7")] [];
     XElem (py "Process")
       ([(py "id", or_none "none" (kl_name l)); (py "description", py "process with id " ++ or_none "None" (kl_name l))] ++ rf (kl_ref l))
       (rdata (kl_data l) :: map rtrace (kl_traces l))].

Lemma tn_inj s t : tn s = tn t -> s = t.
Proof. destruct s, t; cbn; intros E; try discriminate; [reflexivity|]. injection E as -> ->. reflexivity. Qed.
Lemma rf_inj r s : rf r = rf s -> r = s.
Proof. destruct r, s; cbn; intros E; try discriminate; [injection E as ->|]; reflexivity. Qed.
Lemma map_inj {A B} (f : A -> B) : (forall a b, f a = f b -> a = b) -> forall l m, map f l = map f m -> l = m.
Proof. intros H. induction l as [|a l IH]; intros [|b m] E; try discriminate; [reflexivity|]. cbn in E. injection E as E1 E2. f_equal; auto. Qed.
Lemma rdata_inj d e : rdata d = rdata e -> d = e.
Proof. unfold rdata. intros E. assert (X : forall t a k t' a' k', XElem t a k = XElem t' a' k' -> k = k') by (now injection 1).
  apply X in E. revert E. apply map_inj. intros a b E. apply X in E. now apply tn_inj. Qed.
Lemma elem_inj t a k t' a' k' : XElem t a k = XElem t' a' k' -> t = t' /\ a = a' /\ k = k'.
Proof. now injection 1. Qed.
Lemma rtype_inj t r u s : rtype t r = rtype u s -> t = u /\ r = s.
Proof.
  destruct t as [w|w], u as [x|x]; cbn [rtype]; intros E; apply elem_inj in E; destruct E as (_ & A & K).
  - injection K as ->. apply rf_inj in A. now subst.
  - exfalso. destruct r, s; cbn in A; discriminate.
  - exfalso. destruct r, s; cbn in A; discriminate.
  - apply app_inj_tail in A. destruct A as [A B]. injection B as ->. apply rf_inj in A. now subst.
Qed.
Lemma fields_inj o p o2 p2 : rfield "originator" o ++ rfield "timestamp" p = rfield "originator" o2 ++ rfield "timestamp" p2 -> o = o2 /\ p = p2.
Proof.
  assert (T : py "originator" <> py "timestamp") by discriminate. remember (py "originator") as u eqn:U. remember (py "timestamp") as v eqn:V.
  destruct o as [[s r]|], p as [[s1 r1]|], o2 as [[s2 r2]|], p2 as [[s3 r3]|]; cbn [rfield app]; rewrite <- ?U, <- ?V; intros E; try discriminate.
  all: repeat match goal with
       | H : _ :: _ = _ :: _ |- _ => let X := fresh in let Y := fresh in
           assert (X := f_equal (hd (XText [])) H); assert (Y := f_equal (@tl _) H); cbn [hd tl] in X, Y; clear H
       | H : XElem _ _ _ = XElem _ _ _ |- _ => apply elem_inj in H; destruct H as (? & ? & ?)
       | H : rf _ = rf _ |- _ => apply rf_inj in H
       | H : tn _ = tn _ |- _ => apply tn_inj in H
       end; try discriminate; try (exfalso; congruence); subst; auto.
Qed.
Lemma revent_inj e f : revent e = revent f -> e = f.
Proof.
  destruct e as [d r n t tr w h], f as [d' r' n' t' tr' w' h']. unfold revent. cbn [ke_data ke_ref ke_name ke_type ke_type_ref ke_who ke_when app].
  intros E. apply elem_inj in E. destruct E as (_ & _ & E). injection E as E1 E2 E3 E4 E5.
  change (map (fun s => XElem (py "attribute") [(py "name", py "semantic:modelReference")] (tn s)) d
          = map (fun s => XElem (py "attribute") [(py "name", py "semantic:modelReference")] (tn s)) d') in E1.
  apply (f_equal (XElem (py "Data") [])) in E1. apply rdata_inj in E1. apply rf_inj in E2. apply tn_inj in E3. apply rtype_inj in E4.
  apply fields_inj in E5. destruct E4, E5. now subst.
Qed.
Lemma rtrace_inj t u : rtrace t = rtrace u -> t = u.
Proof.
  destruct t as [n r d es], u as [n' r' d' es']. unfold rtrace. cbn [kt_name kt_ref kt_data kt_events].
  intros E. apply elem_inj in E. destruct E as (_ & A & K). cbn [app] in A. injection A as A1 _ A3.
  assert (K1 := f_equal (hd (XText [])) K). assert (K2 := f_equal (@tl _) K). cbn [hd tl] in K1, K2.
  apply rdata_inj in K1. apply (map_inj _ revent_inj) in K2. apply rf_inj in A3. now subst.
Qed.
Lemma rlog_inj l m : rlog l = rlog m -> l = m.
Proof.
  destruct l as [n r d es], m as [n' r' d' es']. unfold rlog. cbn [kl_name kl_ref kl_data kl_traces].
  intros E. apply elem_inj in E. destruct E as (_ & _ & E). assert (E2 := f_equal (@tl _) E). cbn [tl] in E2.
  apply (f_equal (hd (XText []))) in E2. cbn [hd] in E2. clear E. apply elem_inj in E2. destruct E2 as (_ & A & K).
  assert (A1 := f_equal (fun l => snd (hd ([], []) l)) A). assert (A2 := f_equal (fun l => snd (hd ([], []) (tl l))) A).
  assert (A3 := f_equal (fun l => tl (tl l)) A). cbn [hd tl snd app] in A1, A2, A3. clear A.
  assert (K1 := f_equal (hd (XText [])) K). assert (K2 := f_equal (@tl _) K). cbn [hd tl] in K1, K2.
  apply rdata_inj in K1. apply (map_inj _ rtrace_inj) in K2. apply rf_inj in A3. apply app_inv_head in A2.
  subst. f_equal. destruct n as [n|], n' as [n'|]; cbn [or_none] in A1, A2; subst; try reflexivity; try discriminate.
Qed.

(** ** It is the document that is written, but for line breaks *)
Lemma lf_elem t a k : lf_texts (XElem t a k) = XElem t a (map lf_texts k). Proof. reflexivity. Qed.
Lemma lf_nodes s : map lf_texts (text_nodes s) = tn (lf_only s).
Proof. destruct s as [|c s]; [reflexivity|]. assert (X := lf_some (c :: s)). cbn [text_nodes map lf_texts]. destruct (lf_only (c :: s)) as [|]; [exfalso; now apply X|reflexivity]. Qed.
Lemma lf_shown v : map lf_texts (MxmlWritten.shown v) = tn (text_val v).
Proof. destruct v; try reflexivity. apply lf_nodes. Qed.
Lemma ref_rf m : reference m = rf (MxmlKept.ref_text m).
Proof. reflexivity. Qed.
Lemma data_kept m : lf_texts (data_doc m) = rdata (ref_data m).
Proof.
  unfold data_doc, rdata, ref_data. rewrite lf_elem, !map_map. f_equal. apply map_ext. intros a. rewrite lf_elem. f_equal.
  destruct (attr_str a); [apply lf_nodes|reflexivity].
Qed.
Lemma types_same : standard_types = twelve. Proof. reflexivity. Qed.
Lemma lower_lf t : existsb (str_eqb t) twelve = true -> lf_only t = t.
Proof.
  intros E. apply existsb_exists in E. destruct E as (w & I & E). apply str_eqb_eq in E. subst w.
  repeat (destruct I as [<-|I]; [vm_compute; reflexivity|]). destruct I.
Qed.
Lemma type_doc_kept m : lf_texts (type_doc m) = rtype (type_kept m) (match sget (py "lifecycle:transition") m with Some a => MxmlKept.ref_text (a_meta a) | None => None end).
Proof.
  unfold type_doc, type_kept. rewrite types_same. destruct (sget (py "lifecycle:transition") m) as [a|]; [|vm_compute; reflexivity].
  cbv zeta. destruct (existsb _ twelve) eqn:E; rewrite lf_elem; cbn [rtype map lf_texts]; rewrite ref_rf; [|reflexivity].
  now rewrite (lower_lf _ E).
Qed.
Lemma originator_kept m : map lf_texts (map (fun a => XElem (py "originator") (reference (a_meta a)) (MxmlWritten.shown (a_val a))) (originator m))
  = rfield "originator" (field text_val (or_else (sget (py "org:resource") m) (or_else (sget (py "org:role") m) (sget (py "org:group") m)))).
Proof.
  unfold originator, first_of. cbn [flat_map].
  destruct (sget (py "org:resource") m) as [a|], (sget (py "org:role") m) as [b|], (sget (py "org:group") m) as [c|]; cbn [or_else field option_map app firstn map rfield];
    rewrite ?lf_elem, ?lf_shown; reflexivity.
Qed.
Lemma time_kept m : map lf_texts (map (fun a => XElem (py "timestamp") (reference (a_meta a)) (text_nodes (py_str (a_val a)))) (first_of ["time:timestamp"%string] m))
  = rfield "timestamp" (field (fun v => lf_only (py_str v)) (sget (py "time:timestamp") m)).
Proof.
  unfold first_of. cbn [flat_map]. destruct (sget (py "time:timestamp") m) as [a|]; cbn [field option_map app firstn map rfield]; [|reflexivity].
  now rewrite lf_elem, lf_nodes.
Qed.
Lemma event_doc_kept e : lf_texts (event_doc e) = revent (event_kept e).
Proof.
  unfold event_doc, revent, event_kept. cbn [ke_data ke_ref ke_name ke_type ke_type_ref ke_who ke_when]. cbv zeta.
  rewrite lf_elem, !map_app, originator_kept, time_kept. cbn [map]. rewrite data_kept, type_doc_kept, lf_elem. unfold shown_at.
  destruct (sget (py "concept:name") (ev_attrs e)); [rewrite lf_shown|]; reflexivity.
Qed.
Lemma trace_doc_kept t : lf_texts (trace_doc t) = rtrace (trace_kept t).
Proof.
  unfold trace_doc, rtrace, trace_kept. cbn [kt_name kt_ref kt_data kt_events]. cbv zeta. rewrite lf_elem. cbn [map]. rewrite data_kept, !map_map.
  rewrite (map_ext _ _ event_doc_kept). reflexivity.
Qed.
Lemma log_doc_kept l : lf_texts (log_doc l) = rlog (log_kept l).
Proof.
  unfold log_doc, rlog, log_kept. cbn [kl_name kl_ref kl_data kl_traces]. cbv zeta. rewrite lf_elem. cbn [map].
  rewrite !lf_elem. cbn [map]. rewrite data_kept, !map_map. rewrite (map_ext _ _ trace_doc_kept). reflexivity.
Qed.

Lemma written_doc l doc : mxml_serialize l = Ok doc -> doc = log_doc l.
Proof. rewrite mxml_write_outcome. destruct (write_faults l); [|discriminate]. now injection 1. Qed.
Theorem same_mxml_file l m doc doc2 text text2 : mxml_serialize l = Ok doc -> mxml_serialize m = Ok doc2 ->
  write_xml mxml_comments doc = Some text -> write_xml mxml_comments doc2 = Some text2 -> (text = text2 <-> log_kept l = log_kept m).
Proof.
  intros E F W X. rewrite (mxml_same_tree l m _ _ _ _ E F W X). apply written_doc in E, F. subst. rewrite !log_doc_kept.
  split; [apply rlog_inj|congruence].
Qed.
End S.

(** ** Dates *)
Definition isd (c : N) : Prop := (48 <= c <= 57)%N.
Definition no_digit (s : pystr) : Prop := match s with [] => True | c :: _ => ~ isd c end.
Lemma digits_cut u v : forall r s, Forall isd u -> Forall isd v -> no_digit r -> no_digit s -> u ++ r = v ++ s -> u = v /\ r = s.
Proof.
  revert v. induction u as [|a u IH]; intros [|b v] r s U V R S E.
  - auto.
  - exfalso. cbn in E. subst r. inversion V; subst. now apply R.
  - exfalso. cbn in E. subst s. inversion U; subst. now apply S.
  - cbn in E. injection E as -> E. inversion U; subst. inversion V; subst. destruct (IH v r s) as [-> ->]; auto.
Qed.
Lemma padded w z : (0 <= z)%Z -> exists ds, Forall (fun d => 0 <= d <= 9)%Z ds /\ horner 10 ds = z /\ pad0 w (print_Z z) = map digit ds.
Proof.
  intros P. destruct (print_Z_text z) as (ds & _ & F & _ & H & T). destruct (Z.ltb_spec z 0); [lia|]. cbn [app] in T.
  exists (repeat 0%Z (w - List.length (print_Z z)) ++ ds). split; [apply Forall_app; split; [apply Forall_forall; intros x I; apply repeat_spec in I; lia|exact F]|].
  split.
  - unfold horner in *. rewrite fold_left_app.
    assert (X : forall n a, a = 0%Z -> fold_left (fun n0 d => 10 * n0 + d)%Z (repeat 0%Z n) a = 0%Z).
    { induction n as [|n IH]; intros a ->; [reflexivity|]. cbn [repeat fold_left]. now apply IH. }
    rewrite X by reflexivity. lia.
  - unfold pad0. rewrite map_app, <- T. f_equal. generalize (w - List.length (print_Z z))%nat. induction n as [|n IH]; [reflexivity|]. cbn [repeat map]. now rewrite <- IH.
Qed.
Lemma digit_inj l : forall m, Forall (fun d => 0 <= d <= 9)%Z l -> Forall (fun d => 0 <= d <= 9)%Z m -> map digit l = map digit m -> l = m.
Proof.
  induction l as [|x l IH]; intros [|y m] A B E; try discriminate; [reflexivity|]. cbn [map] in E. injection E as E1 E2.
  inversion A; subst. inversion B; subst. f_equal; [|auto]. unfold digit in E1. lia.
Qed.
Lemma digits_isd l : Forall (fun d => 0 <= d <= 9)%Z l -> Forall isd (map digit l).
Proof. induction 1; constructor; auto. unfold isd, digit. lia. Qed.
(** A number and what follows it can be told apart. *)
Lemma number_cut w a b r s : (0 <= a)%Z -> (0 <= b)%Z -> no_digit r -> no_digit s ->
  pad0 w (print_Z a) ++ r = pad0 w (print_Z b) ++ s -> a = b /\ r = s.
Proof.
  intros A B R S E. destruct (padded w a A) as (l & L & H & T). destruct (padded w b B) as (m & M & G & U). rewrite T, U in E.
  apply digits_cut in E; auto using digits_isd. destruct E as [E ->]. apply digit_inj in E; auto. subst. auto.
Qed.
Lemma nd_cons c s : ((c <? 48) || (57 <? c))%N = true -> no_digit (c :: s).
Proof. intros H [A B]. apply N.leb_le in A, B. apply orb_true_iff in H. rewrite !N.ltb_lt in H. rewrite !N.leb_le in *. lia. Qed.
Ltac nd := repeat match goal with |- no_digit (if ?b then _ else _) => destruct b | |- no_digit ((if ?b then _ else _) ++ _) => destruct b end;
  first [exact Logic.I | apply nd_cons; reflexivity].
Lemma iso_offset_inj a b : iso_offset a = iso_offset b -> a = b.
Proof.
  unfold iso_offset, p2. cbv zeta. set (x := Z.abs a). set (y := Z.abs b).
  assert (X : (0 <= x)%Z) by lia. assert (Y : (0 <= y)%Z) by lia.
  assert (DX := Z.div_mod x 1000000). assert (DY := Z.div_mod y 1000000). unfold minute_us.
  intros E. assert (SG : (a <? 0)%Z = (b <? 0)%Z).
  { destruct (a <? 0)%Z, (b <? 0)%Z; try reflexivity; cbn [app] in E; discriminate. }
  rewrite SG in E. apply app_inv_head in E.
  apply number_cut in E; [|apply Z.div_pos; lia|apply Z.div_pos; lia|nd..].
  destruct E as [E1 E]. apply (app_inv_head (py ":")) in E.
  assert (MX := Z.mod_pos_bound (x / 60000000) 60). assert (MY := Z.mod_pos_bound (y / 60000000) 60).
  assert (SX := Z.mod_pos_bound (x / 1000000) 60). assert (SY := Z.mod_pos_bound (y / 1000000) 60).
  assert (UX := Z.mod_pos_bound x 1000000). assert (UY := Z.mod_pos_bound y 1000000).
  apply number_cut in E; [| lia | lia | nd | nd].
  destruct E as [E2 E].
  assert (S2 : ((x / 1000000) mod 60 = (y / 1000000) mod 60)%Z /\ (x mod 1000000 = y mod 1000000)%Z).
  { destruct ((x / 1000000) mod 60 =? 0)%Z eqn:A1, (x mod 1000000 =? 0)%Z eqn:A2, ((y / 1000000) mod 60 =? 0)%Z eqn:B1, (y mod 1000000 =? 0)%Z eqn:B2;
      cbn [andb] in E; try discriminate; repeat match goal with H : (_ =? 0)%Z = true |- _ => apply Z.eqb_eq in H end; try (split; congruence).
    all: apply (app_inv_head (py ":")) in E; apply number_cut in E; [|lia|lia|nd|nd]; destruct E as [E3 E];
      try discriminate E; split; auto; try congruence.
    all: apply (app_inv_head (py ".")) in E; rewrite <- (app_nil_r (pad0 6 (print_Z (x mod 1000000)))), <- (app_nil_r (pad0 6 (print_Z (y mod 1000000)))) in E;
      apply number_cut in E; [tauto|lia|lia|exact Logic.I|exact Logic.I]. }
  destruct S2 as [S2 S3].
  assert (Q : x = y).
  { assert (HX := Z.div_mod (x / 60000000) 60). assert (HY := Z.div_mod (y / 60000000) 60).
    assert (HX2 := Z.div_mod (x / 1000000) 60). assert (HY2 := Z.div_mod (y / 1000000) 60).
    rewrite Z.div_div in HX, HY, HX2, HY2 by lia. change (60000000 * 60)%Z with 3600000000%Z in *. change (1000000 * 60)%Z with 60000000%Z in *. lia. }
  subst x y. destruct (Z.ltb_spec a 0), (Z.ltb_spec b 0); try discriminate SG; lia.
Qed.
Theorem same_dt_str d e : valid_dt d = true -> valid_dt e = true -> (dt_str d = dt_str e <->
  (yr d, mo d, dy d) = (yr e, mo e, dy e) /\ (hh d, mi d, ss d, us d) = (hh e, mi e, ss e, us e)
  /\ option_map tz_off (tz d) = option_map tz_off (tz e)).
Proof.
  intros V W. split; cycle 1.
  { intros (A & B & C). injection A as A1 A2 A3. injection B as B1 B2 B3 B4. unfold dt_str. rewrite A1, A2, A3, B1, B2, B3, B4.
    destruct (tz d), (tz e); try discriminate; [|reflexivity]. injection C as ->. reflexivity. }
  unfold valid_dt, valid_fields in V, W. rewrite !andb_true_iff in V, W.
  destruct V as [V _], W as [W _]. repeat match goal with H : _ /\ _ |- _ => destruct H end.
  repeat match goal with H : (_ <=? _)%Z = true |- _ => apply Z.leb_le in H end.
  unfold dt_str, p2. intros E.
  assert (NZ : forall o : option tzone, no_digit (match o with None => [] | Some z => iso_offset (tz_off z) end)).
  { intros [z|]; [|exact Logic.I]. unfold iso_offset. cbv zeta. nd. }
  assert (NU : forall u (o : option tzone), no_digit ((if (u =? 0)%Z then [] else py "." ++ pad0 6 (print_Z u)) ++ match o with None => [] | Some z => iso_offset (tz_off z) end)).
  { intros u o. destruct (u =? 0)%Z; [apply NZ|]. nd. }
  apply number_cut in E; [|lia|lia|nd..]. destruct E as [E1 E]. apply (app_inv_head (py "-")) in E.
  apply number_cut in E; [|lia|lia|nd..]. destruct E as [E2 E]. apply (app_inv_head (py "-")) in E.
  apply number_cut in E; [|lia|lia|nd..]. destruct E as [E3 E]. apply (app_inv_head (py " ")) in E.
  apply number_cut in E; [|lia|lia|nd..]. destruct E as [E4 E]. apply (app_inv_head (py ":")) in E.
  apply number_cut in E; [|lia|lia|nd..]. destruct E as [E5 E]. apply (app_inv_head (py ":")) in E.
  apply number_cut in E; [|lia|lia|apply NU|apply NU]. destruct E as [E6 E].
  assert (DOT : forall (o : option tzone) r, match o with None => [] | Some z => iso_offset (tz_off z) end = py "." ++ r -> False).
  { intros [z|] r; [|discriminate]. unfold iso_offset. cbv zeta. destruct (tz_off z <? 0)%Z; discriminate. }
  assert (E7 : us d = us e /\ match tz d with None => [] | Some z => iso_offset (tz_off z) end = match tz e with None => [] | Some z => iso_offset (tz_off z) end).
  { destruct (Z.eqb_spec (us d) 0), (Z.eqb_spec (us e) 0); rewrite <- ?app_assoc in E; cbn [app] in E.
    - split; [congruence|exact E].
    - exfalso. eapply DOT. exact E.
    - exfalso. eapply DOT. symmetry. exact E.
    - apply (app_inv_head (py ".")) in E. apply number_cut in E; auto; lia. }
  destruct E7 as [E7 E8]. repeat split; try congruence.
  assert (NE : forall z, iso_offset z <> []) by (intros z; unfold iso_offset; cbv zeta; destruct (z <? 0)%Z; discriminate).
  destruct (tz d) as [z|], (tz e) as [z'|]; cbn; [|exfalso; now apply (NE (tz_off z))|exfalso; now apply (NE (tz_off z'))|reflexivity].
  apply iso_offset_inj in E8. now rewrite E8.
Qed.

(** ** On the disk *)
Lemma same_mxml_saved (FIO : FloatIO) (G1 G2 : Gzip) wr p l m path path2 d d' d1 d2 :
  lawful_gzip G1 -> lawful_gzip G2 -> same_unpacking G1 G2 -> zipped p = true \/ lawful wr -> In p [Mxml; MxmlGzip] ->
  save (GZ := G1) wr p l path d = (d1, Ok tt) -> save (GZ := G2) wr p m path2 d' = (d2, Ok tt) ->
  exists b c, sget path d1 = Some b /\ sget path2 d2 = Some c
  /\ (log_kept l = log_kept m <-> unpacked (GZ := G1) p b = unpacked (GZ := G1) p c) /\ (b = c -> log_kept l = log_kept m).
Proof.
  intros LG LG2 SU LC IN S T. unfold save in S, T. rewrite !compressed_zipped in S, T.
  destruct (serialize_text p l) as [t|] eqn:E; [|discriminate]. destruct (serialize_text p m) as [u|] eqn:F; [|discriminate].
  destruct (cd_enc _ t) as [b|] eqn:EB; [|discriminate]. destruct (cd_enc _ u) as [c|] eqn:EC; [|discriminate].
  injection S as <-. injection T as <-.
  assert (X : t = u <-> log_kept l = log_kept m).
  { destruct IN as [<-|[<-|[]]]; cbn [serialize_text] in E, F.
    all: destruct (mxml_serialize l) as [doc|] eqn:L; [|discriminate]; destruct (mxml_serialize m) as [doc2|] eqn:M; [|discriminate]; cbn [bind] in E, F.
    all: destruct (write_xml mxml_comments doc) as [x|] eqn:WX; [|discriminate]; destruct (write_xml mxml_comments doc2) as [y|] eqn:WY; [|discriminate].
    all: injection E as <-; injection F as <-; exact (same_mxml_file _ _ _ _ _ _ L M WX WY). }
  do 2 eexists. rewrite !sget_sset_same. split; [reflexivity|]. split; [reflexivity|].
  enough (Y : log_kept l = log_kept m <-> unpacked (GZ := G1) p (if zipped p then @gz G1 b else b) = unpacked (GZ := G1) p (if zipped p then @gz G2 c else c)).
  { split; [exact Y|]. intros Z. apply Y. now rewrite Z. }
  rewrite <- X. unfold unpacked. destruct (zipped p).
  - rewrite LG, SU, LG2. split; [intros <-; congruence|]. intros Z. injection Z as ->.
    assert (H := utf8_lawful _ _ EB). rewrite (utf8_lawful _ _ EC) in H. congruence.
  - destruct LC as [LC|LC]; [discriminate|]. split; [intros <-; congruence|]. intros Z. injection Z as ->.
    assert (H := LC _ _ EB). rewrite (LC _ _ EC) in H. congruence.
Qed.
