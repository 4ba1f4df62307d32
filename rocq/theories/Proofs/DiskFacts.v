(** Files: encodings, saving and loading. *)
From Coq Require Import String NArith ZArith List Bool Lia.
From Verif Require Import Base.PyBase Base.PyVal Base.Xml Base.Codec Model.Attr Model.Log Model.Registry
  Model.XesWrite Model.XesRead Model.MxmlWrite Model.MxmlRead Model.XmlText Model.XmlChars Model.FileNames Model.Files
  Spec.XmlNorm Spec.Xes Spec.OnDisk Spec.Survive
  Proofs.BaseFacts Proofs.XmlScanFacts Proofs.XmlTextFacts Proofs.XmlFileFacts Proofs.FileFacts.
Import ListNotations.
Local Open Scope N_scope.

(** ** Encodings *)

Ltac decide_all :=
  repeat match goal with
         | |- context [?a <? ?b] => destruct (N.ltb_spec a b); [try lia | try lia]
         | |- context [?a <=? ?b] => destruct (N.leb_spec a b); [try lia | try lia]
         end.

Lemma split64 c : c = c / 64 * 64 + c mod 64 /\ c mod 64 < 64.
Proof. split; [rewrite N.mul_comm; apply N.div_mod; discriminate | apply N.mod_lt; discriminate]. Qed.

Lemma some_inj {A} (x y : A) : Some x = Some y -> x = y.
Proof. congruence. Qed.
Lemma utf8_step c b r : utf8_char c = Some b -> utf8_decode (b ++ r) = option_map (cons c) (utf8_decode r).
Proof.
  unfold utf8_char. destruct (split64 c) as [E1 L1]. destruct (split64 (c / 64)) as [E2 L2].
  destruct (split64 (c / 64 / 64)) as [E3 L3].
  assert (D1 : c / 4096 = c / 64 / 64) by (rewrite N.div_div by discriminate; reflexivity).
  assert (D2 : c / 262144 = c / 64 / 64 / 64) by (rewrite !N.div_div by discriminate; reflexivity).
  rewrite D1, D2. set (a0 := c mod 64) in *. set (a1 := (c / 64) mod 64) in *. set (a2 := (c / 64 / 64) mod 64) in *.
  set (q1 := c / 64) in *. set (q2 := q1 / 64) in *. set (q3 := q2 / 64) in *. clearbody a0 a1 a2 q3.
  clear D1 D2. clearbody q2. clearbody q1.
  destruct (N.ltb_spec c 128) as [H1 | H1].
  { intros E; apply some_inj in E; subst b. cbn [app utf8_decode]. now rewrite (proj2 (N.ltb_lt _ _) H1). }
  destruct (N.ltb_spec c 2048) as [H2 | H2].
  { intros E; apply some_inj in E; subst b. cbn [app utf8_decode]. unfold continuation.
    replace ((192 + q1 - 192) * 64 + (128 + a0 - 128)) with c by lia. decide_all. reflexivity. }
  destruct (N.ltb_spec c 65536) as [H3 | H3].
  { destruct (surrogate c) eqn:SG; [discriminate |]. intros E; apply some_inj in E; subst b. cbn [app utf8_decode]. unfold continuation.
    replace ((224 + q2 - 224) * 4096 + (128 + a1 - 128) * 64 + (128 + a0 - 128)) with c by lia.
    rewrite SG. decide_all. reflexivity. }
  destruct (N.ltb_spec c 1114112) as [H4 | H4]; [| discriminate].
  intros E; apply some_inj in E; subst b. cbn [app utf8_decode]. unfold continuation.
  replace ((240 + q3 - 240) * 262144 + (128 + a2 - 128) * 4096 + (128 + a1 - 128) * 64 + (128 + a0 - 128)) with c by lia.
  decide_all. reflexivity.
Qed.

Lemma utf8_lawful : lawful utf8.
Proof.
  intros s. unfold utf8. cbn [cd_enc cd_dec]. induction s as [| c s IH]; intros b E; cbn [enc_all] in E.
  - injection E as <-. reflexivity.
  - destruct (utf8_char c) as [h |] eqn:EC; [| discriminate]. destruct (enc_all utf8_char s) as [t |]; [| discriminate].
    injection E as <-. now rewrite (utf8_step c h t EC), (IH t eq_refl).
Qed.

Lemma below_lawful n : lawful (below n).
Proof.
  intros s. unfold below. cbn [cd_enc cd_dec]. induction s as [| c s IH]; intros b E; cbn [enc_all] in E.
  - injection E as <-. reflexivity.
  - destruct (c <? n) eqn:EC; [| discriminate]. destruct (enc_all _ s) as [t |]; [| discriminate].
    injection E as <-. specialize (IH t eq_refl). cbn [forallb app]. rewrite EC. cbn [andb].
    destruct (forallb _ t); [injection IH as ->; reflexivity | discriminate].
Qed.

Lemma legal_utf8 s : forallb legal s = true -> exists b, cd_enc utf8 s = Some b.
Proof.
  unfold utf8. cbn [cd_enc]. induction s as [| c s IH]; cbn [forallb enc_all]; intros H; [eauto |].
  apply andb_prop in H. destruct H as [HC HS]. destruct (IH HS) as [t ->].
  enough (exists h, utf8_char c = Some h) as [h ->] by eauto. unfold utf8_char.
  destruct (N.ltb_spec c 128); [eauto |]. destruct (N.ltb_spec c 2048); [eauto |].
  destruct (N.ltb_spec c 65536).
  - assert (surrogate c = false) as ->; [| eauto]. unfold surrogate, legal in *.
    destruct (N.leb_spec 55296 c); [| reflexivity]. destruct (N.leb_spec c 57343); [| reflexivity].
    exfalso. revert HC. 
    rewrite !orb_true_iff, !andb_true_iff, !N.eqb_eq, !N.leb_le. lia.
  - destruct (N.ltb_spec c 1114112); [eauto |]. exfalso. revert HC. unfold legal.
    rewrite !orb_true_iff, !andb_true_iff, !N.eqb_eq, !N.leb_le. lia.
Qed.

(** ** What is written is legal *)

Lemma scan_legal cs : forall s es, scan_from cs s = Some es -> forallb legal cs = true.
Proof.
  induction cs as [| c cs IH]; intros s es H; [reflexivity |]. cbn [scan_from] in H.
  destruct (scan_char s c) as [[s' e] |] eqn:E; [| discriminate]. cbn [forallb]. apply andb_true_intro. split.
  - unfold scan_char in E. destruct (legal c); [reflexivity | discriminate].
  - destruct (scan_from cs s') eqn:E2; [| discriminate]. exact (IH _ _ E2).
Qed.

Lemma newlines_legal s : forallb legal (newlines s) = true -> forallb legal s = true.
Proof.
  pattern s; apply two_ind; clear s; [| intros c | intros c d r IH1 IH2]; intros H; [reflexivity | |].
  - cbn [newlines] in H. destruct (c =? 13) eqn:E; [apply N.eqb_eq in E; subst c; reflexivity | exact H].
  - cbn [newlines] in *. destruct (c =? 13) eqn:E; cbn [forallb] in H; apply andb_prop in H; destruct H as [HC H].
    + apply N.eqb_eq in E. subst c. cbn [forallb]. destruct (d =? 10) eqn:ED.
      * apply N.eqb_eq in ED. subst d. now rewrite (IH1 H).
      * exact (IH2 H).
    + cbn [forallb]. rewrite HC. exact (IH2 H).
Qed.

Lemma read_legal text es : read_xml text = Some es -> forallb legal text = true.
Proof. intros H. apply newlines_legal. exact (scan_legal _ _ _ H). Qed.

(** ** Saving and loading *)

Section Disk.
Context `{FIO : FloatIO} {GZ : Gzip}.

Lemma save_other loc p l path d : only_at path d (fst (save loc p l path d)).
Proof.
  intros q NE. unfold save. destruct (serialize_text p l) as [t | e]; [destruct (cd_enc _ t) |];
    cbn [fst]; rewrite sget_sset_other; auto.
Qed.

Lemma serialized_readable p l text : serialize_text p l = Ok text -> exists es, read_xml text = Some es.
Proof.
  unfold serialize_text. intros H.
  assert (X : forall doc, xes_serialize l = Ok doc -> write_xml xes_comments doc = Some text -> exists es, read_xml text = Some es).
  { intros doc S W. destruct (legal_tree doc) eqn:LT; [| rewrite write_none in W; [discriminate | exact LT]].
    destruct (xes_file l doc S LT) as (t & es & W' & R & _). exists es. congruence. }
  assert (M : forall doc, mxml_serialize l = Ok doc -> write_xml mxml_comments doc = Some text -> exists es, read_xml text = Some es).
  { intros doc S W. destruct (legal_tree doc) eqn:LT; [| rewrite write_none in W; [discriminate | exact LT]].
    destruct (mxml_file l doc S LT) as (t & es & W' & R & _). exists es. congruence. }
  assert (E : (exists doc, xes_serialize l = Ok doc /\ write_xml xes_comments doc = Some text)
              \/ (exists doc, mxml_serialize l = Ok doc /\ write_xml mxml_comments doc = Some text)).
  { clear X M. destruct p; [right | right | left | left];
      [destruct (mxml_serialize l) as [doc |] | destruct (mxml_serialize l) as [doc |]
      | destruct (xes_serialize l) as [doc |] | destruct (xes_serialize l) as [doc |]]; try discriminate;
      cbn [bind] in H; exists doc; (split; [reflexivity |]);
      [destruct (write_xml mxml_comments doc) | destruct (write_xml mxml_comments doc)
      | destruct (write_xml xes_comments doc) | destruct (write_xml xes_comments doc)]; congruence. }
  destruct E as [(doc & S & W) | (doc & S & W)]; [exact (X doc S W) | exact (M doc S W)].
Qed.

Lemma compressed_zipped p : compressed p = zipped p.
Proof. destruct p; reflexivity. Qed.
(** What is on the disk after saving. *)
Lemma save_bytes loc p l path d d' : save loc p l path d = (d', Ok tt) ->
  exists text b, serialize_text p l = Ok text /\ cd_enc (if zipped p then utf8 else loc) text = Some b
  /\ sget path d' = Some (on_disk p b).
Proof.
  unfold save, on_disk. rewrite compressed_zipped. destruct (serialize_text p l) as [text|]; [|discriminate].
  destruct (cd_enc _ text) as [b|] eqn:E; [|discriminate]. intros [= <-]. exists text, b. rewrite sget_sset_same. auto.
Qed.

(** Saving fails only when the serializer or the encoding does. *)
Lemma save_ok loc p l path d text : serialize_text p l = Ok text -> zipped p = true \/ loc = utf8 ->
  exists b, save loc p l path d = (sset path b d, Ok tt).
Proof.
  intros S C. rewrite <- compressed_zipped in C. unfold save. rewrite S. destruct (serialized_readable p l text S) as [es R].
  destruct (legal_utf8 text (read_legal text es R)) as [b E].
  assert ((if compressed p then utf8 else loc) = utf8) as -> by (destruct C as [-> | ->]; [| destruct (compressed p)]; reflexivity).
  rewrite E. eauto.
Qed.

Lemma save_outcome loc p l path d : match snd (save loc p l path d) with
  | Ok _ => exists text b, serialize_text p l = Ok text /\ cd_enc (if zipped p then utf8 else loc) text = Some b
  | Raise e => serialize_text p l = Raise e
               \/ e = UnicodeError /\ exists text, serialize_text p l = Ok text /\ cd_enc (if zipped p then utf8 else loc) text = None
  end.
Proof.
  unfold save. rewrite compressed_zipped. destruct (serialize_text p l) as [text|]; [|now left].
  destruct (cd_enc _ text) as [b|] eqn:E; cbn [snd]; eauto 8.
Qed.

Lemma save_mxml loc p l path d doc : In p [Mxml; MxmlGzip] -> mxml_serialize l = Ok doc -> legal_tree doc = true ->
  zipped p = true \/ loc = utf8 -> snd (save loc p l path d) = Ok tt.
Proof.
  intros P S L C. destruct (mxml_file l doc S L) as (text & es & W & _).
  assert (T : serialize_text p l = Ok text).
  { destruct P as [<- | [<- | []]]; cbn [serialize_text]; rewrite S; cbn [bind]; now rewrite W. }
  destruct (save_ok loc p l path d text T C) as [b ->]. reflexivity.
Qed.

Variables (mgr : manager xext) (urlparse : pystr -> option pystr) (draw : nat -> N).

Lemma parse_newlines p text : parse_text mgr urlparse draw p (newlines text) = parse_text mgr urlparse draw p text.
Proof. unfold parse_text, read_xml. now rewrite newlines_twice. Qed.

Lemma save_load wr rd p ps l path d d' : lawful_gzip GZ -> zipped p = true \/ wr = rd /\ lawful wr ->
  can_parse p path = true -> NoDup ps -> In p ps -> save wr p l path d = (d', Ok tt) ->
  exists text, serialize_text p l = Ok text
  /\ load mgr urlparse draw rd ps path d'
     = match parse_text mgr urlparse draw p text with Ok a => Ok a | Raise _ => Raise PlainException end.
Proof.
  intros LG LC CP ND IN. rewrite <- compressed_zipped in LC. unfold save. destruct (serialize_text p l) as [text | e]; [| discriminate].
  destruct (cd_enc _ text) as [b |] eqn:E; [| discriminate]. intros [= <-]. exists text. split; [reflexivity |].
  unfold load. rewrite sget_sset_same, (universal_one _ p ps path ND IN CP). unfold outcome, parse_file.
  destruct (compressed p).
  - rewrite LG, (utf8_lawful _ _ E). reflexivity.
  - destruct LC as [LC | [<- LC]]; [discriminate |]. rewrite (LC _ _ E), parse_newlines. reflexivity.
Qed.

(** A failure leaves an empty document. *)
Lemma save_fails wr rd p ps l path d d' e : lawful_gzip GZ -> cd_dec rd [] = Some [] ->
  NoDup ps -> save wr p l path d = (d', Raise e) ->
  sget path d' = Some (on_disk p []) /\
  (can_parse p path = true -> In p ps -> load mgr urlparse draw rd ps path d' = Raise PlainException).
Proof.
  intros LG LD ND S. unfold on_disk. rewrite <- compressed_zipped.
  assert (D : d' = sset path (if compressed p then gz [] else []) d).
  { unfold save in S. destruct (serialize_text p l) as [t |]; [destruct (cd_enc _ t) |]; congruence. }
  subst d'. rewrite sget_sset_same. split; [reflexivity |]. intros CP IN.
  unfold load. rewrite sget_sset_same, (universal_one _ p ps path ND IN CP). unfold outcome, parse_file.
  destruct (compressed p); [rewrite LG | rewrite LD]; reflexivity.
Qed.

(** What loading can come to. *)
Lemma universal_outcome {A} (run : parser -> res A) ps file : match universal_parse run ps file with
  | Ok a => exists p, In p ps /\ can_parse p file = true /\ run p = Ok a
  | Raise e => e = PlainException
  end.
Proof.
  induction ps as [|p ps IH]; [reflexivity|]. cbn [universal_parse]. destruct (can_parse p file) eqn:C.
  - destruct (run p) as [a|e] eqn:R; [exists p; cbn; auto|]. destruct (universal_parse run ps file); [|exact IH].
    destruct IH as (q & I & H). exists q. cbn. auto.
  - destruct (universal_parse run ps file); [|exact IH]. destruct IH as (q & I & H). exists q. cbn. auto.
Qed.
Lemma load_outcome rd ps path d : match load mgr urlparse draw rd ps path d with
  | Ok _ => sget path d <> None /\ exists p, In p ps /\ can_parse p path = true
  | Raise e => e = match sget path d with Some _ => PlainException | None => OSError end
  end.
Proof.
  unfold load. destruct (sget path d) as [b|]; [|reflexivity].
  assert (H := universal_outcome (fun p => parse_file mgr urlparse draw rd p b) ps path).
  destruct (universal_parse _ ps path); [|exact H]. destruct H as (p & I & C & _). split; [discriminate|]. exists p. auto.
Qed.

End Disk.
