(** Proofs about the XES document that is written. *)
From Coq Require Import String NArith ZArith List Bool Lia.
From Verif Require Import Base.PyBase Base.PyDate Base.PyVal Base.Xml Model.Attr Model.Log Model.Token Model.XesWrite
  Spec.DateText Spec.Registries Spec.Xes Spec.Loose Spec.XesWritten
  Proofs.BaseFacts Proofs.AttrInd Proofs.XidFacts Proofs.DateFacts Proofs.TokenFacts Proofs.XesReadFacts Proofs.XesRoundFacts
  Proofs.LooseFacts.
Import ListNotations.

(** ** Texts *)

Lemma horner_undigits b l : horner (Z.of_N b) (map Z.of_N l) = Z.of_N (undigits b l).
Proof.
  induction l as [|d l IH] using rev_ind; [reflexivity|].
  rewrite undigits_app, map_app. unfold horner in *. rewrite fold_left_app. cbn [map fold_left]. rewrite IH. lia.
Qed.
Lemma digit_of_N d : (d < 10)%N -> digit_char d = digit (Z.of_N d).
Proof. intros H. unfold digit_char, digit. destruct (N.ltb_spec d 10); lia. Qed.
Lemma map_digits l : Forall (fun d => (d < 10)%N) l -> map digit_char l = map digit (map Z.of_N l).
Proof. induction 1; cbn; f_equal; auto using digit_of_N. Qed.

Lemma print_N_digits n : exists ds, ds <> [] /\ Forall (fun d => 0 <= d <= 9)%Z ds /\ (hd 1%Z ds = 0%Z -> ds = [0%Z])
  /\ horner 10 ds = Z.of_N n /\ print_N n = map digit ds.
Proof.
  unfold print_N. rewrite print_base_eq. destruct (base_digits_spec 10 n) as (U & F & NE); [lia|].
  exists (map Z.of_N (base_digits 10 n)). repeat split.
  - destruct (base_digits 10 n); [congruence|discriminate].
  - apply Forall_map. eapply Forall_impl; [|exact F]. cbv beta. intros; lia.
  - intros H. destruct (N.eq_dec n 0) as [->|P]; [reflexivity|].
    assert (L : (n < 10 ^ N.of_nat (S (N.size_nat n)))%N).
    { eapply N.lt_le_trans; [apply size_nat_bound|]. rewrite Nat2N.inj_succ, N.pow_succ_r'.
      assert (2 ^ N.of_nat (N.size_nat n) <= 10 ^ N.of_nat (N.size_nat n))%N by (apply N.pow_le_mono_l; lia). lia. }
    assert (G := digits_rev_last 10 _ n ltac:(lia) L ltac:(lia)). rewrite <- hd_rev_last in G. fold (base_digits 10 n) in G.
    destruct (base_digits 10 n); [congruence|]. cbn in H, G. lia.
  - rewrite (horner_undigits 10), U. reflexivity.
  - apply map_digits, F.
Qed.
Lemma print_Z_text z : int_text z (print_Z z).
Proof.
  destruct z as [|p|p]; cbn [print_Z].
  - exists [0%Z]. cbn. repeat split; try discriminate. constructor; [lia|constructor].
  - destruct (print_N_digits (N.pos p)) as (ds & A & B & C & D & E). exists ds. auto.
  - destruct (print_N_digits (N.pos p)) as (ds & A & B & C & D & E). exists ds.
    repeat split; auto. rewrite E. reflexivity.
Qed.

Lemma upper_digits l : Forall (fun d => (d < 16)%N) l -> upper (map digit_char l) = map hex_digit (map Z.of_N l).
Proof.
  induction 1 as [|d l H F IH]; [reflexivity|]. cbn [map]. unfold upper in *. cbn [map]. rewrite IH. f_equal.
  assert (D : (d = 0 \/ d = 1 \/ d = 2 \/ d = 3 \/ d = 4 \/ d = 5 \/ d = 6 \/ d = 7 \/ d = 8 \/ d = 9
    \/ d = 10 \/ d = 11 \/ d = 12 \/ d = 13 \/ d = 14 \/ d = 15)%N) by lia.
  repeat destruct D as [->|D]; subst; reflexivity.
Qed.
Lemma xid_text u : (u < 2 ^ 128)%N -> id_text u (xid_str u).
Proof.
  intros H. destruct (hex32_digits_spec u H) as (L & U & F).
  unfold xid_str, uuid_str. rewrite hex32_eq. set (ds := hex32_digits u) in *. clearbody ds.
  set (zs := map Z.of_N ds).
  exists (firstn 8 zs), (firstn 4 (skipn 8 zs)), (firstn 4 (skipn 12 zs)), (firstn 4 (skipn 16 zs)), (skipn 20 zs).
  assert (LZ : List.length zs = 32%nat) by (unfold zs; now rewrite map_length).
  assert (W : firstn 8 zs ++ firstn 4 (skipn 8 zs) ++ firstn 4 (skipn 12 zs) ++ firstn 4 (skipn 16 zs) ++ skipn 20 zs = zs).
  { clear - LZ. clearbody zs. do 32 (destruct zs as [|? zs]; [discriminate|]). destruct zs; [reflexivity|discriminate]. }
  repeat split.
  - clear - LZ. clearbody zs. do 32 (destruct zs as [|? zs]; [discriminate|]). destruct zs; [reflexivity|discriminate].
  - rewrite W. apply Forall_map. eapply Forall_impl; [|exact F]. cbv beta. intros; lia.
  - rewrite W. unfold zs. rewrite (horner_undigits 16), U. reflexivity.
  - assert (X := upper_digits ds F). fold zs in X. clearbody zs. unfold upper in *. rewrite !map_app. cbn [map join].
    repeat (rewrite <- firstn_map || rewrite <- skipn_map). rewrite X. reflexivity.
Qed.

Lemma timestamp_text d : valid_dt d = true -> minute_zone d -> date_text d (timestamp_str d).
Proof.
  intros V M. assert (V' := V). unfold valid_dt in V'. apply andb_true_iff in V' as [V' _].
  assert (B := valid_fields_bounds _ _ _ _ _ _ _ V').
  assert (U : (0 <= us d / 1000 <= 999)%Z) by (split; [apply Z.div_pos; lia|apply Z.lt_succ_r, Z.div_lt_upper_bound; lia]).
  destruct (three_bounds _ U) as [F E]. unfold three in F, E. inversion F as [|? ? F1 G]; subst.
  inversion G as [|? ? F2 G']; subst. inversion G' as [|? ? F3 _]; subst. clear F G G'.
  eexists _, _, _, (zone_of (tz d)). split; [split; [exact F1|split; [exact F2|exact F3]]|].
  split; [|split; [apply timestamp_str_write; auto|]].
  - unfold frac_micros in E. cbn [frac_us] in E.
    change (100000 / 10)%Z with 10000%Z in E. change (10000 / 10)%Z with 1000%Z in E. lia.
  - destruct (zone_text_write d V M) as (_ & K & Z). unfold zone_of in *. destruct (tz d) as [w|]; [|reflexivity].
    destruct (tz_off w =? 0)%Z; [reflexivity|]. repeat split; auto.
    destruct (tz_off w <? 0)%Z; eauto.
Qed.

Section W.
Context `{FIO : FloatIO}.

Lemma proper_text c k e v coll meta : is_collection c = false -> proper (mk_attr c k e v coll meta) ->
  exists t, attr_str (mk_attr c k e v coll meta) = Ok t /\ typed_text v (xes_tag c) t.
Proof.
  unfold proper. cbn [a_cls a_val]. destruct c; try discriminate; intros _; destruct v; try contradiction; cbn [attr_str py_str xes_tag];
    intros P; eexists; (split; [reflexivity|]); try constructor.
  all: first [apply timestamp_text; tauto | apply print_Z_text | apply xid_text, P | destruct b; constructor].
Qed.

Lemma map_res_elems {A B} (f : A -> res B) (R : A -> B -> Prop) l : Forall (fun a => exists b, f a = Ok b /\ R a b) l ->
  exists bs, map_res f l = Ok bs /\ Forall2 R l bs.
Proof.
  induction 1 as [|a l (b & E & H) F (bs & E' & G)]; [exists []; split; [reflexivity|constructor]|].
  exists (b :: bs). cbn [map_res]. rewrite E, E'. split; [reflexivity|now constructor].
Qed.

Lemma attr_written a : Forall proper (post_order a) -> exists n, write_attr a = Ok n /\ attr_elem a n.
Proof.
  induction a as [c k e v coll meta IC IM] using attr_ind2. rewrite post_order_kids, write_attr_eq.
  unfold kids_of. cbn [a_cls a_coll a_meta]. intros [K P]. destruct (is_collection c) eqn:C.
  - destruct (map_res_elems write_attr attr_elem coll) as (ns & E & F).
    { rewrite Forall_forall in *. auto. }
    rewrite E. cbn [bind]. eexists. split; [reflexivity|]. destruct c; try discriminate C; constructor; auto.
  - destruct (proper_text _ _ _ _ _ _ C P) as (t & T & X). rewrite T. cbn [bind].
    destruct (map_res_elems write_attr attr_elem (map snd meta)) as (ns & E & F).
    { rewrite Forall_forall in *. intros x I. apply in_map_iff in I as ([q y] & <- & I). apply (IM _ I).
      apply K. apply in_map_iff. now exists (q, y). }
    rewrite E. cbn [bind]. eexists. split; [reflexivity|]. constructor; auto.
Qed.
Lemma attrs_written l : Forall proper (flat_map post_order l) -> exists ns, add_attributes l = Ok ns /\ Forall2 attr_elem l ns.
Proof. rewrite Forall_flat. intros H. apply map_res_elems. eapply Forall_impl; [|exact H]. exact attr_written. Qed.
Lemma globals_written scope l : Forall proper (flat_map post_order l) ->
  exists ns, add_global_attributes (py scope) l = Ok ns /\ global_elem scope l ns.
Proof.
  intros H. destruct l as [|a l]; [exists []; now split|]. destruct (attrs_written (a :: l) H) as (ns & E & F).
  unfold add_global_attributes. rewrite E. eexists. split; [reflexivity|]. exists ns. auto.
Qed.
Lemma classifier_written c : write_classifier c = classifier_elem c.
Proof.
  unfold write_classifier, classifier_elem. rewrite format_spec.
  rewrite (filter_ext nonempty (fun k => negb (Nat.eqb (List.length k) 0))) by (intros []; reflexivity). reflexivity.
Qed.

Theorem log_written l : Forall proper (written_attrs l) -> exists doc, xes_serialize l = Ok doc /\ log_elem l doc.
Proof.
  unfold written_attrs. rewrite !Forall_app. intros (GT & GE & LA & TR). rewrite Forall_flat in TR.
  destruct (globals_written "trace" _ GT) as (gt & E1 & F1). destruct (globals_written "event" _ GE) as (ge & E2 & F2).
  destruct (attrs_written _ LA) as (ns & E3 & F3).
  destruct (map_res_elems write_trace trace_elem (lg_traces l)) as (ts & E4 & F4).
  { eapply Forall_impl; [|exact TR]. cbv beta. intros t H. apply Forall_app in H as [H1 H2]. rewrite Forall_flat in H2.
    destruct (attrs_written _ H1) as (ms & M1 & M2). unfold write_trace. rewrite M1. cbn [bind].
    destruct (map_res_elems write_event event_elem (tr_events t)) as (es & V1 & V2).
    { eapply Forall_impl; [|exact H2]. cbv beta. intros e X. destruct (attrs_written _ X) as (ks & K1 & K2).
      unfold write_event. rewrite K1. eexists. split; [reflexivity|]. exists ks. auto. }
    rewrite V1. eexists. split; [reflexivity|]. exists ms, es. auto. }
  unfold xes_serialize. rewrite E1, E2, E3, E4. cbn [bind]. eexists. split; [reflexivity|].
  exists gt, ge, ns, ts. repeat (split; [assumption|]).
  rewrite (map_ext _ _ classifier_written). reflexivity.
Qed.
End W.
