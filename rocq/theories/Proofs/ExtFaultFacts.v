From Coq Require Import String NArith ZArith List Bool Lia.
From Verif Require Import Base.PyBase Base.PyDate Base.PyVal Base.Xml Model.Attr Model.NameMap Model.ExtParse
  Spec.ExtDef Spec.ExtFaults Proofs.BaseFacts Proofs.ExtFacts.
Import ListNotations.

Lemma lacks_one a n : lacks a [n] <-> sget n a = None.
Proof. split; [intros (m & [<-|[]] & E); exact E|intros E; exists n; split; [now left|exact E]]. Qed.
Lemma lacks_cons a n l : lacks a (n :: l) <-> sget n a = None \/ lacks a l.
Proof.
  split.
  - intros (m & [<-|I0] & E); [now left|right; exists m; auto].
  - intros [E|(m & I0 & E)]; [exists n; split; [now left|exact E]|exists m; split; [now right|exact E]].
Qed.
Lemma lacks_nil a : ~ lacks a [].
Proof. intros (m & [] & _). Qed.

Section Parser.
Variables (urlparse : pystr -> res pystr) (urlopen : nat -> pystr -> opened) (draw : nat -> N) (epoch : datetime).
Notation step := (ext_step urlparse urlopen draw epoch).
Notation run := (ext_run urlparse urlopen draw epoch).
Notation fault := (fault urlparse urlopen).

Lemma is_attribute_dec e : is_attribute e \/ ~ is_attribute e.
Proof.
  destruct e as [t a|t|c].
  - destruct (decl_tag (lower t)) as [c|] eqn:D; [left; left; exists t, a, c; split; [reflexivity|now apply decl_tag_spec]|].
    right. intros [(t' & a' & c & [= <- <-] & T)|(t' & c & [=] & _)]. apply decl_tag_spec in T. congruence.
  - destruct (decl_tag (lower t)) as [c|] eqn:D; [left; right; exists t, c; split; [reflexivity|now apply decl_tag_spec]|].
    right. intros [(t' & a' & c & [=] & T)|(t' & c & [= <-] & T)]. apply decl_tag_spec in T. congruence.
  - right. intros [(t' & a' & c' & [=] & T)|(t' & c' & [=] & T)].
Qed.
Lemma open_cases b : attribute_open b \/ no_attribute_open b.
Proof.
  induction b as [|e b IH] using rev_ind; [right; left; intros e []|].
  destruct (is_attribute_dec e) as [A|A].
  - destruct A as [(t & a & c & -> & T)|(t & c & -> & T)].
    + left. exists b, t, a, c, []. split; [reflexivity|]. split; [exact T|intros e []].
    + right. right. exists b, t, c, []. split; [reflexivity|]. split; [exact T|intros e []].
  - destruct IH as [(b1 & t & a & c & mid & -> & T & M)|[N0|(b1 & t & c & mid & -> & T & M)]].
    + left. exists b1, t, a, c, (mid ++ [e]). rewrite <- app_assoc. split; [reflexivity|]. split; [exact T|].
      intros e' I0. apply in_app_iff in I0. destruct I0 as [I0|[<-|[]]]; auto.
    + right. left. intros e' I0. apply in_app_iff in I0. destruct I0 as [I0|[<-|[]]]; auto.
    + right. right. exists b1, t, c, (mid ++ [e]). rewrite <- app_assoc. split; [reflexivity|]. split; [exact T|].
      intros e' I0. apply in_app_iff in I0. destruct I0 as [I0|[<-|[]]]; auto.
Qed.

Lemma run_split b c s s' : run (b ++ c) s = Ok s' -> exists m, run b s = Ok m /\ run c m = Ok s'.
Proof.
  unfold ext_run. rewrite fold_res_app. destruct (fold_res step b s) as [m|]; [|discriminate]. cbn [bind]. eauto.
Qed.
Lemma cur_open b g s : run b (es_init g) = Ok s -> attribute_open b -> e_cur s <> None.
Proof.
  intros H (b1 & t & a & c & mid & -> & T & M). apply run_split in H. destruct H as (m & _ & H).
  change (SStart t a :: mid) with ([SStart t a] ++ mid) in H. apply run_split in H. destruct H as (m' & H1 & H).
  rewrite (run_cur urlparse urlopen draw epoch mid m' s H M). clear H. unfold ext_run in H1. cbn [fold_res] in H1.
  destruct (step m (SStart t a)) as [x|] eqn:E; [|discriminate]. injection H1 as <-. cbn [ext_step] in E. unfold ext_start in E.
  apply decl_tag_spec in T. destruct (decl_not_ext (lower t)) as (E1 & E2 & _); [congruence|]. rewrite E1, E2, T in E.
  unfold ext_start_attr in E. destruct (e_ext m); [|discriminate]. destruct (get_val _ a); [|discriminate]. injection E as <-. discriminate.
Qed.
Lemma cur_closed b g s : run b (es_init g) = Ok s -> no_attribute_open b -> e_cur s = None.
Proof.
  intros H [N0|(b1 & t & c & mid & -> & T & M)]; [now rewrite (run_cur urlparse urlopen draw epoch b _ s H N0)|].
  apply run_split in H. destruct H as (m & _ & H). change (SEnd t :: mid) with ([SEnd t] ++ mid) in H.
  apply run_split in H. destruct H as (m' & H1 & H). rewrite (run_cur urlparse urlopen draw epoch mid m' s H M).
  unfold ext_run in H1. cbn [fold_res ext_step] in H1. injection H1 as <-. unfold ext_end. apply decl_tag_spec in T. now rewrite T.
Qed.
Lemma ext_none b g s : run b (es_init g) = Ok s -> e_ext s = None <-> none_reached urlparse urlopen b.
Proof.
  intros H. split; [|intros N0; now destruct (none_contents urlparse urlopen draw epoch b g s H N0)].
  intros E. destruct (reached_or_not urlparse urlopen b) as [N0|(x & after & L)]; [exact N0|].
  destruct (last_contents urlparse urlopen draw epoch b g s x after H L) as (o & O & _). congruence.
Qed.

Ltac no_fault := exfalso; repeat match goal with
  | A : lower ?t = ?y, B : lower ?t <> ?y |- _ => exact (B A)
  | D : is_level _ \/ _ |- _ => destruct D as [D|D]
  | A : is_level ?x, B : ~ is_level ?x |- _ => exact (B A)
  | A : tag_class ?t ?c, B : ~ exists c, tag_class ?t c |- _ => exact (B (ex_intro _ c A))
  | A : exists c, tag_class ?t c, B : ~ exists c, tag_class ?t c |- _ => exact (B A)
  | A : none_reached ?u ?o ?b, B : ~ none_reached ?u ?o ?b |- _ => exact (B A)
  | A : attribute_open ?b, B : ~ attribute_open ?b |- _ => exact (B A)
  | A : lacks ?a ?l, B : ~ lacks ?a ?l |- _ => exact (B A)
  end.
Ltac cases F := destruct F as [FX FL|fu fe FX FL FU FP|fu fv fe FX FL FU FP FO|FE FN|fc FT FN FL|FA FO FL];
  first [reflexivity|congruence|solve [no_fault]|idtac].

(** One start tag after what was read without exception. *)
Lemma start_fault b g s t a : run b (es_init g) = Ok s ->
  match step s (SStart t a) with
  | Ok _ => forall e, ~ fault b t a e
  | Raise e => fault b t a e /\ forall e', fault b t a e' -> e' = e
  end.
Proof.
  intros H. pose proof (run_tried urlparse urlopen draw epoch b _ _ H) as TR. cbn [es_init e_tried] in TR. rewrite Nat.add_0_r in TR.
  pose proof (ext_none b g s H) as EN. pose proof (cur_open b g s H) as CO. pose proof (cur_closed b g s H) as CC.
  cbn [ext_step]. unfold ext_start. destruct (str_eqb (lower t) (py "xesextension")) eqn:X.
  - apply str_eqb_eq in X.
    assert (NL : ~ is_level (SStart t a)).
    { intros (t' & a' & [= <- <-] & I0). rewrite X in I0. cbn [In] in I0. repeat (destruct I0 as [I0|I0]; [discriminate I0|]). destruct I0. }
    assert (NT : ~ exists c, tag_class t c).
    { intros [c T]. apply decl_tag_spec in T. rewrite X in T. discriminate T. }
    assert (NA : lower t <> py "alias") by (rewrite X; discriminate).
    unfold ext_start_extension, get_val.
    assert (K : lacks a [py "name"; py "prefix"; py "uri"] <-> sget (py "name") a = None \/ sget (py "prefix") a = None \/ sget (py "uri") a = None)
      by (rewrite !lacks_cons; pose proof (lacks_nil a); tauto).
    destruct (sget (py "name") a) as [n|] eqn:E1; [cbn [bind]; destruct (sget (py "prefix") a) as [p|] eqn:E2;
      [cbn [bind]; destruct (sget (py "uri") a) as [u|] eqn:E3|]|]; cbn [bind].
    2-4: (assert (YK : lacks a [py "name"; py "prefix"; py "uri"]) by (apply K; auto);
          split; [exact (flt_extension _ _ b t a X YK)|intros e' F; cases F; destruct (FL YK)]).
    assert (NK : ~ lacks a [py "name"; py "prefix"; py "uri"]) by (rewrite K; intros [?|[?|?]]; discriminate).
    clear K. destruct (urlparse u) as [v|e] eqn:U; cbn [bind].
    + destruct (urlopen (e_tried s) u) as [| |e] eqn:O; rewrite TR in O.
      1-2: (intros e' F; cases F).
      split; [exact (flt_open _ _ b t a u v e X NK E3 U O)|]. intros e' F; cases F.
    + split; [exact (flt_uri _ _ b t a u e X NK E3 U)|]. intros e' F; cases F.
  - assert (NX : lower t <> py "xesextension") by (intros E; rewrite E, str_eqb_refl in X; discriminate). clear X.
    destruct (level_tag (lower t)) eqn:LT.
    + assert (L : is_level (SStart t a)) by (exists t, a; split; [reflexivity|now apply level_tag_spec]).
      assert (NT : ~ exists c, tag_class t c).
      { intros [c T]. apply decl_tag_spec in T. destruct (decl_not_ext (lower t)) as (_ & E2 & _); [congruence|congruence]. }
      assert (NA : lower t <> py "alias").
      { intros E. rewrite E in LT. discriminate LT. }
      destruct (e_ext s) as [o|].
      * assert (NN : ~ none_reached urlparse urlopen b) by (intros Q; apply EN in Q; discriminate).
        intros e' F; cases F.
      * split; [apply flt_early; [now left|now apply EN]|]. intros e' F; cases F.
    + assert (NL : ~ is_level (SStart t a)).
      { intros (t' & a' & [= <- <-] & I0). apply level_tag_spec in I0. congruence. }
      destruct (decl_tag (lower t)) as [c|] eqn:D.
      * pose proof (proj1 (decl_tag_spec t c) D) as T.
        assert (NA : lower t <> py "alias").
        { intros E. destruct (decl_not_ext (lower t)) as (_ & _ & E3); [congruence|]. rewrite E, str_eqb_refl in E3. discriminate. }
        unfold ext_start_attr. destruct (e_ext s) as [o|].
        -- assert (NN : ~ none_reached urlparse urlopen b) by (intros Q; apply EN in Q; discriminate).
           unfold get_val. destruct (sget (py "key") a) as [k|] eqn:Ky; cbn [bind].
           ++ assert (NK : ~ lacks a [py "key"]) by (rewrite lacks_one; congruence). intros e' F; cases F.
           ++ split; [apply (flt_key _ _ b t a c); [exact T|exact NN|now apply lacks_one]|]. intros e' F; cases F.
        -- assert (NN : none_reached urlparse urlopen b) by now apply EN.
           split; [apply flt_early; [right; now exists c|exact NN]|]. intros e' F; cases F.
      * assert (NT : ~ exists c, tag_class t c) by (intros [c T]; apply decl_tag_spec in T; congruence).
        destruct (str_eqb (lower t) (py "alias")) eqn:A.
        -- apply str_eqb_eq in A. unfold ext_start_alias. destruct (e_cur s) as [x|] eqn:C.
           ++ assert (AO : attribute_open b).
              { destruct (open_cases b) as [AO|AC]; [exact AO|]. apply CC in AC. discriminate. }
              unfold get_val.
              assert (K : lacks a [py "mapping"; py "name"] <-> sget (py "mapping") a = None \/ sget (py "name") a = None)
                by (rewrite !lacks_cons; pose proof (lacks_nil a); tauto).
              destruct (sget (py "mapping") a) as [m|] eqn:E1; [cbn [bind]; destruct (sget (py "name") a) as [n|] eqn:E2|]; cbn [bind].
              ** assert (NK : ~ lacks a [py "mapping"; py "name"]) by (rewrite K; intros [?|?]; discriminate). intros e' F; cases F.
              ** split; [apply flt_alias; [exact A|exact AO|apply K; auto]|]. intros e' F; cases F.
              ** split; [apply flt_alias; [exact A|exact AO|apply K; auto]|]. intros e' F; cases F.
           ++ assert (AO : ~ attribute_open b) by (intros Q; now apply CO in Q). intros e' F; cases F.
        -- assert (NA : lower t <> py "alias") by (intros E; rewrite E, str_eqb_refl in A; discriminate).
           intros e' F; cases F.
Qed.

Theorem ext_outcome es g :
  match run es (es_init g) with
  | Ok _ => faultless urlparse urlopen es
  | Raise e => exists b t a c, es = b ++ SStart t a :: c /\ faultless urlparse urlopen b /\ fault b t a e
  end.
Proof.
  induction es as [|x es IH] using rev_ind; [intros b t a c e Q; destruct b; discriminate Q|].
  unfold ext_run in *. rewrite fold_res_app. destruct (fold_res step es (es_init g)) as [s|e] eqn:H; cbn [bind fold_res].
  - assert (ST := fun t a => start_fault es g s t a H).
    destruct x as [t a|t|w].
    + specialize (ST t a). destruct (step s (SStart t a)) as [s'|e].
      * intros b t' a' c e Q. destruct c as [|y c _] using rev_ind.
        -- apply app_inj_tail in Q. destruct Q as [<- [= <- <-]]. apply ST.
        -- rewrite app_comm_cons, app_assoc in Q. apply app_inj_tail in Q. destruct Q as [-> _]. exact (IH b t' a' c e eq_refl).
      * exists es, t, a, []. split; [reflexivity|]. split; [exact IH|apply ST].
    + cbn [ext_step]. intros b t' a' c e Q. destruct c as [|y c _] using rev_ind.
      * apply app_inj_tail in Q. destruct Q as [_ [=]].
      * rewrite app_comm_cons, app_assoc in Q. apply app_inj_tail in Q. destruct Q as [-> _]. exact (IH b t' a' c e eq_refl).
    + cbn [ext_step]. intros b t' a' c e Q. destruct c as [|y c _] using rev_ind.
      * apply app_inj_tail in Q. destruct Q as [_ [=]].
      * rewrite app_comm_cons, app_assoc in Q. apply app_inj_tail in Q. destruct Q as [-> _]. exact (IH b t' a' c e eq_refl).
  - destruct IH as (b & t & a & c & -> & F & B). exists b, t, a, (c ++ [x]). rewrite <- app_assoc. auto.
Qed.

(** A definition with one extension that can be reached, then complete tags. *)
Theorem good_read t a x es g : reached urlparse urlopen 0 (SStart t a) x ->
  (forall t' a', In (SStart t' a') es -> good_tag t' a') -> exists s, run (SStart t a :: es) (es_init g) = Ok s.
Proof.
  intros R GT. pose proof (ext_outcome (SStart t a :: es) g) as O. destruct (run (SStart t a :: es) (es_init g)) as [s|e]; [eauto|exfalso].
  destruct O as (b & t' & a' & c & Q & _ & F). destruct b as [|y b]; cbn [app] in Q.
  - injection Q as <- <- <-. destruct R as (t0 & a0 & u & [= <- <-] & X & N1 & N2 & N3 & U & Op).
    assert (NK : ~ lacks a [py "name"; py "prefix"; py "uri"]).
    { rewrite !lacks_cons. intros [?|[?|[?|L]]]; [congruence..|exact (lacks_nil _ L)]. }
    assert (NL : ~ is_level (SStart t a)).
    { intros (t' & a' & [= <- <-] & I0). rewrite X in I0. cbn [In] in I0. repeat (destruct I0 as [I0|I0]; [discriminate I0|]). destruct I0. }
    assert (NT : ~ exists c, tag_class t c).
    { intros [c' T]. apply decl_tag_spec in T. rewrite X in T. discriminate T. }
    assert (NA : lower t <> py "alias") by (rewrite X; discriminate).
    cases F. unfold tries in FO. cbn in FO. congruence.
  - injection Q as <- ->. assert (G : good_tag t' a') by (apply GT; apply in_elt). destruct G as (G1 & G2 & G3).
    assert (NN : ~ none_reached urlparse urlopen (SStart t a :: b)).
    { intros N0. exact (N0 [] (SStart t a) b x eq_refl R). }
    cases F; try (now apply G2; eauto); now apply G3.
Qed.

Theorem ext_exceptions es g e : (forall u x, urlparse u = Raise x -> x = ValueError) ->
  run es (es_init g) = Raise e ->
  In e [KeyError; AttributeError; ValueError] \/ exists n u, urlopen n u = Broken e.
Proof.
  intros UP H. pose proof (ext_outcome es g) as O. rewrite H in O. destruct O as (b & t & a & c & _ & _ & F).
  destruct F as [| u e ? ? ? U| u v e ? ? ? ? W| | |]; cbn [In]; auto 6; [|right; eauto]. apply UP in U. subst. auto 6.
Qed.
End Parser.

Section Documents.
Variables (urlparse : pystr -> res pystr) (urlopen : nat -> pystr -> opened) (draw : nat -> N) (epoch : datetime).
Theorem nothing_parsed doc g o g' : ext_parse urlparse urlopen draw epoch doc g = Ok (o, g') ->
  match doc with
  | None => o = None /\ g' = g
  | Some d => o = None <-> none_reached urlparse urlopen (sax_of d)
  end.
Proof.
  unfold ext_parse. destruct doc as [d|]; [|intros [= <- <-]; auto].
  destruct (ext_run urlparse urlopen draw epoch (sax_of d) (es_init g)) as [s|] eqn:H; [|discriminate]. cbn [bind].
  intros [= <- <-]. exact (ext_none urlparse urlopen draw epoch (sax_of d) g s H).
Qed.
Theorem good_document t a kids x g : reached urlparse urlopen 0 (SStart t a) x ->
  (forall t' a', In (SStart t' a') (flat_map sax_of kids) -> good_tag t' a') ->
  exists o g', ext_parse urlparse urlopen draw epoch (Some (XElem t a kids)) g = Ok (Some o, g') /\ xo_id o = x.
Proof.
  intros R GT. assert (GT' : forall t' a', In (SStart t' a') (flat_map sax_of kids ++ [SEnd t]) -> good_tag t' a').
  { intros t' a' I0. apply in_app_iff in I0. destruct I0 as [I0|[[=]|[]]]. now apply GT. }
  destruct (good_read urlparse urlopen draw epoch t a x _ g R GT') as [s H].
  assert (S : sax_of (XElem t a kids) = SStart t a :: flat_map sax_of kids ++ [SEnd t]) by reflexivity.
  unfold ext_parse. rewrite S, H. cbn [bind].
  assert (L : last_reached urlparse urlopen (SStart t a :: flat_map sax_of kids ++ [SEnd t]) x (flat_map sax_of kids ++ [SEnd t])).
  { exists [], (SStart t a). split; [reflexivity|]. split; [exact R|].
    intros b e' c x' E (t' & a' & u & -> & X & _). destruct (GT' t' a') as [G _]; [rewrite E; apply in_elt|]. contradiction. }
  destruct (last_contents urlparse urlopen draw epoch _ g s x _ H L) as (o & O & X & _). rewrite O. eauto.
Qed.
End Documents.
