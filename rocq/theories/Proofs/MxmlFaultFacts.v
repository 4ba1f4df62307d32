(** Which MXML documents the reader accepts, and what it raises on the others. *)
From Coq Require Import String NArith ZArith List Bool.
From Verif Require Import Base.PyBase Base.PyDate Base.PyVal Base.Xml Model.Attr Model.DateConv Model.Log Model.Token Model.StdExt Model.MxmlRead
  Spec.MxmlFaults Proofs.BaseFacts Proofs.DateFacts Proofs.XesReadFacts Proofs.MxmlFacts.
Import ListNotations.

Section Faults.
Context (draw : nat -> N).

(** ** What holds in each place *)
Definition sane (s : mstate) : Prop :=
  aware (m_timestamp s) /\ aware (m_last s) /\ (m_source_open s = true -> m_source s <> None).
Definition fits (p : mplace) (s : mstate) : Prop :=
  sane s /\ match p with
            | Outside => True
            | InProcess => m_process s <> None
            | InInstance => m_process s <> None /\ m_instance s <> None
            | InEntry | InField => m_process s <> None /\ m_instance s <> None /\ m_entry s <> None
            end.
Lemma fits_buffer p b s : fits p s -> fits p (set_buffer b s).
Proof. destruct s; exact (fun H => H). Qed.

(** Running [es] from [s] either ends in a state in [Q] without a fault, or raises the first fault. *)
Definition good (es : list sax) (s : mstate) (Q : mstate -> Prop) : Prop :=
  (exists s', mx_run draw es s = Ok s' /\ Q s' /\ forall rest, mfaults (m_buffer s) (es ++ rest) = mfaults (m_buffer s') rest)
  \/ (exists e, mx_run draw es s = Raise e /\ forall rest, hd_error (mfaults (m_buffer s) (es ++ rest)) = Some e).

Lemma good_seq a b s P Q : good a s P -> (forall s', P s' -> good b s' Q) -> good (a ++ b) s Q.
Proof.
  intros [(s1 & R1 & H1 & F1)|(e & R1 & F1)] B.
  - destruct (B s1 H1) as [(s2 & R2 & H2 & F2)|(e & R2 & F2)].
    + left. exists s2. rewrite mx_run_app, R1. cbn [bind]. repeat split; auto. intros rest. now rewrite <- app_assoc, F1, F2.
    + right. exists e. rewrite mx_run_app, R1. cbn [bind]. split; auto. intros rest. now rewrite <- app_assoc, F1, F2.
  - right. exists e. rewrite mx_run_app, R1. split; [reflexivity|]. intros rest. now rewrite <- app_assoc.
Qed.
Lemma good_weaken a s (P Q : mstate -> Prop) : good a s P -> (forall s', P s' -> Q s') -> good a s Q.
Proof. intros [(s1 & R1 & H1 & F1)|X] W; [left; exists s1; auto|right; exact X]. Qed.
Lemma good_nil s (Q : mstate -> Prop) : Q s -> good [] s Q.
Proof. left. exists s. auto. Qed.

(** ** Single steps *)
Lemma run1 e s : mx_run draw [e] s = mx_step draw s e.
Proof. unfold mx_run. cbn [fold_res]. now destruct (mx_step draw s e). Qed.
Lemma good_start t atts s s' (Q : mstate -> Prop) : str_eqb t (py "Attribute") = false -> mx_start draw t atts s = Ok s' ->
  m_buffer s' = m_buffer s -> Q s' -> good [SStart t atts] s Q.
Proof.
  intros T R B H. left. exists s'. rewrite run1. split; [exact R|split; [exact H|]]. intros rest. cbn [app mfaults].
  unfold one_of. cbn [existsb]. now rewrite T, B.
Qed.
Lemma good_end t s s' (Q : mstate -> Prop) : str_eqb t (py "Timestamp") = false -> mx_end t s = Ok s' -> Q s' -> good [SEnd t] s Q.
Proof.
  intros T R H. left. exists s'. rewrite run1. split; [exact R|split; [exact H|]]. intros rest. cbn [app mfaults].
  unfold one_of. cbn [existsb]. rewrite T. cbn. unfold mx_end in R.
  match goal with H : bind ?x _ = _ |- _ => destruct x; [|discriminate] end. injection R as <-. reflexivity.
Qed.
Lemma good_elem t atts kids s (P Q R : mstate -> Prop) :
  good [SStart t atts] s P -> (forall s1, P s1 -> good (flat_map sax_of kids) s1 Q) -> (forall s2, Q s2 -> good [SEnd t] s2 R) ->
  good (sax_of (XElem t atts kids)) s R.
Proof.
  intros A B C. change (sax_of (XElem t atts kids)) with ([SStart t atts] ++ flat_map sax_of kids ++ [SEnd t]).
  eapply good_seq; [exact A|]. intros s1 H1. eapply good_seq; [exact (B s1 H1)|exact C].
Qed.
Lemma good_kids kids (P : mstate -> Prop) :
  Forall (fun x => forall s, P s -> good (sax_of x) s P) kids -> forall s, P s -> good (flat_map sax_of kids) s P.
Proof.
  induction 1 as [|x l X _ IH]; intros s H; [now apply good_nil|]. cbn [flat_map].
  eapply good_seq; [now apply X|exact IH].
Qed.
Lemma good_text c s p : fits p s -> good (sax_of (XText c)) s (fits p).
Proof.
  intros H. left. exists (set_buffer (m_buffer s ++ c) s). cbn [sax_of]. rewrite run1. split; [reflexivity|].
  split; [now apply fits_buffer|]. reflexivity.
Qed.

(** ** Names *)
Definition vocabulary : list string :=
  ["Source"; "Process"; "ProcessInstance"; "AuditTrailEntry"; "Attribute"; "EventType"; "WorkflowModelElement"; "Timestamp"; "Originator"]%string.
Lemma tag_cases t : (exists n, In n vocabulary /\ t = py n) \/ (forall n, In n vocabulary -> str_eqb t (py n) = false).
Proof.
  generalize vocabulary. induction l as [|n l IH]; [right; intros n []|].
  destruct (str_eqb t (py n)) eqn:E; [left; exists n; split; [now left|now apply str_eqb_eq]|].
  destruct IH as [(n' & I & ->)|IH]; [left; exists n'; split; [now right|reflexivity]|].
  right. intros n' [<-|I]; auto.
Qed.
Lemma other_start t atts s : (forall n, In n vocabulary -> str_eqb t (py n) = false) -> mx_start draw t atts s = Ok s.
Proof. intros H. unfold mx_start. rewrite !H by (cbn; tauto). reflexivity. Qed.
Lemma other_end t s : (forall n, In n vocabulary -> str_eqb t (py n) = false) -> mx_end t s = Ok (set_buffer [] s).
Proof. intros H. unfold mx_end. rewrite !H by (cbn; tauto). reflexivity. Qed.
Lemma other_placed t atts kids p : (forall n, In n vocabulary -> str_eqb t (py n) = false) ->
  mplaced p (XElem t atts kids) = forallb (mplaced p) kids.
Proof. intros H. cbn [mplaced]. unfold one_of. cbn [existsb]. rewrite !H by (cbn; tauto). reflexivity. Qed.

(** ** Inside a field only the buffer changes *)
Definition rebuffered (s s' : mstate) : Prop := exists b, s' = set_buffer b s.
Lemma field_content x : mplaced InField x = true -> forall s0 s, rebuffered s0 s -> good (sax_of x) s (rebuffered s0).
Proof.
  induction x as [t atts kids IH|c] using xnode_ind2; intros M s0 s R.
  - destruct (tag_cases t) as [(n & I & ->)|O].
    { exfalso. unfold vocabulary in I. cbn [In] in I.
      repeat (destruct I as [<-|I]; [cbn in M; discriminate|]). contradiction. }
    rewrite other_placed in M by exact O.
    eapply good_elem with (P := rebuffered s0) (Q := rebuffered s0).
    + apply good_start with (s' := s); auto; [apply O; cbn; tauto|now apply other_start].
    + apply good_kids. rewrite forallb_forall in M. apply Forall_forall. intros x I s1 H1.
      rewrite Forall_forall in IH. now apply IH; auto.
    + intros s2 [b ->]. apply good_end with (s' := set_buffer [] (set_buffer b s0)); [apply O; cbn; tauto|now apply other_end|].
      now exists [].
  - left. destruct R as [b ->]. eexists. cbn [sax_of]. rewrite run1. split; [reflexivity|]. split; [now eexists|]. reflexivity.
Qed.
Lemma field_kids kids s : forallb (mplaced InField) kids = true -> good (flat_map sax_of kids) s (rebuffered s).
Proof.
  intros M. apply good_kids; [|exists (m_buffer s); now rewrite set_buffer_self].
  rewrite forallb_forall in M. apply Forall_forall. intros x I s1. now apply field_content, M.
Qed.

(** ** The elements, one by one *)
Lemma fits_entry p s : m_entry s <> None -> fits p s -> forall a, exists s', entry_put a s = Ok s' /\ fits p s'
  /\ m_buffer s' = m_buffer s /\ m_entry s' <> None /\ m_generic s' = m_generic s /\ m_type s' = m_type s /\ m_originator s' = m_originator s.
Proof.
  unfold entry_put. destruct (m_entry s) as [e|] eqn:E; [|easy]. intros _ F a. eexists. split; [reflexivity|].
  split; [|repeat split; discriminate]. destruct F as [S F]. split; [exact S|]. destruct p; cbn in *; try tauto; (repeat split; try apply F; discriminate).
Qed.
Lemma in_entry_entry s : fits InEntry s -> m_entry s <> None.
Proof. intros (_ & _ & _ & H). exact H. Qed.

Lemma parsed_aware x d : parse_date_time x = Ok (Some d) -> is_aware d = true.
Proof. intros P. destruct (parse_date_time_sound _ _ P) as (_ & k & Z). unfold is_aware, aware. now rewrite Z. Qed.

Lemma end_process_fits s : fits InProcess s -> exists s', mx_end (py "Process") s = Ok s' /\ fits Outside s'.
Proof.
  intros [S H]. change (mx_end (py "Process") s) with (let! s := end_process s in Ok (set_buffer [] s)).
  unfold end_process. destruct (m_process s); [|easy]. cbn [bind]. eexists. split; [reflexivity|]. split; [exact S|exact I].
Qed.
Lemma end_instance_fits s : fits InInstance s -> exists s', mx_end (py "ProcessInstance") s = Ok s' /\ fits InProcess s'.
Proof.
  intros [(S1 & S2 & S3) [H1 H2]].
  change (mx_end (py "ProcessInstance") s) with (let! s := end_instance s in Ok (set_buffer [] s)).
  unfold end_instance. destruct (m_instance s) as [t|]; [|easy]. destruct (m_process s) as [l|] eqn:L; [|easy].
  destruct (mt_events t); cbn [bind]; (eexists; split; [reflexivity|]); (split; [split; [exact S1|split; [exact Logic.I|exact S3]]|]); cbn; congruence.
Qed.
Lemma end_entry_fits s : fits InEntry s -> exists s', mx_end (py "AuditTrailEntry") s = Ok s' /\ fits InInstance s'.
Proof.
  intros [(S1 & S2 & S3) (H1 & H2 & H3)].
  change (mx_end (py "AuditTrailEntry") s) with (let! s := end_entry s in Ok (set_buffer [] s)).
  unfold end_entry. destruct (m_instance s) as [t|] eqn:T; [|easy].
  destruct (m_timestamp s) as [d|] eqn:D; [destruct (m_last s) as [d'|] eqn:D'|]; cbn in S1, S2.
  - destruct (gt_aware d d' S1 S2) as [[] ->]; cbn [bind];
      (eexists; split; [reflexivity|]); repeat split; cbn; rewrite ?D, ?D'; cbn; auto; discriminate.
  - cbn [bind]. (eexists; split; [reflexivity|]); repeat split; cbn; rewrite ?D, ?D'; cbn; auto; discriminate.
  - cbn [bind]. (eexists; split; [reflexivity|]); repeat split; cbn; rewrite ?D; cbn; auto; discriminate.
Qed.
Lemma end_attribute_fits p s : p <> InField -> fits p s -> m_generic s <> None ->
  exists s', mx_end (py "Attribute") s = Ok s' /\ fits p s'.
Proof.
  intros NF [S H] G. change (mx_end (py "Attribute") s) with (let! s := end_attribute s in Ok (set_buffer [] s)).
  unfold end_attribute. destruct (nonempty _); [|cbn [bind]; eexists; split; [reflexivity|]; split; [exact S|exact H]].
  destruct (m_generic s) as [[c k e v coll meta]|]; [|easy]. set (a := mk_attr c k e _ coll meta).
  destruct (m_entry s) as [en|] eqn:E.
  { cbn [bind]. eexists. split; [reflexivity|]. split; [exact S|]. destruct p; cbn in *; try tauto; (repeat split; try apply H; discriminate). }
  cbv zeta. destruct (match m_instance s with Some t => has_items (mt_events t) | None => false end).
  { cbn [bind]. eexists. split; [reflexivity|]. split; [exact S|]. destruct p, (m_instance s); cbn in *; try tauto; try congruence; repeat split; try apply H; try discriminate. }
  destruct (match m_process s with Some l => has_items (ml_traces l) | None => false end).
  { cbn [bind]. eexists. split; [reflexivity|]. split; [exact S|]. destruct p, (m_process s); cbn in *; try tauto; try congruence; repeat split; try apply H; try discriminate. }
  destruct (m_source_open s) eqn:O.
  - destruct (m_source s) as [i|] eqn:So; [|destruct S as (_ & _ & S); now destruct (S O)].
    cbn [bind]. eexists. split; [reflexivity|]. split; [|destruct p; cbn in *; tauto]. destruct S as (S1 & S2 & S3). split; [exact S1|split; [exact S2|]]. cbn. congruence.
  - cbn [bind]. eexists. split; [reflexivity|]. split; [exact S|destruct p; cbn in *; tauto].
Qed.
Lemma end_type_fits s : fits InEntry s -> m_type s <> None -> exists s', mx_end (py "EventType") s = Ok s' /\ fits InEntry s'.
Proof.
  intros F T. change (mx_end (py "EventType") s) with (let! s := end_type s in Ok (set_buffer [] s)).
  unfold end_type. destruct (m_type s) as [[c k e v coll meta]|]; [|easy].
  assert (Done : forall s1, fits InEntry s1 -> exists s', (let! s := (let! s := Ok s1 in Ok (set_type None s)) in Ok (set_buffer [] s)) = Ok s' /\ fits InEntry s').
  { intros s1 F1. eexists. split; [reflexivity|exact F1]. }
  destruct (py_eq v _); [destruct (nonempty _)|]; [| |].
  - destruct (fits_entry InEntry s (in_entry_entry s F) F (mk_attr c k e (PStr (strip (m_buffer s))) coll meta)) as (s1 & -> & F1 & _). now apply Done.
  - now apply Done.
  - destruct (fits_entry InEntry s (in_entry_entry s F) F (mk_attr c k e v coll meta)) as (s1 & -> & F1 & _). now apply Done.
Qed.
Lemma end_model_element_fits s : fits InEntry s -> exists s', mx_end (py "WorkflowModelElement") s = Ok s' /\ fits InEntry s'.
Proof.
  intros F. change (mx_end (py "WorkflowModelElement") s) with (let! s := end_model_element s in Ok (set_buffer [] s)).
  unfold end_model_element. destruct (nonblank _); [|eexists; split; [reflexivity|exact F]].
  match goal with |- context [entry_put ?a s] => destruct (fits_entry InEntry s (in_entry_entry s F) F a) as (s1 & -> & F1 & _) end.
  eexists; split; [reflexivity|exact F1].
Qed.
Lemma end_originator_fits s : fits InEntry s -> m_originator s <> None -> exists s', mx_end (py "Originator") s = Ok s' /\ fits InEntry s'.
Proof.
  intros F T. change (mx_end (py "Originator") s) with (let! s := end_originator s in Ok (set_buffer [] s)).
  unfold end_originator. destruct (m_originator s) as [[c k e v coll meta]|]; [|easy]. cbv zeta.
  match goal with |- context [entry_put ?a s] => destruct (fits_entry InEntry s (in_entry_entry s F) F a) as (s1 & -> & F1 & _) end.
  eexists; split; [reflexivity|exact F1].
Qed.
Lemma end_timestamp_good s : fits InEntry s -> good [SEnd (py "Timestamp")] s (fits InEntry).
Proof.
  intros F. unfold good. rewrite run1. cbn [mx_step].
  change (mx_end (py "Timestamp") s) with (let! s := end_timestamp s in Ok (set_buffer [] s)).
  unfold end_timestamp. destruct (parse_date_time (strip (m_buffer s))) as [[d|]|e] eqn:P.
  - left. cbn [bind]. assert (F1 : fits InEntry (set_times (Some d) (m_last s) s)).
    { destruct F as [(S1 & S2 & S3) H]. split; [|exact H]. split; [exact (parsed_aware _ _ P)|split; [exact S2|exact S3]]. }
    match goal with |- context [entry_put ?a ?s] => destruct (fits_entry InEntry s (in_entry_entry s F1) F1 a) as (s1 & -> & F2 & _) end.
    eexists. split; [reflexivity|]. split; [exact F2|]. intros rest. change (one_of (py "Timestamp") ["Timestamp"%string]) with true.
    cbn [app mfaults]. change (one_of (py "Timestamp") ["Timestamp"%string]) with true. cbn iota. rewrite P. reflexivity.
  - left. cbn [bind]. eexists. split; [reflexivity|]. split.
    { destruct F as [(S1 & S2 & S3) H]. split; [|exact H]. split; [exact Logic.I|split; [exact S2|exact S3]]. }
    intros rest. cbn [app mfaults]. change (one_of (py "Timestamp") ["Timestamp"%string]) with true. cbn iota. rewrite P. reflexivity.
  - right. exists e. split; [reflexivity|]. intros rest. cbn [app mfaults].
    change (one_of (py "Timestamp") ["Timestamp"%string]) with true. cbn iota. rewrite P. reflexivity.
Qed.

Lemma node_good x : forall p, mplaced p x = true -> forall s, fits p s -> good (sax_of x) s (fits p).
Proof.
  induction x as [t atts kids IH|c] using xnode_ind2; intros p M s F; [|now apply good_text].
  assert (IHk : forall q, forallb (mplaced q) kids = true -> forall s, fits q s -> good (flat_map sax_of kids) s (fits q)).
  { intros q Mq. apply good_kids. rewrite forallb_forall in Mq. rewrite Forall_forall in *. intros x I. apply (IH x I). now apply Mq. }
  destruct (tag_cases t) as [(n & I & ->)|O].
  2:{ rewrite other_placed in M by exact O. eapply good_elem with (P := fits p) (Q := fits p).
      - apply good_start with (s' := s); auto; [apply O; cbn; tauto|now apply other_start].
      - now apply IHk.
      - intros s2 F2. apply good_end with (s' := set_buffer [] s2); [apply O; cbn; tauto|now apply other_end|now apply fits_buffer]. }
  unfold vocabulary in I. cbn [In] in I. destruct I as [<-|[<-|[<-|[<-|[<-|[<-|[<-|[<-|[<-|[]]]]]]]]]].
  - assert (Mk : forallb (mplaced p) kids = true) by (destruct p; try discriminate M; exact M).
    eapply good_elem with (P := fits p) (Q := fits p).
    + apply good_start with (s' := start_source atts s); try reflexivity. destruct F as [(S1 & S2 & S3) H].
      split; [|exact H]. split; [exact S1|split; [exact S2|]]. cbn. discriminate.
    + now apply IHk.
    + intros s2 F2. apply good_end with (s' := set_buffer [] s2); try reflexivity. now apply fits_buffer.
  - destruct p; try discriminate M. eapply good_elem with (P := fits InProcess) (Q := fits InProcess).
    + apply good_start with (s' := start_process atts s); try reflexivity. destruct F as [S _]. split; [exact S|discriminate].
    + now apply IHk.
    + intros s2 F2. destruct (end_process_fits s2 F2) as (s3 & R & F3). now apply good_end with (s' := s3).
  - destruct p; try discriminate M. eapply good_elem with (P := fits InInstance) (Q := fits InInstance).
    + apply good_start with (s' := start_instance atts s); try reflexivity. destruct F as [S H]. split; [exact S|split; [exact H|discriminate]].
    + now apply IHk.
    + intros s2 F2. destruct (end_instance_fits s2 F2) as (s3 & R & F3). now apply good_end with (s' := s3).
  - destruct p; try discriminate M. eapply good_elem with (P := fits InEntry) (Q := fits InEntry).
    + apply good_start with (s' := start_entry draw s); try reflexivity. destruct F as [S [H1 H2]]. split; [exact S|split; [exact H1|split; [exact H2|discriminate]]].
    + now apply IHk.
    + intros s2 F2. destruct (end_entry_fits s2 F2) as (s3 & R & F3). now apply good_end with (s' := s3).
  - assert (Mk : p <> InField /\ forallb (mplaced InField) kids = true) by (destruct p; try discriminate M; split; try exact M; discriminate).
    destruct Mk as [NF Mk]. eapply good_elem with (P := fun s1 => fits p s1 /\ m_generic s1 <> None) (Q := fun s1 => fits p s1 /\ m_generic s1 <> None).
    + unfold good. rewrite run1. change (mx_step draw s (SStart (py "Attribute") atts)) with (start_attribute atts s).
      unfold start_attribute. destruct (sget (py "name") atts) as [nm|] eqn:N.
      * left. eexists. split; [reflexivity|]. split; [split; [exact F|discriminate]|]. intros rest. cbn [app mfaults].
        change (one_of (py "Attribute") ["Attribute"%string]) with true. cbn iota. rewrite N. reflexivity.
      * right. eexists. split; [reflexivity|]. intros rest. cbn [app mfaults].
        change (one_of (py "Attribute") ["Attribute"%string]) with true. cbn iota. rewrite N. reflexivity.
    + intros s1 [F1 G1]. eapply good_weaken; [now apply field_kids|]. intros s2 [b ->]. split; [now apply fits_buffer|exact G1].
    + intros s2 [F2 G2]. destruct (end_attribute_fits p s2 NF F2 G2) as (s3 & R & F3). now apply good_end with (s' := s3).
  - destruct p; try discriminate M. eapply good_elem with (P := fun s1 => fits InEntry s1 /\ m_type s1 <> None) (Q := fun s1 => fits InEntry s1 /\ m_type s1 <> None).
    + apply good_start with (s' := start_type atts s); try reflexivity. split; [exact F|discriminate].
    + intros s1 [F1 G1]. eapply good_weaken; [now apply field_kids|]. intros s2 [b ->]. split; [now apply fits_buffer|exact G1].
    + intros s2 [F2 G2]. destruct (end_type_fits s2 F2 G2) as (s3 & R & F3). now apply good_end with (s' := s3).
  - destruct p; try discriminate M. eapply good_elem with (P := fits InEntry) (Q := fits InEntry).
    + assert (St : exists s1, start_model_element atts s = Ok s1 /\ fits InEntry s1 /\ m_buffer s1 = m_buffer s).
      { unfold start_model_element. destruct (model_reference atts) as [a|]; [|exists s; auto].
        destruct (fits_entry InEntry s (in_entry_entry s F) F a) as (s1 & -> & F1 & B1 & _). exists s1. auto. }
      destruct St as (s1 & R & F1 & B1). now apply good_start with (s' := s1).
    + intros s1 F1. eapply good_weaken; [now apply field_kids|]. intros s2 [b ->]. now apply fits_buffer.
    + intros s2 F2. destruct (end_model_element_fits s2 F2) as (s3 & R & F3). now apply good_end with (s' := s3).
  - destruct p; try discriminate M. eapply good_elem with (P := fits InEntry) (Q := fits InEntry).
    + now apply good_start with (s' := s).
    + intros s1 F1. eapply good_weaken; [now apply field_kids|]. intros s2 [b ->]. now apply fits_buffer.
    + apply end_timestamp_good.
  - destruct p; try discriminate M. eapply good_elem with (P := fun s1 => fits InEntry s1 /\ m_originator s1 <> None) (Q := fun s1 => fits InEntry s1 /\ m_originator s1 <> None).
    + apply good_start with (s' := start_originator atts s); try reflexivity. split; [exact F|discriminate].
    + intros s1 [F1 G1]. eapply good_weaken; [now apply field_kids|]. intros s2 [b ->]. split; [now apply fits_buffer|exact G1].
    + intros s2 [F2 G2]. destruct (end_originator_fits s2 F2 G2) as (s3 & R & F3). now apply good_end with (s' := s3).
Qed.

Theorem mxml_outcome doc : mplaced Outside doc = true ->
  match mfaults [] (sax_of doc) with
  | [] => exists s, mxml_parse draw doc = Ok s
  | e :: _ => mxml_parse draw doc = Raise e
  end.
Proof.
  intros M. destruct (node_good doc Outside M ms_init) as [(s & R & _ & Q)|(e & R & Q)].
  - split; [|exact Logic.I]. split; [exact Logic.I|split; [exact Logic.I|discriminate]].
  - specialize (Q []). rewrite app_nil_r in Q. cbn [m_buffer ms_init mfaults] in Q. change (m_buffer ms_init) with (@nil N) in Q. rewrite Q. now exists s.
  - specialize (Q []). rewrite app_nil_r in Q. change (m_buffer ms_init) with (@nil N) in Q.
    destruct (mfaults [] (sax_of doc)); [discriminate|]. injection Q as ->. exact R.
Qed.

(** ** Any sequence of events *)
Lemma start_step t atts s s' : mx_start draw t atts s = Ok s' ->
  m_buffer s' = m_buffer s /\ (t = py "Attribute" -> sget (py "name") atts <> None).
Proof.
  destruct (tag_cases t) as [(n & I & ->)|O].
  - unfold vocabulary in I. cbn [In] in I. destruct I as [<-|[<-|[<-|[<-|[<-|[<-|[<-|[<-|[<-|[]]]]]]]]]].
    all: try (intros [= <-]; split; [reflexivity|discriminate]).
    + change (mx_start draw (py "Attribute") atts s) with (start_attribute atts s). unfold start_attribute.
      destruct (sget (py "name") atts); [|discriminate]. intros [= <-]. split; [reflexivity|discriminate].
    + change (mx_start draw (py "WorkflowModelElement") atts s) with (start_model_element atts s). unfold start_model_element.
      intros R. split; [|discriminate]. destruct (model_reference atts); [|injection R as <-; reflexivity].
      unfold entry_put in R. destruct (m_entry s); [|discriminate]. injection R as <-. reflexivity.
  - rewrite (other_start _ _ _ O). intros [= <-]. split; [reflexivity|]. intros ->.
    specialize (O "Attribute"%string). cbn in O. discriminate O. tauto.
Qed.
Lemma end_step t s s' : mx_end t s = Ok s' ->
  m_buffer s' = [] /\ (t = py "Timestamp" -> exists d, parse_date_time (strip (m_buffer s)) = Ok d).
Proof.
  intros R. split.
  - unfold mx_end in R. match goal with H : bind ?x _ = _ |- _ => destruct x; [|discriminate] end. now injection R as <-.
  - intros ->. change (mx_end (py "Timestamp") s) with (let! s := end_timestamp s in Ok (set_buffer [] s)) in R.
    unfold end_timestamp in R. destruct (parse_date_time _); [eauto|discriminate].
Qed.
Lemma mxml_accepted es : forall s s', mx_run draw es s = Ok s' -> mfaults (m_buffer s) es = [].
Proof.
  induction es as [|e es IH]; intros s s' R; [reflexivity|]. unfold mx_run in R. cbn [fold_res] in R.
  destruct (mx_step draw s e) as [s1|] eqn:E; [|discriminate]. apply IH in R. destruct e as [t atts|t|c]; cbn [mx_step] in E; cbn [mfaults].
  - destruct (start_step _ _ _ _ E) as [B A]. rewrite B in R. rewrite R, app_nil_r. unfold one_of. cbn [existsb]. rewrite orb_false_r.
    destruct (str_eqb t (py "Attribute")) eqn:T; [|reflexivity]. apply str_eqb_eq in T. specialize (A T). now destruct (sget (py "name") atts).
  - destruct (end_step _ _ _ E) as [B A]. rewrite B in R. rewrite R, app_nil_r. unfold one_of. cbn [existsb]. rewrite orb_false_r.
    destruct (str_eqb t (py "Timestamp")) eqn:T; [|reflexivity]. apply str_eqb_eq in T. destruct (A T) as [d ->]. reflexivity.
  - injection E as <-. exact R.
Qed.

Ltac raised := try discriminate; try (intros [= <-]; cbn; tauto).
Lemma entry_put_raises a s e : entry_put a s = Raise e -> e = AttributeError.
Proof. unfold entry_put. destruct (m_entry s); congruence. Qed.
Lemma gt_raises d d' e : py_gt (PDate d) (PDate d') = Raise e -> e = TypeError.
Proof. unfold py_gt, dt_cmp. cbn [num_of]. destruct (Bool.eqb _ _); congruence. Qed.
Lemma mx_step_raises s ev e : mx_step draw s ev = Raise e -> In e [AttributeError; TypeError; OverflowError].
Proof.
  destruct ev as [t atts|t|c]; [| |discriminate]; cbn [mx_step].
  - destruct (tag_cases t) as [(n & I & ->)|O]; [|now rewrite (other_start _ _ _ O)].
    unfold vocabulary in I. cbn [In] in I. destruct I as [<-|[<-|[<-|[<-|[<-|[<-|[<-|[<-|[<-|[]]]]]]]]]]; try discriminate.
    + change (mx_start draw (py "Attribute") atts s) with (start_attribute atts s). unfold start_attribute.
      destruct (sget (py "name") atts); raised.
    + change (mx_start draw (py "WorkflowModelElement") atts s) with (start_model_element atts s). unfold start_model_element.
      destruct (model_reference atts); [|discriminate]. intros R. apply entry_put_raises in R. subst. cbn. tauto.
  - intros R. destruct (tag_cases t) as [(n & I & ->)|O]; [|now rewrite (other_end _ _ O) in R].
    unfold vocabulary in I. cbn [In] in I.
    assert (X : forall f : mstate -> res mstate, (let! s := f s in Ok (set_buffer [] s)) = Raise e -> f s = Raise e)
      by (intros f; destruct (f s); cbn [bind]; congruence).
    destruct I as [<-|[<-|[<-|[<-|[<-|[<-|[<-|[<-|[<-|[]]]]]]]]]]; try discriminate.
    + apply (X end_process) in R. revert R. unfold end_process. destruct (m_process s); raised.
    + apply (X end_instance) in R. revert R. unfold end_instance. destruct (m_instance s) as [t|]; raised.
      destruct (mt_events t); raised. destruct (m_process s); cbn [bind]; raised.
    + apply (X end_entry) in R. revert R. unfold end_entry. cbv zeta. destruct (m_timestamp s) as [d|]; [destruct (m_last s) as [d'|]|].
      * destruct (py_gt (PDate d) (PDate d')) as [[]|x] eqn:G; cbn [bind].
        -- destruct (m_instance s); cbn [bind]; raised.
        -- destruct (m_instance s); cbn [bind]; raised.
        -- apply gt_raises in G. subst x. raised.
      * destruct (m_instance s); cbn [bind]; raised.
      * destruct (m_instance s); cbn [bind]; raised.
    + apply (X end_attribute) in R. revert R. unfold end_attribute. destruct (nonempty _); cbn [bind]; raised.
      destruct (m_generic s) as [[c k x v coll meta]|]; cbn [bind]; raised. destruct (m_entry s); cbn [bind]; raised. cbv zeta.
      destruct (match m_instance s with Some t => has_items (mt_events t) | None => false end); cbn [bind]; raised.
      destruct (match m_process s with Some l => has_items (ml_traces l) | None => false end); cbn [bind]; raised.
      destruct (m_source_open s); cbn [bind]; raised. destruct (m_source s); cbn [bind]; raised.
    + apply (X end_type) in R. revert R. unfold end_type. destruct (m_type s) as [[c k x v coll meta]|]; raised.
      destruct (py_eq v _); [destruct (nonempty _)|]; cbn [bind]; raised.
      all: destruct (entry_put _ s) eqn:P; cbn [bind]; raised; apply entry_put_raises in P; subst; raised.
    + apply (X end_model_element) in R. revert R. unfold end_model_element. destruct (nonblank _); raised.
      intros P. apply entry_put_raises in P. subst. cbn. tauto.
    + apply (X end_timestamp) in R. revert R. unfold end_timestamp. destruct (parse_date_time _) as [[d|]|x] eqn:P; cbn [bind]; raised.
      * intros P'. apply entry_put_raises in P'. subst. cbn. tauto.
      * apply parse_date_time_raise in P. destruct P as [-> _]. raised.
    + apply (X end_originator) in R. revert R. unfold end_originator. destruct (m_originator s) as [[c k x v coll meta]|]; raised. cbv zeta.
      destruct (entry_put _ s) eqn:P; cbn [bind]; raised; apply entry_put_raises in P; subst; raised.
Qed.
Lemma mx_run_raises es : forall s e, mx_run draw es s = Raise e -> In e [AttributeError; TypeError; OverflowError].
Proof.
  induction es as [|x es IH]; intros s e R; [discriminate|]. unfold mx_run in R. cbn [fold_res] in R.
  destruct (mx_step draw s x) as [s1|e1] eqn:E; [exact (IH _ _ R)|]. injection R as ->. exact (mx_step_raises _ _ _ E).
Qed.

(** ** Elements that close a field of the handler *)
Section Closing.
Context (n : string) (closed : mstate -> Prop).
Context (Start : forall t atts s s', str_eqb t (py n) = false -> mx_start draw t atts s = Ok s' -> closed s -> closed s')
        (End_ : forall t s s', mx_end t s = Ok s' -> closed s \/ t = py n -> closed s')
        (Chars : forall s b, closed s -> closed (set_buffer b s)).
Lemma run_list (P : xnode -> Prop) kids :
  (forall x s s', In x kids -> P x -> mx_run draw (sax_of x) s = Ok s' -> closed s') ->
  (forall x s s', In x kids -> closed s -> mx_run draw (sax_of x) s = Ok s' -> closed s') ->
  forall s s', mx_run draw (flat_map sax_of kids) s = Ok s' -> closed s \/ Exists P kids -> closed s'.
Proof.
  induction kids as [|x kids IH]; intros A B s s' R H.
  - injection R as <-. destruct H as [H|H]; [exact H|inversion H].
  - cbn [flat_map] in R. rewrite mx_run_app in R. destruct (mx_run draw (sax_of x) s) as [s1|] eqn:R1; [|discriminate].
    cbn [bind] in R. apply (IH (fun y t t' I => A y t t' (or_intror I)) (fun y t t' I => B y t t' (or_intror I)) s1 s' R).
    destruct H as [H|H]; [left; exact (B x s s1 (or_introl eq_refl) H R1)|].
    inversion H as [? ? Px|? ? E]; subst; [left; exact (A x s s1 (or_introl eq_refl) Px R1)|now right].
Qed.
Lemma closed_after x : forall s s', mx_run draw (sax_of x) s = Ok s' -> closed s \/ occurs n x = true -> closed s'.
Proof.
  induction x as [t atts kids IH|c] using xnode_ind2; intros s s' R H.
  - rewrite mx_run_elem in R. destruct (mx_start draw t atts s) as [s1|] eqn:S; [|discriminate]. cbn [bind] in R.
    destruct (mx_run draw (flat_map sax_of kids) s1) as [s2|] eqn:K; [|discriminate]. cbn [bind] in R.
    apply (End_ _ _ _ R). destruct (str_eqb t (py n)) eqn:T; [right; now apply str_eqb_eq|left].
    cbn [occurs] in H. rewrite T in H. cbn [orb] in H. rewrite Forall_forall in IH.
    apply (run_list (fun x => occurs n x = true) kids (fun x a b I O X => IH x I a b X (or_intror O))
             (fun x a b I C X => IH x I a b X (or_introl C)) s1 s2 K).
    destruct H as [H|H]; [left; now apply (Start _ _ _ _ T S)|right].
    apply existsb_exists in H. apply Exists_exists. destruct H as (x & ? & ?). eauto.
  - cbn [sax_of] in R. rewrite run1 in R. injection R as <-. destruct H as [H|H]; [now apply Chars|discriminate].
Qed.
Context (Bad : forall s, closed s -> exists e, mx_end (py n) s = Raise e).
Lemma nested_raises x : nested n x = true -> forall s, exists e, mx_run draw (sax_of x) s = Raise e.
Proof.
  induction x as [t atts kids IH|c] using xnode_ind2; intros N s; [|discriminate].
  rewrite mx_run_elem. destruct (mx_start draw t atts s) as [s1|e]; [|exists e; reflexivity]. cbn [bind].
  destruct (mx_run draw (flat_map sax_of kids) s1) as [s2|e] eqn:K; [|exists e; reflexivity]. cbn [bind].
  cbn [nested] in N. apply orb_true_iff in N. destruct N as [N|N].
  - apply andb_true_iff in N. destruct N as [T N]. apply str_eqb_eq in T. subst t. apply Bad.
    apply (run_list (fun x => occurs n x = true) kids (fun x a b _ O X => closed_after x a b X (or_intror O))
             (fun x a b _ C X => closed_after x a b X (or_introl C)) s1 s2 K).
    right. apply existsb_exists in N. apply Exists_exists. destruct N as (x & ? & ?). eauto.
  - exfalso. apply existsb_exists in N. destruct N as (x & I & N). rewrite Forall_forall in IH.
    destruct (in_split _ _ I) as (a & b & ->). rewrite flat_map_app in K. cbn [flat_map] in K. rewrite mx_run_app in K.
    destruct (mx_run draw (flat_map sax_of a) s1) as [s3|]; [|discriminate]. cbn [bind] in K. rewrite mx_run_app in K.
    destruct (IH x I N s3) as [e X]. rewrite X in K. discriminate.
Qed.
End Closing.

Lemma start_process_kept t atts s s' : str_eqb t (py "Process") = false -> mx_start draw t atts s = Ok s' -> m_process s' = m_process s.
Proof.
  intros T. destruct (tag_cases t) as [(n & I & ->)|O]; [|rewrite (other_start _ _ _ O); now intros [= <-]].
  unfold vocabulary in I. cbn [In] in I. destruct I as [<-|[<-|[<-|[<-|[<-|[<-|[<-|[<-|[<-|[]]]]]]]]]]; try discriminate T; try (now intros [= <-]).
  - change (mx_start draw (py "Attribute") atts s) with (start_attribute atts s). unfold start_attribute.
    destruct (sget (py "name") atts); [|discriminate]. now intros [= <-].
  - change (mx_start draw (py "WorkflowModelElement") atts s) with (start_model_element atts s). unfold start_model_element, entry_put.
    destruct (model_reference atts); [|now intros [= <-]]. destruct (m_entry s); [|discriminate]. now intros [= <-].
Qed.
Lemma start_instance_kept t atts s s' : str_eqb t (py "ProcessInstance") = false -> mx_start draw t atts s = Ok s' -> m_instance s' = m_instance s.
Proof.
  intros T. destruct (tag_cases t) as [(n & I & ->)|O]; [|rewrite (other_start _ _ _ O); now intros [= <-]].
  unfold vocabulary in I. cbn [In] in I. destruct I as [<-|[<-|[<-|[<-|[<-|[<-|[<-|[<-|[<-|[]]]]]]]]]]; try discriminate T; try (now intros [= <-]).
  - change (mx_start draw (py "Attribute") atts s) with (start_attribute atts s). unfold start_attribute.
    destruct (sget (py "name") atts); [|discriminate]. now intros [= <-].
  - change (mx_start draw (py "WorkflowModelElement") atts s) with (start_model_element atts s). unfold start_model_element, entry_put.
    destruct (model_reference atts); [|now intros [= <-]]. destruct (m_entry s); [|discriminate]. now intros [= <-].
Qed.

(** What the end tags do to the open process and the open instance. *)
Lemma end_closed t s s' : mx_end t s = Ok s' ->
  (m_process s = None \/ t = py "Process" -> m_process s' = None)
  /\ (m_instance s = None \/ t = py "ProcessInstance" -> m_instance s' = None).
Proof.
  destruct (tag_cases t) as [(n & I & ->)|O].
  2:{ rewrite (other_end _ _ O). intros [= <-]. cbn. split; intros [H| ->]; auto; exfalso;
      [specialize (O "Process"%string)|specialize (O "ProcessInstance"%string)]; cbn in O; discriminate O; tauto. }
  intros R. unfold vocabulary in I. cbn [In] in I.
  assert (X : forall f : mstate -> res mstate, (let! s := f s in Ok (set_buffer [] s)) = Ok s' -> exists s1, f s = Ok s1 /\ s' = set_buffer [] s1)
    by (intros f; destruct (f s) as [s1|]; cbn [bind]; [intros [= <-]; eauto|discriminate]).
  assert (EP : forall a x y, entry_put a x = Ok y -> m_process y = m_process x /\ m_instance y = m_instance x)
    by (intros a x y; unfold entry_put; destruct (m_entry x); [intros [= <-]; auto|discriminate]).
  destruct I as [<-|[<-|[<-|[<-|[<-|[<-|[<-|[<-|[<-|[]]]]]]]]]].
  - injection R as <-. cbn. split; (intros [H|H]; [exact H|discriminate]).
  - apply (X end_process) in R. destruct R as (s1 & R & ->). unfold end_process in R. destruct (m_process s); [|discriminate].
    injection R as <-. cbn. split; [reflexivity|]. intros [H|H]; [exact H|discriminate].
  - apply (X end_instance) in R. destruct R as (s1 & R & ->). unfold end_instance in R. destruct (m_instance s) as [t|]; [|discriminate].
    destruct (mt_events t).
    + injection R as <-. cbn. split; [|reflexivity]. intros [H|H]; [exact H|discriminate].
    + destruct (m_process s); [|discriminate]. injection R as <-. cbn. split; [|reflexivity]. intros [H|H]; discriminate.
  - apply (X end_entry) in R. destruct R as (s1 & R & ->). unfold end_entry in R. cbv zeta in R.
    destruct (m_instance s) as [t|] eqn:T.
    + assert (P : m_process s1 = m_process s).
      { destruct (m_timestamp s) as [d|]; [destruct (m_last s) as [d'|]; [destruct (py_gt (PDate d) (PDate d')) as [[]|]|]|]; cbn in R; try discriminate; now injection R as <-. }
      split; (intros [H|H]; [|discriminate]); cbn; [now rewrite P|discriminate].
    + destruct (m_timestamp s) as [d|]; [destruct (m_last s) as [d'|]; [destruct (py_gt (PDate d) (PDate d')) as [[]|]|]|]; discriminate.
  - apply (X end_attribute) in R. destruct R as (s1 & R & ->). unfold end_attribute in R.
    assert (Y : (m_process s = None -> m_process s1 = None) /\ (m_instance s = None -> m_instance s1 = None)).
    { destruct (nonempty _); [|injection R as <-; auto]. destruct (m_generic s) as [[c k e v coll meta]|]; [|discriminate].
      destruct (m_entry s); [injection R as <-; auto|]. cbv zeta in R.
      destruct (match m_instance s with Some t => has_items (mt_events t) | None => false end);
        [injection R as <-; cbn; split; [auto|now intros ->]|].
      destruct (match m_process s with Some l => has_items (ml_traces l) | None => false end);
        [injection R as <-; cbn; split; [now intros ->|auto]|].
      destruct (m_source_open s); [destruct (m_source s); [|discriminate]|]; injection R as <-; auto. }
    cbn. split; (intros [H|H]; [|discriminate]); now apply Y.
  - apply (X end_type) in R. destruct R as (s1 & R & ->). unfold end_type in R. destruct (m_type s) as [[c k e v coll meta]|]; [|discriminate].
    assert (Y : m_process s1 = m_process s /\ m_instance s1 = m_instance s).
    { destruct (py_eq v _); [destruct (nonempty _)|]; [| injection R as <-; auto|].
      all: match goal with H : bind (entry_put ?a ?x) _ = _ |- _ => destruct (entry_put a x) as [s2|] eqn:E; [|discriminate]; injection H as <-; exact (EP _ _ _ E) end. }
    cbn. destruct Y as [-> ->]. split; (intros [H|H]; [exact H|discriminate]).
  - apply (X end_model_element) in R. destruct R as (s1 & R & ->). unfold end_model_element in R.
    assert (Y : m_process s1 = m_process s /\ m_instance s1 = m_instance s)
      by (destruct (nonblank _); [exact (EP _ _ _ R)|injection R as <-; auto]).
    cbn. destruct Y as [-> ->]. split; (intros [H|H]; [exact H|discriminate]).
  - apply (X end_timestamp) in R. destruct R as (s1 & R & ->). unfold end_timestamp in R.
    assert (Y : m_process s1 = m_process s /\ m_instance s1 = m_instance s).
    { destruct (parse_date_time _) as [[d|]|]; cbn [bind] in R; [|injection R as <-; auto|discriminate].
      apply EP in R. exact R. }
    cbn. destruct Y as [-> ->]. split; (intros [H|H]; [exact H|discriminate]).
  - apply (X end_originator) in R. destruct R as (s1 & R & ->). unfold end_originator in R.
    destruct (m_originator s) as [[c k e v coll meta]|]; [|discriminate]. cbv zeta in R.
    assert (Y : m_process s1 = m_process s /\ m_instance s1 = m_instance s).
    { match goal with H : bind (entry_put ?a ?x) _ = _ |- _ => destruct (entry_put a x) as [s2|] eqn:E; [|discriminate]; injection H as <-; exact (EP _ _ _ E) end. }
    cbn. destruct Y as [-> ->]. split; (intros [H|H]; [exact H|discriminate]).
Qed.

Lemma nested_process doc : nested "Process" doc = true -> exists e, mxml_parse draw doc = Raise e.
Proof.
  intros N. apply (nested_raises "Process" (fun s => m_process s = None)); auto.
  - intros t atts s s' T R H. now rewrite (start_process_kept _ _ _ _ T R).
  - intros t s s' R. exact (proj1 (end_closed _ _ _ R)).
  - intros s H. exists AttributeError. change (mx_end (py "Process") s) with (let! s := end_process s in Ok (set_buffer [] s)).
    unfold end_process. now rewrite H.
Qed.
Lemma nested_instance doc : nested "ProcessInstance" doc = true -> exists e, mxml_parse draw doc = Raise e.
Proof.
  intros N. apply (nested_raises "ProcessInstance" (fun s => m_instance s = None)); auto.
  - intros t atts s s' T R H. now rewrite (start_instance_kept _ _ _ _ T R).
  - intros t s s' R. exact (proj2 (end_closed _ _ _ R)).
  - intros s H. exists TypeError. change (mx_end (py "ProcessInstance") s) with (let! s := end_instance s in Ok (set_buffer [] s)).
    unfold end_instance. now rewrite H.
Qed.

(** Without instances there is never an open instance. *)
Lemma no_instance x : occurs "ProcessInstance" x = false -> forall s, m_instance s = None ->
  match mx_run draw (sax_of x) s with Ok s' => m_instance s' = None /\ occurs "AuditTrailEntry" x = false | Raise _ => True end.
Proof.
  induction x as [t atts kids IH|c] using xnode_ind2; intros N s H; [|cbn; auto].
  cbn [occurs] in N. apply orb_false_iff in N. destruct N as [T N]. rewrite mx_run_elem.
  destruct (mx_start draw t atts s) as [s1|] eqn:S; [|exact Logic.I]. cbn [bind].
  assert (H1 : m_instance s1 = None) by now rewrite (start_instance_kept _ _ _ _ T S).
  assert (K : match mx_run draw (flat_map sax_of kids) s1 with Ok s' => m_instance s' = None /\ existsb (occurs "AuditTrailEntry") kids = false | Raise _ => True end).
  { clear S. revert s1 H1. induction IH as [|x l X _ IHl]; intros s1 H1; [cbn; auto|]. cbn [existsb] in N. apply orb_false_iff in N.
    destruct N as [Nx Nl]. cbn [flat_map existsb]. rewrite mx_run_app. specialize (X Nx s1 H1).
    destruct (mx_run draw (sax_of x) s1) as [s2|]; [|exact Logic.I]. cbn [bind]. destruct X as [X ->]. exact (IHl Nl s2 X). }
  destruct (mx_run draw (flat_map sax_of kids) s1) as [s2|]; [|exact Logic.I]. cbn [bind]. destruct K as [K1 K2].
  destruct (mx_end t s2) as [s3|] eqn:E; [|exact Logic.I]. split; [exact (proj2 (end_closed _ _ _ E) (or_introl K1))|].
  cbn [occurs]. rewrite K2. destruct (str_eqb t (py "AuditTrailEntry")) eqn:A; [|reflexivity]. exfalso. apply str_eqb_eq in A. subst t.
  change (mx_end (py "AuditTrailEntry") s2) with (let! s := end_entry s2 in Ok (set_buffer [] s)) in E.
  unfold end_entry in E. cbv zeta in E. rewrite K1 in E.
  destruct (m_timestamp s2) as [d|]; [destruct (m_last s2) as [d'|]; [destruct (py_gt (PDate d) (PDate d')) as [[]|]|]|]; discriminate.
Qed.
Lemma stray_entry doc : occurs "AuditTrailEntry" doc = true -> occurs "ProcessInstance" doc = false -> exists e, mxml_parse draw doc = Raise e.
Proof.
  intros A N. unfold mxml_parse. pose proof (no_instance doc N ms_init eq_refl) as X.
  destruct (mx_run draw (sax_of doc) ms_init) as [s|e]; [|now exists e]. destruct X as [_ X]. congruence.
Qed.
End Faults.
