(** What is read through a wrapper after a setter. *)
From Coq Require Import String NArith ZArith List Bool.
From Verif Require Import Base.Unicode Base.PyBase Base.PyDate Base.PyVal Model.Attr Model.StdExt Model.Wrapper
  Spec.Setters Spec.Wrapper
  Proofs.BaseFacts Proofs.LowerFacts Proofs.SetterFacts Proofs.LifecycleFacts Proofs.WrapperFacts.
Import ListNotations.

Lemma lower_nonblank s : nonblank_text (PStr s) -> nonblank_text (PStr (lower s)).
Proof.
  intros (t & [= <-] & c & I1 & S0). exists (lower s). split; [reflexivity|].
  exact (lower_nonspace s c I1 S0).
Qed.

Lemma slot_reads sl v d : ~ odd_slot sl -> admissible sl v ->
  exists d', slot_assign sl v d = Ok d' /\ slot_extract sl d' = Ok (kept sl v).
Proof. intros O A. destruct (assign_extract sl v d O A) as (d' & E & X & _). eauto. Qed.

Lemma reads_map `{C : Clock} c g v d : reads c g v -> exists d', wrapper_set c d = Ok d' /\ wrapper_get g d' = Ok v.
Proof.
  intros R. assert (O : forall sl, sl = SName \/ sl = SResource \/ sl = SRole \/ sl = SGroup \/ sl = STransition -> ~ odd_slot sl).
  { intros sl H [->|[->| ->]]; repeat destruct H as [H|H]; discriminate. }
  inversion R; subst; cbn [wrapper_set wrapper_get].
  - apply (slot_reads SName); auto.
  - exists (sset (py "concept:name") (written SInstance (PStr s)) d).
    split; [exact (slot_adm SInstance (PStr s) d H)|].
    unfold extract_name. rewrite (fetch_some _ _ _ _ (sget_sset_same _ _ _)). reflexivity.
  - apply (slot_reads SResource); [apply O; tauto|now apply lower_nonblank].
  - apply (slot_reads SRole); [apply O; tauto|now apply lower_nonblank].
  - apply (slot_reads SGroup); [apply O; tauto|now apply lower_nonblank].
  - apply (slot_reads STransition); auto. apply O. tauto.
  - destruct (slot_reads STransition (PStr s) d) as (d' & E & X); auto; [apply O; tauto|].
    exists d'. split; [exact E|]. unfold extract_standard_transition. cbn [slot_extract] in X. rewrite X. cbn [bind kept decode_val].
    do 2 f_equal. unfold decode. unfold strip. now rewrite strip_by_idem.
  - destruct (standard_round s d) as (d' & E & X & _). eauto.
  - destruct (standard_round s d) as (d' & E & _ & X & _). eauto.
  - destruct (timestamp_date d0 d H) as (d' & E & X & _). eauto.
Qed.

Theorem wrapper_reads `{C : Clock} draw ops j d : wrapper_map (w_run draw ops) j = Some d ->
  (forall c g v, reads c g v -> exists d', wrapper_map (w_run draw (ops ++ [OCall j c])) j = Some d' /\ wrapper_get g d' = Ok v)
  /\ (forall refs, refs <> [] -> exists d', wrapper_map (w_run draw (ops ++ [OCall j (WRefs (map PStr refs))])) j = Some d'
        /\ wrapper_references d' = Ok (split (py "\s") (lower (ref_text refs))))
  /\ (d = [] -> forall g, wrapper_get g d = Ok (nothing_set g)).
Proof.
  intros M.
  assert (V : forall c d', wrapper_set c d = Ok d' -> wrapper_map (w_run draw (ops ++ [OCall j c])) j = Some d').
  { intros c d' E. rewrite run_snoc, (setter_visible draw ops j c d d' j M E).
    assert (N := M). destruct (wrappers_refine draw ops) as (A & _ & _). rewrite A in N. unfold s_map in N.
    destruct (nth_error (s_names (s_run ops)) j); [|discriminate]. now rewrite Nat.eqb_refl. }
  split; [|split].
  - intros c g v R. destruct (reads_map c g v d R) as (d' & E & X). eauto.
  - intros refs NE. destruct (refs_round refs d NE) as (d' & E & X & _). exists d'. split; [|exact X]. now apply V.
  - intros -> g. now destruct g.
Qed.
