(** C101: identifiers are objects that several events and attributes can share. *)
From Coq Require Import NArith ZArith List Bool.
From Verif Require Import Base.PyBase Base.PyVal Model.XidObjects Spec.XidObjects Proofs.XidObjectFacts.
Import ListNotations.

(** An identifier shows the uuid last set on it, and an event or attribute holds the
    identifier last set on it, whatever else the program does. *)
Theorem C101_last : forall draw h s s', id_run draw h s = Ok s' ->
  (forall r u, uuid_at s r = Some u -> uuid_at s' r = Some (last_given (gives_uuid r) h u))
  /\ (forall e r, event_xid s e = Some r -> event_xid s' e = Some (last_given (gives_event_id e) h r))
  /\ (forall a r, attr_xid s a = Some r -> attr_xid s' a = Some (last_given (gives_attr_id a) h r)).
Proof.
  intros draw h s s' E. split; [|split].
  - intros r u. exact (run_uuid draw h s s' r u E).
  - intros e r. exact (run_event draw h s s' e r E).
  - intros a r. exact (run_attr draw h s s' a r E).
Qed.
Print Assumptions C101_last.
Definition counting (n : nat) : N := (100 + N.of_nat n)%N.
Example C101_last_ex :
  id_run counting [NewEvent None; NewEvent (Some 0); CloneEvent 0; SetUuid 0 7%N; SetEventId 1 2] ids_init
  = Ok (mk_ids [7; 101; 102]%N [0; 2; 2] [] 3)
  /\ last_given (gives_event_id 1) [CloneEvent 0; SetUuid 0 7%N; SetEventId 1 2] 0 = 2.
Proof. repeat split. Qed.

(** In every program each event and each attribute has a uuid. *)
Theorem C101_always : forall draw h s, program draw h s ->
  (forall e, e < List.length (i_event s) -> exists u, event_uuid s e = Some u)
  /\ (forall a, a < List.length (i_attr s) -> exists u, attr_uuid s a = Some u).
Proof. exact program_holds. Qed.
Print Assumptions C101_always.

Lemma counting_program : program counting [NewEvent None; NewEvent (Some 0); NewIdAttr 0; CloneIdAttr 0]
  (mk_ids [100; 100]%N [0; 0] [0; 1] 1).
Proof.
  refine (program_more _ [NewEvent None; NewEvent (Some 0); NewIdAttr 0] (mk_ids [100]%N [0; 0] [0] 1) _ _ _ _ _); [|cbn; auto|reflexivity].
  refine (program_more _ [NewEvent None; NewEvent (Some 0)] (mk_ids [100]%N [0; 0] [] 1) _ _ _ _ _); [|cbn; auto|reflexivity].
  refine (program_more _ [NewEvent None] (mk_ids [100]%N [0] [] 1) _ _ _ _ _); [|cbn; auto|reflexivity].
  refine (program_more _ [] ids_init _ _ (program_none _) _ _); [cbn; auto|reflexivity].
Qed.
Example C101_always_ex : event_uuid (mk_ids [100; 100]%N [0; 0] [0; 1] 1) 1 = Some 100%N
  /\ exists u, attr_uuid (mk_ids [100; 100]%N [0; 0] [0; 1] 1) 1 = Some u.
Proof. split; [reflexivity|]. apply (C101_always _ _ _ counting_program). cbn. auto. Qed.

(** A new event without an identifier, and the clone of an event, draw a uuid of their own in
    an identifier that nothing else holds; the clone of an attribute copies the uuid into such
    an identifier. *)
Theorem C101_fresh : forall draw h s, program draw h s ->
  (forall s', id_step draw s (NewEvent None) = Ok s' ->
     exists r, event_xid s' (List.length (i_event s)) = Some r /\ uuid_at s' r = Some (draw (i_drawn s))
               /\ held_only s' r (Some (List.length (i_event s))) None)
  /\ (forall e s', id_step draw s (CloneEvent e) = Ok s' ->
     exists r, event_xid s' (List.length (i_event s)) = Some r /\ uuid_at s' r = Some (draw (S (i_drawn s)))
               /\ held_only s' r (Some (List.length (i_event s))) None)
  /\ (forall a s', a < List.length (i_attr s) -> id_step draw s (CloneIdAttr a) = Ok s' ->
     exists r, attr_xid s' (List.length (i_attr s)) = Some r /\ uuid_at s' r = attr_uuid s a
               /\ held_only s' r None (Some (List.length (i_attr s)))).
Proof.
  intros draw h s P. split; [|split].
  - intros s' [= <-]. exact (new_event_own draw h s P).
  - intros e s' [= <-]. exact (clone_event_own draw h s P).
  - intros a s' A [= <-]. exact (clone_attr_own draw h s a P A).
Qed.
Print Assumptions C101_fresh.
Example C101_fresh_ex : exists s', id_step counting (mk_ids [100; 100]%N [0; 0] [0; 1] 1) (CloneEvent 1) = Ok s'
  /\ event_uuid s' 2 = Some 102%N /\ held_only s' 3 (Some 2) None.
Proof.
  eexists. split; [reflexivity|]. split; [reflexivity|].
  destruct (C101_fresh _ _ _ counting_program) as (_ & H & _). destruct (H 1 _ eq_refl) as (r & E & _ & O).
  assert (X : Some r = Some 3) by (rewrite <- E; reflexivity). injection X as ->. exact O.
Qed.

(** Events made with the same identifier are equal and hash alike, whatever uuid is set on it. *)
Theorem C101_shared : forall draw hash h s e f r, program draw h s ->
  event_xid s e = Some r -> event_xid s f = Some r ->
  event_eq s e f = true /\ event_hash hash s e = event_hash hash s f.
Proof. intros draw hash h s e f r. exact (shared_equal draw h s e f r hash). Qed.
Print Assumptions C101_shared.
Example C101_shared_ex : event_eq (mk_ids [100; 100]%N [0; 0] [0; 1] 1) 0 1 = true.
Proof. exact (proj1 (C101_shared _ (fun _ => 0%Z) _ _ 0 1 0 counting_program eq_refl eq_refl)). Qed.

(** In general events are equal if and only if their identifiers show the same uuid, be they
    one object or two; then they hash alike. *)
Theorem C101_equal : forall s e f,
  (event_eq s e f = true <-> exists u, event_uuid s e = Some u /\ event_uuid s f = Some u)
  /\ (event_eq s e f = true -> forall hash, event_hash hash s e = event_hash hash s f).
Proof. intros s e f. exact (conj (equal_uuids s e f) (fun H hash => equal_hash hash s e f H)). Qed.
Print Assumptions C101_equal.
Example C101_equal_ex : exists s, id_run counting [NewEvent None; CloneXid 0; NewEvent (Some 1)] ids_init = Ok s
  /\ event_eq s 0 1 = true /\ event_xid s 0 <> event_xid s 1.
Proof. eexists. split; [reflexivity|]. split; [reflexivity|discriminate]. Qed.

(** When identifiers are only drawn, and draws differ, events are equal only if they hold the
    same identifier: clones differ from their originals and from each other. *)
Theorem C101_drawn : forall draw h s e f, (forall i j, draw i = draw j -> i = j) ->
  program draw h s -> forallb draws_only h = true ->
  e < List.length (i_event s) -> f < List.length (i_event s) ->
  event_eq s e f = true <-> event_xid s e = event_xid s f.
Proof. exact drawn_equal. Qed.
Print Assumptions C101_drawn.
Lemma cloning_program : program counting [NewEvent None; CloneEvent 0; NewEvent (Some 0)]
  (mk_ids [100; 101; 102]%N [0; 2; 0] [] 3).
Proof.
  refine (program_more _ [NewEvent None; CloneEvent 0] (mk_ids [100; 101; 102]%N [0; 2] [] 3) _ _ _ _ _); [|cbn; auto|reflexivity].
  refine (program_more _ [NewEvent None] (mk_ids [100]%N [0] [] 1) _ _ _ _ _); [|cbn; auto|reflexivity].
  refine (program_more _ [] ids_init _ _ (program_none _) _ _); [cbn; auto|reflexivity].
Qed.
Example C101_drawn_ex : let s := mk_ids [100; 101; 102]%N [0; 2; 0] [] 3 in
  event_eq s 0 1 = false /\ event_eq s 0 2 = true
  /\ (event_eq s 0 1 = true <-> event_xid s 0 = event_xid s 1).
Proof.
  split; [reflexivity|]. split; [reflexivity|]. apply (C101_drawn counting [NewEvent None; CloneEvent 0; NewEvent (Some 0)]).
  - intros i j H. unfold counting in H. apply N.add_cancel_l in H. exact (Nnat.Nat2N.inj _ _ H).
  - exact cloning_program.
  - reflexivity.
  - cbn. auto.
  - cbn. auto.
Qed.

(** But the hash of an event is not fixed by the calls made on the event: setting the uuid of
    an identifier held also by an attribute changes it. *)
Theorem C101_hash_refuted : exists draw h s s' r u, program draw h s
  /\ attr_xid s 0 = Some r /\ id_step draw s (SetUuid r u) = Ok s'
  /\ event_hash Z.of_N s 0 <> event_hash Z.of_N s' 0.
Proof.
  exists counting, [NewEvent None; NewEvent (Some 0); NewIdAttr 0; CloneIdAttr 0], (mk_ids [100; 100]%N [0; 0] [0; 1] 1).
  eexists. exists 0, 7%N. split; [exact counting_program|]. split; [reflexivity|]. split; [reflexivity|]. discriminate.
Qed.
Print Assumptions C101_hash_refuted.
