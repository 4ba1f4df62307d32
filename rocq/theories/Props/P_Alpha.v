(** Theorems on the alpha algorithm of the examples: C61-C64. *)
From Coq Require Import String NArith ZArith List Bool Permutation.
From Verif Require Import Base.PyBase Model.Alpha Spec.AlphaNet Proofs.AlphaFacts.
Import ListNotations.

(** The log used in the examples below; the sets are iterated in order of insertion. *)
#[local] Instance insertion_order : SetOrder :=
  {| iter := fun A l => l; iter_perm := fun A l => Permutation_refl l |}.

Definition acts (l : list string) : list pystr := map py l.
Definition log1 : list (list pystr) :=
  map acts [["a"; "b"; "c"; "d"]; ["a"; "c"; "b"; "d"]; ["a"; "e"; "d"]]%string.

(** ** C61 *)

(** The algorithm raises IndexError exactly if the log has an empty trace.  Otherwise the
    events are those of the log, and the four relations are as defined. *)
Theorem C61_events (SO : SetOrder) log :
  (In [] log -> alpha_of log = Raise IndexError) /\
  (~ In [] log -> exists al, alpha_of log = Ok al /\
     (forall x, In x (al_starting al) <-> starts log x) /\
     (forall x, In x (al_ending al) <-> ends log x) /\
     (forall x, In x (al_all al) <-> occurs log x) /\ NoDup (al_all al)).
Proof.
  split; intros H.
  - unfold alpha_of. now rewrite (proj1 (extract_raise log) H).
  - destruct (proj2 (extract_raise log) H) as [[[s e] a] E]. unfold alpha_of. rewrite E.
    eexists. split; [reflexivity |]. apply extract_ok in E. cbn. tauto.
Qed.
Print Assumptions C61_events.

Theorem C61_relations (SO : SetOrder) log al : alpha_of log = Ok al ->
  forall a b,
  (In (a, b) (f_direct (al_footprint al)) <-> follows log a b) /\
  (In (a, b) (f_causal (al_footprint al)) <-> follows log a b /\ ~ follows log b a) /\
  (In (a, b) (f_choice (al_footprint al)) <->
     occurs log a /\ occurs log b /\ ~ follows log a b /\ ~ follows log b a) /\
  (In (a, b) (f_parallel (al_footprint al)) <-> follows log a b /\ follows log b a).
Proof.
  intros H a b. unfold alpha_of in H. destruct (extract_events log) as [[[s e] all] |] eqn:E;
    [| discriminate]. injection H as <-. apply extract_ok in E.
  destruct E as (_ & _ & O & _ & _). cbn.
  rewrite direct_In, causal_In, choice_In, parallel_In, !O.
  pose proof (follows_occurs log a b). unfold causes, unrelated, concurrent. tauto.
Qed.
Print Assumptions C61_relations.

(** So of two activities exactly one holds: one causes the other, or the other way
    round, or they are concurrent, or a choice. *)
Theorem C61_partition (SO : SetOrder) log al : alpha_of log = Ok al ->
  forall a b, occurs log a -> occurs log b ->
  let r := [In (a, b) (f_causal (al_footprint al)); In (b, a) (f_causal (al_footprint al));
            In (a, b) (f_choice (al_footprint al)); In (a, b) (f_parallel (al_footprint al))] in
  exists i, i < 4 /\ nth i r False /\ forall j, j <> i -> ~ nth j r False.
Proof.
  intros H a b Oa Ob r. unfold r. clear r.
  destruct (C61_relations SO log al H a b) as (D & C & X & P).
  destruct (C61_relations SO log al H b a) as (D' & C' & _ & _).
  assert (Dec : forall x y, follows log x y \/ ~ follows log x y).
  { intros x y. destruct (mem pair_eqb (x, y) (fp_direct log)) eqn:M.
    - left. now apply direct_In, (mem_In _ pair_eqb_eq).
    - right. rewrite <- direct_In. now apply (mem_not _ pair_eqb_eq). }
  destruct (Dec a b) as [F | F], (Dec b a) as [G | G].
  - exists 3. repeat split; [auto | cbn; tauto |].
    intros [| [| [| [| [|]]]]] N; cbn; tauto.
  - exists 0. repeat split; [auto with arith | cbn; tauto |].
    intros [| [| [| [| [|]]]]] N; cbn; tauto.
  - exists 1. repeat split; [auto with arith | cbn; tauto |].
    intros [| [| [| [| [|]]]]] N; cbn; tauto.
  - exists 2. repeat split; [auto with arith | cbn; tauto |].
    intros [| [| [| [| [|]]]]] N; cbn; tauto.
Qed.
Print Assumptions C61_partition.

Example C61_ex : exists al, alpha_of log1 = Ok al /\
  f_parallel (al_footprint al) = [(py "b", py "c"); (py "c", py "b")] /\
  f_causal (al_footprint al) =
    [(py "a", py "b"); (py "c", py "d"); (py "a", py "c"); (py "b", py "d");
     (py "a", py "e"); (py "e", py "d")] /\
  al_starting al = [py "a"] /\ al_ending al = [py "d"].
Proof. eexists. split; [vm_compute; reflexivity |]. vm_compute. auto. Qed.

(** ** C62 *)

(** The pairs are exactly the pairs of sets of the definition, each listed once: leaving
    out the set of all activities loses nothing. *)
Theorem C62_pairs (SO : SetOrder) log al : alpha_of log = Ok al ->
  (forall A B, In (A, B) (al_pairs al) -> pair_of_sets log A B /\ NoDup A /\ NoDup B) /\
  (forall A B, pair_of_sets log A B ->
     exists C D, In (C, D) (al_pairs al) /\ same_set A C /\ same_set B D) /\
  (forall A B C D, In (A, B) (al_pairs al) -> In (C, D) (al_pairs al) ->
     same_set A C -> same_set B D -> A = C /\ B = D) /\
  NoDup (al_pairs al).
Proof.
  intros H. unfold alpha_of in H. destruct (extract_events log) as [[[s e] all] |] eqn:E;
    [| discriminate]. injection H as <-. apply extract_ok in E.
  destruct E as (_ & _ & O & N & _). cbn [al_pairs].
  split; [| split; [| split]].
  - intros A B K. apply (pairs_In log all O) in K. destruct K as (KA & KB & P).
    split; [exact P |]. split; [exact (sub_set_nodup all N A KA) | exact (sub_set_nodup all N B KB)].
  - intros A B P. exact (pairs_complete log all O N A B P).
  - intros A B C D K L E1 E2. apply (pairs_In log all O) in K, L.
    destruct K as (KA & KB & _), L as (LC & LD & _).
    split; [exact (sub_set_eq all N A C KA LC E1) | exact (sub_set_eq all N B D KB LD E2)].
  - apply (set_of_NoDup _ tuples_eqb_eq).
Qed.
Print Assumptions C62_pairs.

Example C62_ex : exists al, alpha_of log1 = Ok al /\
  List.length (al_pairs al) = 10 /\
  In (acts ["b"; "e"], acts ["d"])%string (al_pairs al).
Proof.
  eexists. split; [vm_compute; reflexivity |]. split; [vm_compute; reflexivity |].
  vm_compute. tauto.
Qed.

(** ** C63 *)

(** The places are the maximal pairs, and every pair is below a place.  Every causal
    relation between activities that do not follow themselves is expressed by a place;
    an activity that follows itself is in none. *)
Theorem C63_places (SO : SetOrder) log al : alpha_of log = Ok al ->
  (forall p, In p (al_places al) <->
     In p (al_pairs al) /\ forall q, In q (al_pairs al) -> below p q -> q = p) /\
  (forall p, In p (al_pairs al) -> exists q, In q (al_places al) /\ below p q) /\
  (forall a b, causes log a b -> ~ follows log a a -> ~ follows log b b ->
     exists p, In p (al_places al) /\ In a (fst p) /\ In b (snd p)) /\
  (forall a p, follows log a a -> In p (al_places al) -> ~ In a (fst p) /\ ~ In a (snd p)) /\
  NoDup (al_places al).
Proof.
  intros H. unfold alpha_of in H. destruct (extract_events log) as [[[s e] all] |] eqn:E;
    [| discriminate]. injection H as <-. apply extract_ok in E.
  destruct E as (_ & _ & O & N & _). cbn [al_pairs al_places].
  split; [| split; [| split; [| split]]].
  - intros p. rewrite places_In. split; intros [K L]; (split; [exact K |]).
    + intros q Q B. destruct (tuples_eqb q p) eqn:T; [now apply tuples_eqb_eq |].
      exfalso. apply (L q Q); [| exact B]. intros ->.
      rewrite (proj2 (tuples_eqb_eq p p) eq_refl) in T. discriminate.
    + intros q Q M B. now apply M, L.
  - intros p K. exact (place_above log all O N p K).
  - intros a b C A B. exact (covered log all O N a b C A B).
  - intros a [A B] F K. apply places_In in K. destruct K as [K _].
    apply (pairs_In log all O) in K. destruct K as (_ & _ & P).
    destruct P as (_ & _ & _ & _ & U1 & U2 & _). cbn.
    split; intros M; [exact (U1 a a M M F) | exact (U2 a a M M F)].
  - apply places_NoDup. apply (set_of_NoDup _ tuples_eqb_eq).
Qed.
Print Assumptions C63_places.

Example C63_ex : exists al, alpha_of log1 = Ok al /\
  al_places al =
    [(acts ["a"], acts ["b"; "e"]); (acts ["a"], acts ["c"; "e"]);
     (acts ["b"; "e"], acts ["d"]); (acts ["c"; "e"], acts ["d"])]%string.
Proof. eexists. split; [vm_compute; reflexivity |]. vm_compute. reflexivity. Qed.

(** ** C64 *)

(** The text of the net: all places and one transition per activity, each with the places
    it consumes from and produces to.  Testing the two sides with if/elif loses no arc. *)
Theorem C64_text (SO : SetOrder) log al : alpha_of log = Ok al ->
  exists order events,
    Permutation order (al_places al) /\ Permutation events (al_all al) /\
    al_text al = net_text (al_starting al) (al_ending al) order events.
Proof.
  intros H. unfold alpha_of in H. destruct (extract_events log) as [[[s e] all] |] eqn:E;
    [| discriminate]. injection H as <-. apply extract_ok in E.
  destruct E as (_ & _ & O & N & _). cbn [al_places al_all al_text al_starting al_ending].
  eexists. eexists. split; [apply iter_perm |]. split; [apply iter_perm |].
  apply text_ok. intros [A B] K x X Y. apply places_In in K. destruct K as [K _].
  apply (pairs_In log all O) in K. destruct K as (_ & _ & P).
  destruct P as (_ & _ & _ & _ & U1 & U2 & C). cbn in X, Y.
  destruct (C x x X Y) as [F _]. exact (U1 x x X X F).
Qed.
Print Assumptions C64_text.

Example C64_ex : exists al, alpha_of (map acts [["a"; "b"]; ["a"; "c"]]%string) = Ok al /\
  al_text al =
    py "Place ""place_0"" init 1;" ++ [10%N] ++ py "Place ""place_1"";" ++ [10%N]
    ++ py "Place ""place_2"";" ++ [10%N]
    ++ py "trans ""t_4""~""a+complete"" in ""place_0"" out ""place_2"" ;" ++ [10%N]
    ++ py "trans ""t_5""~""b+complete"" in ""place_2"" out ""place_1"" ;" ++ [10%N]
    ++ py "trans ""t_6""~""c+complete"" in ""place_2"" out ""place_1"" ;".
Proof. eexists. split; [vm_compute; reflexivity |]. vm_compute. reflexivity. Qed.
