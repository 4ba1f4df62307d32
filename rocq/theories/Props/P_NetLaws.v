(** What can be changed in a trace that a mined net replays: C112, /repo/example/AlphaAlgorithm.py. *)
From Coq Require Import String Arith NArith List Bool Lia Permutation.
From Verif Require Import Base.PyBase Model.Alpha Spec.AlphaNet Spec.Replay Spec.NetLaws Proofs.BaseFacts Proofs.AlphaFacts
  Proofs.ReplayFacts Proofs.NetLawsFacts Props.P_Alpha Props.P_Replay.
Import ListNotations.

(** ** C112 *)

(** Neighbours may change places unless the first causes the second, so concurrent and unrelated
    neighbours may do so in both directions. *)
Theorem C112_swap (SO : SetOrder) log al order u x y v : alpha_of log = Ok al -> Permutation order (al_places al) ->
  ~ causes log x y ->
  replays (al_starting al) (al_ending al) order (al_all al) (u ++ x :: y :: v) ->
  replays (al_starting al) (al_ending al) order (al_all al) (u ++ y :: x :: v).
Proof. intros H P. exact (swap_rep log al order H P u x y v). Qed.
Print Assumptions C112_swap.

Theorem C112_rearranged (SO : SetOrder) log al order s t : alpha_of log = Ok al -> Permutation order (al_places al) ->
  rearranged log s t ->
  replays (al_starting al) (al_ending al) order (al_all al) s ->
  replays (al_starting al) (al_ending al) order (al_all al) t.
Proof. intros H P. exact (rearranged_rep log al order H P s t). Qed.
Print Assumptions C112_rearranged.

(** What has a cause comes after one, and what has an effect comes before one, unless one of the two
    follows itself. *)
Theorem C112_causes (SO : SetOrder) log al order x y : alpha_of log = Ok al -> Permutation order (al_places al) ->
  causes log x y -> ~ follows log x x -> ~ follows log y y ->
  (forall u v, replays (al_starting al) (al_ending al) order (al_all al) (u ++ y :: v) ->
   exists z, In z u /\ causes log z y) /\
  (forall u v, replays (al_starting al) (al_ending al) order (al_all al) (u ++ x :: v) ->
   exists z, In z v /\ causes log x z).
Proof.
  intros H P C X Y. split; intros u v R.
  - exact (cause_before log al order H P x y u v C X Y R).
  - exact (effect_after log al order H P x y u v C X Y R).
Qed.
Print Assumptions C112_causes.

(** An activity that somewhere in the log follows itself, and is neither first nor last, is not bound
    by the net: it may be added and left out anywhere. *)
Theorem C112_loop (SO : SetOrder) log al order u x v : alpha_of log = Ok al -> Permutation order (al_places al) ->
  follows log x x -> ~ starts log x -> ~ ends log x ->
  (replays (al_starting al) (al_ending al) order (al_all al) (u ++ x :: v) <->
   replays (al_starting al) (al_ending al) order (al_all al) (u ++ v)).
Proof.
  intros H P F. apply (loop_rep log al order H P u x v); [|exact F].
  destruct F as (p & q & I). eexists. split; [exact I|]. apply in_or_app. right. now left.
Qed.
Print Assumptions C112_loop.

(** Activities treated alike by the log can be exchanged. *)
Theorem C112_exchange (SO : SetOrder) log al order u x y v : alpha_of log = Ok al -> Permutation order (al_places al) ->
  treated_alike log x y ->
  (replays (al_starting al) (al_ending al) order (al_all al) (u ++ x :: v) <->
   replays (al_starting al) (al_ending al) order (al_all al) (u ++ y :: v)).
Proof. intros H P. exact (exchange_rep log al order H P u x y v). Qed.
Print Assumptions C112_exchange.

(** Only the relations count: how often something happened, in which trace, or after what else, is
    not in the net. *)
Theorem C112_relations (SO SO' : SetOrder) u v a b o o' t : @alpha_of SO u = Ok a -> @alpha_of SO' v = Ok b ->
  Permutation o (al_places a) -> Permutation o' (al_places b) -> same_relations u v ->
  (replays (al_starting a) (al_ending a) o (al_all a) t <-> replays (al_starting b) (al_ending b) o' (al_all b) t).
Proof. exact (relations_rep SO SO' u v a b o o' t). Qed.
Print Assumptions C112_relations.

(** A replayed trace need not begin with a start activity: next to a repetition the net has no
    places, and the last activity may come first. *)
Definition repeating : list (list pystr) := map acts [["a"; "b"; "b"; "c"]]%string.

Theorem C112_first_refuted : exists log x y, (forall z, starts log z <-> z = y) /\ x <> y /\
  forall (SO : SetOrder) al order, alpha_of log = Ok al -> Permutation order (al_places al) ->
  replays (al_starting al) (al_ending al) order (al_all al) [x; y].
Proof.
  assert (F : forall x y, follows repeating x y <-> In (x, y) (flat_map neighbours repeating)) by (intros; apply follows_list).
  cbn in F.
  assert (St : forall z, starts repeating z <-> z = py "a").
  { intros z. split; [intros (t & [H|[]]); injection H; auto|]. intros ->. eexists. left. reflexivity. }
  assert (En : forall z, ends repeating z <-> z = py "c").
  { intros z. split.
    - intros (t & [H|[]]). change (acts ["a"; "b"; "b"; "c"]%string) with (acts ["a"; "b"; "b"]%string ++ [py "c"]) in H.
      now apply app_inj_tail in H.
    - intros ->. exists (acts ["a"; "b"; "b"]%string). left. reflexivity. }
  exists repeating, (py "c"), (py "a"). split; [exact St|]. split; [discriminate|].
  intros SO al order H P. apply (C106_balance SO _ _ _ _ H P).
  split; [|split; [|split]].
  - intros e [<-|[<-|[]]]; (eexists; split; [left; reflexivity|cbn; auto]).
  - exists [py "c"], (py "a"), []. split; [reflexivity|]. split; [now apply St|]. intros x [<-|[]]. rewrite St. discriminate.
  - exists [], (py "c"), [py "a"]. split; [reflexivity|]. split; [now apply En|]. intros x [<-|[]]. rewrite En. discriminate.
  - intros A B [(NA & NB & _ & _ & UA & UB & C) _]. exfalso.
    destruct A as [|x A]; [now apply NA|]. destruct B as [|y B]; [now apply NB|].
    destruct (C x y) as [G _]; [now left|now left|]. apply F in G.
    assert (Fb : follows repeating (py "b") (py "b")) by (apply F; auto).
    destruct G as [G|[G|[G|[]]]]; injection G as <- <-.
    + apply (UB (py "b") (py "b")); [now left|now left|exact Fb].
    + apply (UB (py "b") (py "b")); [now left|now left|exact Fb].
    + apply (UA (py "b") (py "b")); [now left|now left|exact Fb].
Qed.
Print Assumptions C112_first_refuted.

(** ** Cases *)

#[local] Instance insertion_order : SetOrder :=
  {| iter := fun A l => l; iter_perm := fun A l => Permutation_refl l |}.

(** Two concurrent activities between the first and the last one, and two others that are alike. *)
Definition concurrent_log : list (list pystr) :=
  map acts [["a"; "b"; "c"; "d"]; ["a"; "c"; "b"; "d"]; ["a"; "b"; "c"; "e"]; ["a"; "c"; "b"; "e"]]%string.

Example C112_ex : exists al, alpha_of concurrent_log = Ok al
  /\ ~ causes concurrent_log (py "b") (py "c") /\ treated_alike concurrent_log (py "d") (py "e")
  /\ replays (al_starting al) (al_ending al) (al_places al) (al_all al) (acts ["a"; "b"; "c"; "d"]%string).
Proof.
  eexists. split; [vm_compute; reflexivity|]. split; [|split].
  - intros [_ H]. apply H. exists [py "a"], [py "d"]. cbn. auto.
  - assert (F : forall x y, follows concurrent_log x y <-> In (x, y) (flat_map neighbours concurrent_log)) by (intros; apply follows_list).
    cbn in F. split; [|split; [|split; [|split]]].
    + eexists. split; [left; reflexivity|cbn; auto].
    + eexists. split; [right; right; left; reflexivity|cbn; auto 6].
    + split; intros (t & H); cbn in H; destruct H as [H|[H|[H|[H|[]]]]]; discriminate H.
    + split; intros _; [exists (acts ["a"; "b"; "c"]%string)|exists (acts ["a"; "b"; "c"]%string)]; cbn; auto.
    + intros z. rewrite !F. split; split; intros H;
        repeat (destruct H as [H|H]; [try discriminate H; injection H as <-; auto 20|]); now destruct H.
  - apply play_replays. vm_compute. reflexivity.
Qed.

Example C112_ex_loop : exists al, alpha_of repeating = Ok al
  /\ follows repeating (py "b") (py "b") /\ ~ starts repeating (py "b") /\ ~ ends repeating (py "b")
  /\ replays (al_starting al) (al_ending al) (al_places al) (al_all al) (acts ["a"; "b"; "b"; "c"]%string).
Proof.
  eexists. split; [vm_compute; reflexivity|]. split; [exists [py "a"], [py "c"]; now left|]. split; [|split].
  - intros (t & [H|[]]). discriminate H.
  - intros (t & [H|[]]). change (acts ["a"; "b"; "b"; "c"]%string) with (acts ["a"; "b"; "b"]%string ++ [py "c"]) in H.
    apply app_inj_tail in H. destruct H as [_ H]. discriminate H.
  - apply play_replays. vm_compute. reflexivity.
Qed.

Example C112_ex_relations : same_relations repeating (repeating ++ repeating).
Proof.
  intros x. assert (I : forall t, In t (repeating ++ repeating) <-> In t repeating) by (intros t; rewrite in_app_iff; tauto).
  unfold occurs, starts, ends, follows.
  repeat split; intros (t & H); try (exists t; now rewrite ?I in * );
    try (destruct H as [H K]; exists t; split; [now apply I|exact K]); destruct H as (q & H); exists t, q; now apply I.
Qed.
