(** Theorems on replaying traces on the nets of the alpha algorithm: C106. *)
From Coq Require Import String Arith NArith List Bool Lia Permutation.
From Verif Require Import Base.PyBase Model.Alpha Spec.AlphaNet Spec.Replay Proofs.BaseFacts Proofs.AlphaFacts Proofs.ReplayFacts
  Props.P_Alpha.
Import ListNotations.

(** ** C106 *)

(** Which traces the net of a log can replay, from one token in its first place to one token
    in its last place: those of activities of the log with exactly one start activity, exactly
    one end activity, and with a balance for every maximal pair of sets. *)
Theorem C106_balance (SO : SetOrder) log al order t : alpha_of log = Ok al -> Permutation order (al_places al) ->
  (replays (al_starting al) (al_ending al) order (al_all al) t <->
   (forall e, In e t -> occurs log e) /\ once (starts log) t /\ once (ends log) t /\
   (forall A B, maximal log A B -> balanced A B t)).
Proof. intros H P. exact (replays_iff log al H order P t). Qed.
Print Assumptions C106_balance.

(** For logs without concurrency and without skipping the net can replay exactly the walks
    along direct successions from a start to an end, so all traces of the log. *)
Theorem C106_sequential (SO : SetOrder) log al order : alpha_of log = Ok al -> Permutation order (al_places al) ->
  sequential log ->
  (forall t, replays (al_starting al) (al_ending al) order (al_all al) t <-> path log t) /\
  (forall t, In t log -> replays (al_starting al) (al_ending al) order (al_all al) t).
Proof.
  intros H P S. split; intros t.
  - exact (replays_path log al H order P S t).
  - intros I. apply (replays_path log al H order P S t). exact (traces_are_paths log al H t I).
Qed.
Print Assumptions C106_sequential.

(** The net of a log need not replay the traces of the log: an activity that was skipped once
    cannot be skipped in the net. *)
Definition skipping : list (list pystr) := map acts [["a"; "b"]; ["a"; "c"; "b"]]%string.

Lemma follows_list log a b : follows log a b <-> In (a, b) (flat_map neighbours log).
Proof.
  rewrite in_flat_map. split.
  - intros (u & v & H). exists (u ++ a :: b :: v). split; [exact H |]. apply neighbours_In. now exists u, v.
  - intros (t & H & I). apply neighbours_In in I. destruct I as (u & v & ->). now exists u, v.
Qed.

Theorem C106_fit_refuted : exists log t, In t log /\ forall (SO : SetOrder) al order,
  alpha_of log = Ok al -> Permutation order (al_places al) ->
  ~ replays (al_starting al) (al_ending al) order (al_all al) t.
Proof.
  exists skipping, (acts ["a"; "b"]%string). split; [now left |]. intros SO al order H P R.
  apply (C106_balance SO _ _ _ _ H P) in R. destruct R as (_ & _ & _ & R).
  assert (F : forall x y, follows skipping x y <-> In (x, y) (flat_map neighbours skipping)) by (intros; apply follows_list).
  cbn in F.
  specialize (R [py "c"] [py "b"]). destruct R as [_ R].
  - split.
    + repeat split; try discriminate.
      * intros x [<- | []]. eexists. split; [right; left; reflexivity | cbn; auto].
      * intros x [<- | []]. eexists. split; [right; left; reflexivity | cbn; auto].
      * intros x y [<- | []] [<- | []]. rewrite F. cbn. intuition discriminate.
      * intros x y [<- | []] [<- | []]. rewrite F. cbn. intuition discriminate.
      * destruct H0 as [<- | []], H1 as [<- | []]. apply F. cbn. auto.
      * destruct H0 as [<- | []], H1 as [<- | []]. rewrite F. cbn. intuition discriminate.
    + intros C D (_ & _ & _ & _ & UC & _ & HC) IC ID. split; intros x Hx.
      * destruct (HC x (py "b") Hx) as [G _]; [apply ID; now left |]. apply F in G. cbn in G.
        destruct G as [G | [G | [G | []]]].
        -- injection G as <-. exfalso. apply (UC (py "a") (py "c") Hx); [apply IC; now left |]. apply F. cbn. auto.
        -- discriminate.
        -- injection G as <-. now left.
      * destruct (HC (py "c") x) as [G _]; [apply IC; now left | exact Hx |]. apply F in G. cbn in G.
        destruct G as [G | [G | [G | []]]]; [discriminate | discriminate |]. injection G as <-. now left.
  - discriminate.
Qed.
Print Assumptions C106_fit_refuted.

(** Nor are all traces the net can replay in the log, even for sequential logs. *)
Definition two_cases : list (list pystr) := map acts [["a"; "c"; "d"]; ["b"; "c"; "e"]]%string.

Lemma two_cases_follows x y : follows two_cases x y <->
  (x, y) = (py "a", py "c") \/ (x, y) = (py "c", py "d") \/ (x, y) = (py "b", py "c") \/ (x, y) = (py "c", py "e").
Proof. rewrite follows_list. cbn. intuition congruence. Qed.
Lemma two_cases_starts x : starts two_cases x <-> x = py "a" \/ x = py "b".
Proof.
  split.
  - intros (t & [H | [H | []]]); injection H as <- _; auto.
  - intros [-> | ->]; eexists; [left | right; left]; reflexivity.
Qed.
Lemma two_cases_ends x : ends two_cases x <-> x = py "d" \/ x = py "e".
Proof.
  split.
  - intros (t & [H | [H | []]]); destruct t as [| ? [| ? [| ? [| ? ?]]]]; try discriminate; injection H as _ _ <-; auto.
  - intros [-> | ->]; [exists (acts ["a"; "c"]%string); left | exists (acts ["b"; "c"]%string); right; left]; reflexivity.
Qed.

Lemma two_cases_sequential : sequential two_cases.
Proof.
  repeat split; intros *; rewrite ?two_cases_follows, ?two_cases_starts, ?two_cases_ends; cbn; intuition congruence.
Qed.

Theorem C106_precise_refuted : exists log t, sequential log /\ ~ In t log /\ forall (SO : SetOrder) al order,
  alpha_of log = Ok al -> Permutation order (al_places al) ->
  replays (al_starting al) (al_ending al) order (al_all al) t.
Proof.
  exists two_cases, (acts ["a"; "c"; "e"]%string). split; [exact two_cases_sequential |]. split.
  - intros [H | [H | []]]; discriminate.
  - intros SO al order H P. apply (proj1 (C106_sequential SO _ _ _ H P two_cases_sequential)). repeat split.
    + eexists _, _. split; [reflexivity |]. apply two_cases_starts. auto.
    + exists (acts ["a"; "c"]%string), (py "e"). split; [reflexivity |]. apply two_cases_ends. auto.
    + intros u a b v E. apply two_cases_follows.
      destruct u as [| ? [| ? [| ? [| ? ?]]]]; try discriminate; injection E; intros; subst; auto.
Qed.
Print Assumptions C106_precise_refuted.

(** The net of a log with concurrency; the sets are iterated in order of insertion. *)
#[local] Instance insertion_order : SetOrder :=
  {| iter := fun A l => l; iter_perm := fun A l => Permutation_refl l |}.

Example C106_ex : exists al, alpha_of log1 = Ok al /\ List.length (al_places al) = 4 /\
  Forall (replays (al_starting al) (al_ending al) (al_places al) (al_all al)) log1.
Proof.
  eexists. split; [vm_compute; reflexivity |]. split; [reflexivity |].
  apply Forall_forall. intros t [<- | [<- | [<- | []]]]; apply play_replays; vm_compute; reflexivity.
Qed.

Example C106_ex_sequential : sequential two_cases /\ path two_cases (acts ["b"; "c"; "d"]%string).
Proof.
  split; [exact two_cases_sequential |]. repeat split.
  - eexists _, _. split; [reflexivity |]. apply two_cases_starts. auto.
  - exists (acts ["b"; "c"]%string), (py "d"). split; [reflexivity |]. apply two_cases_ends. auto.
  - intros u a b v E. apply two_cases_follows.
    destruct u as [| ? [| ? [| ? [| ? ?]]]]; try discriminate; injection E; intros; subst; auto.
Qed.
