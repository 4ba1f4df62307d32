(** Properties C08-C11: chronological insertion and time bounds. *)
From Coq Require Import String NArith ZArith List Bool Sorting.Permutation.
From Verif Require Import Base.PyBase Base.PyDate Base.PyVal Model.Attr Model.Trace Model.TimeBounds Spec.Time
  Proofs.TraceFacts.
Import ListNotations.
Local Open Scope Z_scope.

Definition stamp_at (h : Z) : event :=
  mk_event 0 [(py "time:timestamp", mk_attr CTimestamp (py "time:timestamp") None
    (PDate (mk_dt 2020 1 1 h 0 0 0 (Some (mk_tz 0 None)))) [] [])].
Definition no_stamp : event := mk_event 1 [(py "concept:name", mk_attr CLiteral (py "concept:name") None (PStr (py "a")) [] [])].

(** C08.  A returned index is the position of the new event; nothing else changes. *)
Theorem C08_insert_ordered_inserts : forall t e t' i,
  insert_ordered t e = (t', Ok i) -> inserted t t' e i.
Proof. exact insert_ordered_ok. Qed.
Print Assumptions C08_insert_ordered_inserts.

(** C08.  When time stamps are date-times, the only failure is TypeError for comparing an
    aware with a naive one, and the trace is unchanged. *)
Theorem C08_insert_ordered_failure : forall t e t' x, Forall dates_only (e :: t) ->
  insert_ordered t e = (t', Raise x) ->
  t' = t /\ x = TypeError
  /\ exists ev d1 d2, In ev t /\ timed e d1 /\ timed ev d2 /\ is_aware d1 <> is_aware d2.
Proof. exact insert_ordered_raise_dates. Qed.
Print Assumptions C08_insert_ordered_failure.

(** C08.  Whatever the attributes are, a failing call leaves the trace unchanged. *)
Theorem C08_insert_ordered_failure_unchanged : forall t e t' x,
  insert_ordered t e = (t', Raise x) -> t' = t.
Proof. exact (fun t e t' x H => proj1 (insert_ordered_raise t e t' x H)). Qed.
Print Assumptions C08_insert_ordered_failure_unchanged.

Example C08_example :
  let t := [stamp_at 1; no_stamp; stamp_at 5; stamp_at 7] in
  let naive := mk_event 0 [(py "time:timestamp", mk_attr CTimestamp (py "time:timestamp") None
                 (PDate (mk_dt 2020 1 1 3 0 0 0 None)) [] [])] in
  insert_ordered t (stamp_at 6) = ([stamp_at 1; no_stamp; stamp_at 5; stamp_at 6; stamp_at 7], Ok 3%nat)
  /\ insert_ordered t naive = (t, Raise TypeError)
  /\ Forall dates_only (naive :: t).
Proof.
  cbv zeta. split; [reflexivity|]. split; [reflexivity|].
  repeat constructor; cbn in H; inversion H; subst; cbn; eauto.
Qed.

(** C09.  A chronological trace stays chronological; the new event goes behind all
    events of the same time and before all later ones. *)
Theorem C09_insert_ordered_keeps_order : forall aw t e d,
  all_timed aw t -> chronological t -> timed e d -> is_aware d = aw ->
  exists l1 l2, t = l1 ++ l2 /\ insert_ordered t e = (l1 ++ e :: l2, Ok (length l1))
  /\ Forall (fun ev => time_of ev <= time_of e) l1 /\ Forall (fun ev => time_of e < time_of ev) l2
  /\ chronological (l1 ++ e :: l2).
Proof. exact insert_ordered_sorted. Qed.
Print Assumptions C09_insert_ordered_keeps_order.

(** C09.  Filling an empty trace gives the stable chronological sort. *)
Theorem C09_insert_all_is_a_stable_sort : forall aw es, all_timed aw es ->
  exists t', insert_all [] es = (t', Ok tt) /\ chronological t' /\ Permutation es t'
  /\ forall z, filter (fun ev => time_of ev =? z) t' = filter (fun ev => time_of ev =? z) es.
Proof. exact insert_all_stable_sort. Qed.
Print Assumptions C09_insert_all_is_a_stable_sort.

Example C09_example :
  all_timed true [stamp_at 5; stamp_at 1; stamp_at 5; stamp_at 3]
  /\ insert_all [] [stamp_at 5; stamp_at 1; stamp_at 5; stamp_at 3]
     = ([stamp_at 1; stamp_at 3; stamp_at 5; stamp_at 5], Ok tt).
Proof.
  split; [|reflexivity].
  assert (T : forall h, exists d, timed (stamp_at h) d /\ is_aware d = true).
  { intros h. exists (mk_dt 2020 1 1 h 0 0 0 (Some (mk_tz 0 None))). split; [|reflexivity].
    eexists. repeat split; reflexivity. }
  repeat (apply Forall_cons; [apply T|]). apply Forall_nil.
Qed.

(** C09, limits: with an untimed event in between, the timed events can end up out of order. *)
Theorem C09_untimed_events_refuted : exists t e t' i,
  insert_ordered t e = (t', Ok i) /\ chronological [stamp_at 5]
  /\ t = [stamp_at 5; no_stamp] /\ e = stamp_at 1 /\ t' = [stamp_at 5; no_stamp; stamp_at 1].
Proof.
  exact (ex_intro _ [stamp_at 5; no_stamp] (ex_intro _ (stamp_at 1)
    (ex_intro _ [stamp_at 5; no_stamp; stamp_at 1] (ex_intro _ 2%nat
      (conj eq_refl (conj (chronological_single _) (conj eq_refl (conj eq_refl eq_refl)))))))).
Qed.
Print Assumptions C09_untimed_events_refuted.

(** C10.  After any history the bounds are the earliest and the latest contributed time
    stamp. *)
Theorem C10_bounds_are_extremes : forall aw xs, Forall plain_stamp xs ->
  Forall (fun d => is_aware d = aw) (flat_map contributed xs) ->
  exists b, tb_register_all tb_empty xs = (b, Ok tt)
  /\ match tb_first b, tb_last b with
     | None, None => flat_map contributed xs = []
     | Some f, Some g => earliest f (flat_map contributed xs) /\ latest g (flat_map contributed xs)
     | _, _ => False
     end.
Proof. exact time_bounds_main. Qed.
Print Assumptions C10_bounds_are_extremes.

(** C10.  The order of registration does not matter. *)
Theorem C10_order_of_registration : forall aw xs ys, Permutation xs ys -> Forall plain_stamp xs ->
  Forall (fun d => is_aware d = aw) (flat_map contributed xs) ->
  same_instant (tb_first (fst (tb_register_all tb_empty xs))) (tb_first (fst (tb_register_all tb_empty ys)))
  /\ same_instant (tb_last (fst (tb_register_all tb_empty xs))) (tb_last (fst (tb_register_all tb_empty ys))).
Proof. exact time_bounds_order. Qed.
Print Assumptions C10_order_of_registration.

Example C10_example :
  let d h := mk_dt 2020 1 1 h 0 0 0 (Some (mk_tz 0 None)) in
  let xs := [REvent no_stamp; REvent (stamp_at 5); RBounds (mk_tb (Some (d 2)) (Some (d 9))); RDate (d 7);
             RBounds tb_empty; ROther] in
  Forall plain_stamp xs /\ flat_map contributed xs = [d 5; d 2; d 9; d 7]
  /\ tb_register_all tb_empty xs = (mk_tb (Some (d 2)) (Some (d 9)), Ok tt).
Proof.
  cbv zeta. repeat split; try reflexivity. repeat constructor; cbn; intros a H; inversion H; reflexivity.
Qed.

(** C11.  [is_within] is membership in the closed interval between the bounds. *)
Theorem C11_is_within_interval : forall aw xs d, Forall plain_stamp xs ->
  Forall (fun x => is_aware x = aw) (flat_map contributed xs) -> is_aware d = aw ->
  flat_map contributed xs <> [] ->
  let b := fst (tb_register_all tb_empty xs) in
  exists f g, tb_first b = Some f /\ tb_last b = Some g
  /\ tb_is_within b d = Ok ((instant f <=? instant d) && (instant d <=? instant g)).
Proof. exact is_within_main. Qed.
Print Assumptions C11_is_within_interval.

(** C11.  Every registered time stamp is within the bounds. *)
Theorem C11_registered_is_within : forall aw xs d, Forall plain_stamp xs ->
  Forall (fun x => is_aware x = aw) (flat_map contributed xs) ->
  In d (flat_map contributed xs) ->
  tb_is_within (fst (tb_register_all tb_empty xs)) d = Ok true.
Proof. exact registered_within. Qed.
Print Assumptions C11_registered_is_within.

Example C11_example :
  let d h := mk_dt 2020 1 1 h 0 0 0 (Some (mk_tz 0 None)) in
  let b := fst (tb_register_all tb_empty [RDate (d 5); REvent (stamp_at 9)]) in
  tb_is_within b (d 5) = Ok true /\ tb_is_within b (d 8) = Ok true
  /\ tb_is_within b (d 4) = Ok false /\ tb_is_within tb_empty (d 4) = Ok false.
Proof. repeat split. Qed.
