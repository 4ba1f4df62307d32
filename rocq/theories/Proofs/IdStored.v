(** A log that was stored and read again has other ids. *)
From Coq Require Import NArith List Bool.
From Verif Require Import Base.PyBase Base.PyVal Base.Xml Model.Attr Model.Log Model.Registry Model.XesWrite Model.XesRead
  Spec.Xes Spec.Survive Spec.Ids Proofs.StatFacts Proofs.IdFacts.
Import ListNotations.

Lemma stored_ids `{FIO : FloatIO} mgr urlparse draw l l' : stored mgr urlparse draw l l' ->
  exists n, own_draws draw n (event_ids l').
Proof.
  intros (doc & text & es & s & r & _ & _ & _ & R & _ & L). exists (p_drawn s).
  exact (xes_ids mgr urlparse draw es s r l' R L).
Qed.

Lemma flat_ids (ts : list trace) : map ev_id (flat_map tr_events ts) = concat (map (fun t => map ev_id (tr_events t)) ts).
Proof. induction ts as [|t ts IH]; [easy|]. cbn. now rewrite map_app, IH. Qed.

Theorem stored_unequal `{FIO : FloatIO} mgr urlparse draw l l' :
  readable_log l -> keyed_log l -> calm_log l -> stored mgr urlparse draw l l' ->
  (forall k, ~ In (draw k) (event_ids l)) ->
  ids_in_traces l = ids_in_traces l' <-> log_events l = [].
Proof.
  intros R K C S F. destruct (stored_content mgr urlparse draw l l' R K C S) as [_ T].
  destruct (stored_ids mgr urlparse draw l l' S) as (n & ks & _ & _ & E).
  unfold event_ids, log_events in *. rewrite !flat_ids in *. fold (ids_in_traces l) in *. fold (ids_in_traces l') in *. split.
  - intros H. rewrite <- H in E. destruct ks as [|k ks].
    + cbn in E. destruct (flat_map tr_events (lg_traces l)) eqn:Q; [easy|].
      unfold ids_in_traces in E. rewrite <- flat_ids, Q in E. discriminate.
    + exfalso. apply (F k). rewrite E. now left.
  - intros H. clear - T H. unfold ids_in_traces. revert H.
    induction T as [|t t' ts ts' [_ St] _ IH]; [easy|]. cbn. intros H. apply app_eq_nil in H as [H1 H2].
    rewrite (IH H2). f_equal. rewrite H1 in *. now inversion St.
Qed.
