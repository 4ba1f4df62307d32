(** C98: mining, filtering, clustering and storing logs together. *)
From Coq Require Import String NArith ZArith List Bool Permutation.
From Verif Require Import Base.PyBase Base.PyVal Model.Attr Model.Log Model.Classify Model.Alpha Model.Examples Model.Registry
  Spec.AlphaNet Spec.Mining Spec.Transform Spec.Typing Spec.Xes Spec.Survive Spec.XmlNorm
  Proofs.MiningFacts Props.P_Alpha Props.P_Examples Props.P_Xes Props.P_Stats.
Import ListNotations.

(** Two lists of variants with the same members give the same net, whatever the orders in
    which the two runs go through their sets. *)
Theorem C98_net : forall (SO SO' : SetOrder) u v a, (forall t, In t u <-> In t v) -> @alpha_of SO u = Ok a ->
  exists b, @alpha_of SO' v = Ok b /\ same_net a b.
Proof. exact same_variants_net. Qed.
Print Assumptions C98_net.

(** Mining a log filtered by the same classifier. *)
Theorem C98_filter : forall (FIO : FloatIO) (SO SO' : SetOrder) c l vs f,
  map_res (variant c) (lg_traces l) = Ok vs -> filter_log c l = Ok f ->
  match @mine_log FIO SO c l, @mine_log FIO SO' c f with
  | Ok a, Ok b => same_net a b
  | Raise x, Raise y => x = y
  | _, _ => False
  end.
Proof. exact filtered_net. Qed.
Print Assumptions C98_filter.

(** The net and the vectors for clustering survive a file. *)
Theorem C98_stored_net : forall (FIO : FloatIO) (SO : SetOrder) mgr urlparse draw l l',
  readable_log l -> keyed_log l -> calm_log l -> stored mgr urlparse draw l l' -> forall c, zoned_for c l ->
  mine_log c l' = mine_log c l /\ log_vectors c l' = log_vectors c l.
Proof. exact stored_mined. Qed.
Print Assumptions C98_stored_net.

(** The filtered log and the clusters of the log read are those of the log written, as far as
    a file shows. *)
Theorem C98_stored_filter : forall (FIO : FloatIO) mgr urlparse draw l l',
  readable_log l -> keyed_log l -> calm_log l -> stored mgr urlparse draw l l' -> forall c vs, zoned_for c l ->
  map_res (variant c) (lg_traces l) = Ok vs ->
  exists f f', filter_log c l = Ok f /\ filter_log c l' = Ok f'
    /\ same_map mgr (lg_attrs f) (lg_attrs f') /\ Forall2 (Xes.same_trace mgr) (lg_traces f) (lg_traces f').
Proof. exact stored_filtered. Qed.
Print Assumptions C98_stored_filter.

Theorem C98_stored_clusters : forall (FIO : FloatIO) (SO : SetOrder) mgr urlparse draw l l' centres predict,
  readable_log l -> keyed_log l -> calm_log l -> stored mgr urlparse draw l l' -> forall c, zoned_for c l ->
  match cluster_log centres predict c l, cluster_log centres predict c l' with
  | Ok r, Ok r' => Forall2 (fun g g' => same_map mgr (lg_attrs g) (lg_attrs g')
      /\ Forall2 (Xes.same_trace mgr) (lg_traces g) (lg_traces g')) r r'
  | Raise x, Raise y => x = y
  | _, _ => False
  end.
Proof. exact stored_clustered. Qed.
Print Assumptions C98_stored_clusters.

#[local] Instance no_fl : FloatIO := no_floats.
Definition forwards : SetOrder := {| iter := fun A l => l; iter_perm := fun A l => Permutation_refl l |}.
Definition backwards : SetOrder := {| iter := fun A l => rev l; iter_perm := fun A l => Permutation_sym (Permutation_rev l) |}.

(** [vlog] has four traces of three variants, its filtered log three traces; the sets of the two
    runs are gone through in opposite orders, and the footprints are lists in different orders. *)
Example C98_example :
  (exists vs, map_res (variant by_activity) (lg_traces vlog) = Ok vs)
  /\ (exists f, filter_log by_activity vlog = Ok f /\ List.length (lg_traces f) = 3%nat)
  /\ (let! a := @mine_log _ forwards by_activity vlog in Ok (al_all a)) = Ok [py "a"; py "b"]
  /\ (let! f := filter_log by_activity vlog in let! a := @mine_log _ backwards by_activity f in Ok (al_all a)) = Ok [py "a"; py "b"]
  /\ (let! a := @mine_log _ forwards by_activity vlog in Ok (al_ending a)) = Ok [py "b"; py "a"].
Proof. split; [eexists; reflexivity|]. split; [eexists; split; reflexivity|]. vm_compute. repeat split. Qed.

(** Two lists of the same variants; the places come in different orders. *)
Example C98_orders :
  let u := map (map py) [["a"; "b"; "d"]; ["a"; "c"; "d"]]%string in
  (let! a := @alpha_of forwards u in Ok (al_places a)) <> (let! a := @alpha_of backwards (rev u ++ u) in Ok (al_places a))
  /\ (let! a := @alpha_of forwards u in Ok (List.length (al_places a))) = Ok 2%nat
  /\ (let! a := @alpha_of backwards (rev u ++ u) in Ok (List.length (al_places a))) = Ok 2%nat.
Proof. vm_compute. repeat split. discriminate. Qed.

(** The sample log of C34 meets the hypotheses of the last three (see C69_example). *)
Example C98_stored_example :
  @log_vectors no_floats forwards (mk_cl (py "c") [py "a"; py "time:timestamp"]) sample_log = Ok [[1; 1]; [0; 0]]%nat
  /\ (let! f := @filter_log no_floats (mk_cl (py "c") [py "a"; py "time:timestamp"]) sample_log in Ok (List.length (lg_traces f))) = Ok 2%nat.
Proof. vm_compute. repeat split. Qed.
