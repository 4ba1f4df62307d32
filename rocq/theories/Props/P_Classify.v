(** Properties C12-C18: classifiers and event classes. *)
From Coq Require Import String NArith ZArith List Bool Sorting.Sorted Sorting.Permutation.
From Verif Require Import Base.PyBase Base.PyDate Base.PyVal Model.Attr Model.Log Model.Classify
  Spec.Orders Spec.Typing Spec.Classes Proofs.ClassFacts.
Import ListNotations.
Local Open Scope Z_scope.

Definition lit (k v : string) : pystr * attr := (py k, mk_attr CLiteral (py k) None (PStr (py v)) [] []).
Definition ev (l : list (pystr * attr)) : event := mk_event 0 l.
Definition log_of (ts : list (list event)) : xlog :=
  mk_log [] (map (mk_trace []) ts) [] [] [] [] [].

(** C12.  The identity depends on presence and printed value of the defining attributes
    only. *)
Theorem C12_identity_depends_on_keys : forall `{FIO : FloatIO} c a b,
  (forall k, In k (cl_keys c) -> shown a k = shown b k) -> class_identity c a = class_identity c b.
Proof. exact @identity_depends. Qed.
Print Assumptions C12_identity_depends_on_keys.

(** C12.  [same_event_class] is an equivalence relation on the events whose identity
    exists (the only events for which it returns at all). *)
Theorem C12_same_event_class_equivalence : forall `{FIO : FloatIO} c,
  (forall a x, class_identity c a = Ok x -> same_event_class c a a = Ok true)
  /\ (forall a b r, same_event_class c a b = Ok r -> same_event_class c b a = Ok r)
  /\ (forall a b d, same_event_class c a b = Ok true -> same_event_class c b d = Ok true ->
      same_event_class c a d = Ok true).
Proof. exact @same_class_equivalence. Qed.
Print Assumptions C12_same_event_class_equivalence.

Example C12_example :
  let a := ev [lit "concept:name" "A"; lit "x" "1"; lit "lifecycle:transition" "start"] in
  let b := mk_event 9 [lit "lifecycle:transition" "start"; lit "concept:name" "A"; lit "y" "2"] in
  (forall k, In k (cl_keys standard_classifier) -> @shown no_floats a k = @shown no_floats b k)
  /\ @class_identity no_floats standard_classifier a = Ok (py "A&&start")
  /\ @same_event_class no_floats standard_classifier a b = Ok true.
Proof.
  cbv zeta. split; [|split; reflexivity]. intros k [<-|[<-|[]]]; reflexivity.
Qed.

(** C13.  One key: the same class means the same printed value, a missing attribute
    counting as the empty text. *)
Theorem C13_one_key : forall `{FIO : FloatIO} c k a b s t,
  cl_keys c = [k] -> shows_or_empty a k s -> shows_or_empty b k t ->
  same_event_class c a b = Ok (str_eqb s t).
Proof. exact @same_class_one. Qed.
Print Assumptions C13_one_key.

(** C13.  Two keys: both printed values agree, if those of the first key are free of '&'. *)
Theorem C13_two_keys : forall `{FIO : FloatIO} c k1 k2 a b s1 s2 t1 t2,
  cl_keys c = [k1; k2] ->
  shows_or_empty a k1 s1 -> shows_or_empty a k2 s2 -> shows_or_empty b k1 t1 -> shows_or_empty b k2 t2 ->
  ~ In 38%N s1 -> ~ In 38%N t1 ->
  same_event_class c a b = Ok (str_eqb s1 t1 && str_eqb s2 t2).
Proof. exact @same_class_two. Qed.
Print Assumptions C13_two_keys.

(** C13.  Any number of keys: all attributes present, all printed values free of '&'. *)
Theorem C13_all_present : forall `{FIO : FloatIO} c a b ss ts,
  Forall2 (shows a) (cl_keys c) ss -> Forall2 (shows b) (cl_keys c) ts ->
  Forall (fun s => ~ In 38%N s) ss -> Forall (fun s => ~ In 38%N s) ts ->
  exists r, same_event_class c a b = Ok r /\ (r = true <-> ss = ts).
Proof. exact @same_class_all. Qed.
Print Assumptions C13_all_present.

(** C13.  Without "no '&'" two keys do not separate events with different values ... *)
Theorem C13_two_keys_ampersand_refuted : exists c a b,
  length (cl_keys c) = 2%nat /\ (forall k, In k (cl_keys c) -> exists s t,
    @shows no_floats a k s /\ @shows no_floats b k t /\ s <> t)
  /\ @same_event_class no_floats c a b = Ok true.
Proof.
  exists (mk_cl (py "n") [py "k"; py "l"]), (ev [lit "k" "a"; lit "l" "b&&c"]), (ev [lit "k" "a&&b"; lit "l" "c"]).
  split; [reflexivity|]. split; [|reflexivity].
  intros k [<-|[<-|[]]]; eexists _, _; (split; [reflexivity|split; [reflexivity|discriminate]]).
Qed.
Print Assumptions C13_two_keys_ampersand_refuted.

(** C13.  ... and three keys do not separate events when attributes are missing. *)
Theorem C13_three_keys_missing_refuted : exists c a b k s,
  length (cl_keys c) = 3%nat /\ In k (cl_keys c)
  /\ @shows no_floats a k s /\ s <> [] /\ @shown no_floats b k = None
  /\ Forall (fun e => Forall (fun kv => ~ In 38%N match a_val (snd kv) with PStr s => s | _ => [] end) (ev_attrs e)) [a; b]
  /\ @same_event_class no_floats c a b = Ok true.
Proof.
  exists (mk_cl (py "n") [py "k"; py "l"; py "m"]), (ev [lit "k" "x"]), (ev [lit "l" "x"]), (py "k"), (py "x").
  split; [reflexivity|]. split; [simpl; auto|]. split; [reflexivity|]. split; [discriminate|].
  split; [reflexivity|]. split; [|reflexivity].
  repeat constructor; cbn; intros [H|[]]; discriminate.
Qed.
Print Assumptions C13_three_keys_missing_refuted.

Example C13_example :
  let c := mk_cl (py "n") [py "k"; py "l"; py "m"] in
  let a := ev [lit "k" "a"; lit "l" "b"; lit "m" "c"] in
  let b := ev [lit "m" "c"; lit "l" "B"; lit "k" "a"] in
  Forall2 (@shows no_floats a) (cl_keys c) [py "a"; py "b"; py "c"]
  /\ Forall2 (@shows no_floats b) (cl_keys c) [py "a"; py "B"; py "c"]
  /\ Forall (fun s => ~ In 38%N s) [py "a"; py "b"; py "c"; py "B"]
  /\ @same_event_class no_floats c a b = Ok false
  /\ @shows_or_empty no_floats (ev []) (py "k") []
  /\ @same_event_class no_floats (mk_cl (py "n") [py "k"]) (ev []) (ev [lit "k" ""]) = Ok true.
Proof.
  cbv zeta. repeat split; try (repeat (apply Forall2_cons; [reflexivity|]); apply Forall2_nil).
  - repeat (apply Forall_cons; [cbn; intros [H|[]]; discriminate|]). apply Forall_nil.
  - right. split; reflexivity.
Qed.

(** C14.  compare_to realises the order "name, number of keys, keys"; 0 means equal. *)
Theorem C14_compare_to : forall a b,
  (cl_compare a b < 0 <-> cl_before a b) /\ (0 < cl_compare a b <-> cl_before b a)
  /\ (cl_compare a b = 0 <-> cl_name a = cl_name b /\ cl_keys a = cl_keys b).
Proof. exact cl_compare_fields. Qed.
Print Assumptions C14_compare_to.

(** C14.  The order is transitive, asymmetric and total. *)
Theorem C14_total_order :
  (forall a b c, cl_before a b -> cl_before b c -> cl_before a c)
  /\ (forall a b, cl_before a b -> ~ cl_before b a)
  /\ (forall a b, cl_before a b \/ a = b \/ cl_before b a).
Proof. exact cl_total_order. Qed.
Print Assumptions C14_total_order.

(** C14.  The six operators agree with compare_to (written against the order). *)
Theorem C14_operators : forall a b,
  (cl_lt a b = true <-> cl_before a b) /\ (cl_gt a b = true <-> cl_before b a)
  /\ (cl_eqb a b = true <-> a = b)
  /\ (cl_le a b = true <-> cl_before a b \/ a = b) /\ (cl_ge a b = true <-> cl_before b a \/ a = b).
Proof. exact cl_operators. Qed.
Print Assumptions C14_operators.

(** C14.  Equal classifiers hash alike, whatever the built-in hashes are. *)
Theorem C14_equal_hash : forall hk hs a b, cl_eqb a b = true -> cl_hash hk hs a = cl_hash hk hs b.
Proof. exact cl_hash_equal. Qed.
Print Assumptions C14_equal_hash.

Example C14_example :
  cl_lt lifetrans_classifier standard_classifier = true
  /\ cl_lt (mk_cl (py "n") [py "z"]) (mk_cl (py "n") [py "a"; py "b"]) = true
  /\ cl_compare (mk_cl (py "n") [py "a"; py "c"]) (mk_cl (py "n") [py "a"; py "b"]) = 1
  /\ cl_eqb (mk_cl (py "n") [py "a"]) (mk_cl (py "n") [py "a"]) = true.
Proof. repeat split. Qed.

(** C15.  Construction. *)
Theorem C15_and_classifier_empty : forall cs x,
  and_classifier cs = Raise x <-> cs = [] /\ x = ValueError.
Proof. exact and_classifier_raises. Qed.
Print Assumptions C15_and_classifier_empty.

Theorem C15_and_classifier : forall cs, cs <> [] -> exists c, and_classifier cs = Ok c
  /\ (forall k, In k (cl_keys c) <-> exists d, In d cs /\ In k (cl_keys d))
  /\ StronglySorted lex_lt (cl_keys c)
  /\ cl_name c = py "(" ++ join (py " AND ") (map cl_name cs) ++ py ")".
Proof. exact and_classifier_spec. Qed.
Print Assumptions C15_and_classifier.

Theorem C15_and_classifier_order_independent : forall cs ds c d,
  Permutation cs ds -> and_classifier cs = Ok c -> and_classifier ds = Ok d -> cl_keys c = cl_keys d.
Proof. exact and_classifier_order. Qed.
Print Assumptions C15_and_classifier_order_independent.

(** C15.  Agreement on all keys of all parts. *)
Theorem C15_and_classifier_agreement : forall `{FIO : FloatIO} cs c a b,
  and_classifier cs = Ok c -> (forall d k, In d cs -> In k (cl_keys d) -> shown a k = shown b k) ->
  class_identity c a = class_identity c b.
Proof. exact @and_same_class. Qed.
Print Assumptions C15_and_classifier_agreement.

(** C15.  The documented "AND" of the parts holds for events having all the attributes,
    with printed values free of '&' ... *)
Theorem C15_and_logic : forall `{FIO : FloatIO} cs c a b,
  and_classifier cs = Ok c ->
  (forall k, In k (cl_keys c) -> complete a k) -> (forall k, In k (cl_keys c) -> complete b k) ->
  exists r, same_event_class c a b = Ok r
  /\ (r = true <-> forall d, In d cs -> same_event_class d a b = Ok true).
Proof. exact @and_logic. Qed.
Print Assumptions C15_and_logic.

(** C15.  ... but not in general: all parts agree and the AND classifier does not. *)
Theorem C15_and_logic_refuted : exists cs c a b,
  and_classifier cs = Ok c
  /\ (forall d, In d cs -> @same_event_class no_floats d a b = Ok true)
  /\ @same_event_class no_floats c a b = Ok false.
Proof.
  exists [mk_cl (py "p") [py "c"; py "a"; py "b"]], (mk_cl (py "(p)") [py "a"; py "b"; py "c"]).
  exists (ev [lit "c" "x"; lit "a" "y"]), (ev [lit "a" "x"; lit "b" "y"]).
  split; [reflexivity|]. split; [|reflexivity]. intros d [<-|[]]. reflexivity.
Qed.
Print Assumptions C15_and_logic_refuted.

Example C15_example :
  let n := mk_cl (py "N") [py "z"; py "a"] in let r := mk_cl (py "R") [py "a"; py "m"] in
  and_classifier [n; r] = Ok (mk_cl (py "(N AND R)") [py "a"; py "m"; py "z"])
  /\ and_classifier [r; n] = Ok (mk_cl (py "(R AND N)") [py "a"; py "m"; py "z"])
  /\ (let a := ev [lit "z" "1"; lit "a" "2"; lit "m" "3"; lit "q" "0"] in
      forall k, In k [py "a"; py "m"; py "z"] -> @complete no_floats a k).
Proof.
  cbv zeta. split; [reflexivity|]. split; [reflexivity|].
  intros k [<-|[<-|[<-|[]]]]; eexists; (split; [reflexivity|]); cbn; intros [H|[]]; discriminate.
Qed.

(** C16.  derive_event_classes returns exactly when every event has an identity ... *)
Theorem C16_event_classes_defined : forall `{FIO : FloatIO} cl l,
  (forall e, In e (log_events l) -> exists id, class_identity cl e = Ok id) ->
  exists m ids, derive_event_classes cl l = Ok m /\ identities cl (log_events l) = Ok ids.
Proof. exact @derive_succeeds. Qed.
Print Assumptions C16_event_classes_defined.

Theorem C16_event_classes_undefined : forall `{FIO : FloatIO} cl l x,
  derive_event_classes cl l = Raise x -> exists e, In e (log_events l) /\ class_identity cl e = Raise x.
Proof. exact @derive_fails. Qed.
Print Assumptions C16_event_classes_undefined.

(** C16.  ... and then the classes partition the events of the log. *)
Theorem C16_event_classes_partition : forall `{FIO : FloatIO} cl l m ids,
  derive_event_classes cl l = Ok m -> identities cl (log_events l) = Ok ids ->
  NoDup (map fst m)
  /\ (forall id, In id (map fst m) <-> In id ids)
  /\ (forall id c, sget id m = Some c -> ec_id c = id /\ ec_size c = occurrences id ids)
  /\ list_sum (map ec_size (map snd m)) = length (log_events l)
  /\ (forall e, In e (log_events l) -> exists id c, class_identity cl e = Ok id /\ In id ids
        /\ get_class_of cl m e = Ok (Some c) /\ ec_id c = id).
Proof. exact @derive_partition. Qed.
Print Assumptions C16_event_classes_partition.

Example C16_example :
  let e n := ev [lit "concept:name" n] in
  let l := log_of [[e "b"; e "a"]; []; [e "b"; e "c"; e "b"]; [ev []]]%string in
  @derive_event_classes no_floats name_classifier l
  = Ok [([], mk_ec [] 0 1); (py "a", mk_ec (py "a") 1 1); (py "b", mk_ec (py "b") 2 3); (py "c", mk_ec (py "c") 3 1)]
  /\ @identities no_floats name_classifier (log_events l)
     = Ok [py "b"; py "a"; py "b"; py "c"; py "b"; []].
Proof. split; reflexivity. Qed.

(** C17.  Indices are 0..n-1 in identity order; both lookups agree. *)
Theorem C17_indices_dense : forall `{FIO : FloatIO} cl l m, derive_event_classes cl l = Ok m ->
  map ec_index (map snd m) = seq 0 (length m)
  /\ (forall i, (i < length m)%nat -> exists c, get_by_index m i = Some c /\ ec_index c = i
        /\ get_by_identity m (ec_id c) = Some c)
  /\ (forall i, (length m <= i)%nat -> get_by_index m i = None)
  /\ (forall id c, get_by_identity m id = Some c -> get_by_index m (ec_index c) = Some c)
  /\ (forall i j c d, get_by_index m i = Some c -> get_by_index m j = Some d ->
        ((i < j)%nat <-> lex_lt (ec_id c) (ec_id d))).
Proof. exact @derive_indices. Qed.
Print Assumptions C17_indices_dense.

(** C17.  The order of events (and their distribution over traces) does not matter. *)
Theorem C17_order_independent : forall `{FIO : FloatIO} cl l1 l2 m,
  Permutation (log_events l1) (log_events l2) ->
  derive_event_classes cl l1 = Ok m -> derive_event_classes cl l2 = Ok m.
Proof. exact @derive_order_independent. Qed.
Print Assumptions C17_order_independent.

Example C17_example :
  let e n := ev [lit "concept:name" n] in
  let l1 := log_of [[e "b"; e "a"]; [e "b"]]%string in
  let l2 := log_of [[e "a"]; [e "b"; e "b"]]%string in
  let m := [(py "a", mk_ec (py "a") 0 1); (py "b", mk_ec (py "b") 1 2)] in
  Permutation (log_events l1) (log_events l2)
  /\ @derive_event_classes no_floats name_classifier l1 = Ok m
  /\ @derive_event_classes no_floats name_classifier l2 = Ok m
  /\ get_by_index m 1 = Some (mk_ec (py "b") 1 2).
Proof. cbv zeta. split; [apply perm_swap|]. repeat split. Qed.

(** C18.  After any history of registrations and renumberings the indices are 0..n-1 in
    dictionary order ... *)
Theorem C18_indices_always_dense : forall os,
  map ec_index (map snd (run_ops os)) = seq 0 (length (run_ops os)).
Proof. exact run_ops_dense. Qed.
Print Assumptions C18_indices_always_dense.

(** C18.  ... a registration leaves every class there with its index; only the size of
    the class registered grows, by one ... *)
Theorem C18_register_keeps_index : forall os id k c, sget k (run_ops os) = Some c ->
  sget k (register_id (run_ops os) id)
  = Some (mk_ec k (ec_index c) (ec_size c + if str_eqb k id then 1 else 0)).
Proof. exact register_keeps. Qed.
Print Assumptions C18_register_keeps_index.

(** C18.  ... and a new identity gets the next free index and size 1. *)
Theorem C18_register_new : forall os id, sget id (run_ops os) = None ->
  sget id (register_id (run_ops os) id) = Some (mk_ec id (length (run_ops os)) 1)
  /\ length (register_id (run_ops os) id) = S (length (run_ops os))
  /\ forall k, k <> id -> sget k (register_id (run_ops os) id) = sget k (run_ops os).
Proof. exact register_new_full. Qed.
Print Assumptions C18_register_new.

Example C18_example :
  run_ops [OpRegister (py "b"); OpRegister (py "a"); OpRegister (py "b"); OpHarmonize; OpRegister (py "0"); OpRegister (py "a")]
  = [(py "a", mk_ec (py "a") 0 2); (py "b", mk_ec (py "b") 1 2); (py "0", mk_ec (py "0") 2 1)].
Proof. reflexivity. Qed.
