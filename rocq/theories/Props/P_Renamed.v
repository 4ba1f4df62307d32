(** Property C109: classifiers that are renamed after a summary was made. *)
From Coq Require Import String NArith ZArith List Bool.
From Verif Require Import Base.PyBase Base.PyVal Model.Attr Model.Log Model.Classify Model.Renamed Spec.Renamed Proofs.RenamedFacts.
Import ListNotations.

(** C109.  While no classifier changes, a summary finds the event classes made for the last
    classifier with the same name and keys as the one asked for, exactly if there is one. *)
Theorem C109_unchanged : forall hk hs c rs q,
  (forall t, classes_of hk hs c (summary_dict hk hs c rs) q = Some t <-> last_of c rs t /\ c t = c q)
  /\ (classes_of hk hs c (summary_dict hk hs c rs) q = None <-> forall r, In r rs -> c r <> c q).
Proof. exact unchanged_full. Qed.
Print Assumptions C109_unchanged.

(** C109.  After changes (from [c0] to [c1]) there is an answer exactly if a key of the
    dictionary had, when the summary was made, the hash value that the classifier has now, and
    is this classifier or has now the same name and keys. *)
Theorem C109_answer : forall hk hs c0 c1 rs q,
  (exists t, classes_of hk hs c1 (summary_dict hk hs c0 rs) q = Some t)
  <-> exists r, first_of c0 rs r /\ cl_hash hk hs (c0 r) = cl_hash hk hs (c1 q) /\ (r = q \/ c1 r = c1 q).
Proof. exact answered. Qed.
Print Assumptions C109_answer.

(** C109.  A classifier that got another name or other keys is not found in a summary made
    before, unless hash values collide; *)
Theorem C109_lost : forall hk hs c rs q n ks,
  (forall r, In r rs -> cl_hash hk hs (c r) <> cl_hash hk hs (mk_cl n ks)) ->
  classes_of hk hs (changed q n ks c) (summary_dict hk hs c rs) q = None.
Proof. exact changed_lost. Qed.
Print Assumptions C109_lost.
(** C109.  when it has its name and keys back it is found again, and without collisions so are
    the event classes made for it. *)
Theorem C109_back : forall hk hs c0 c1 rs q, first_of c0 rs q -> c1 q = c0 q ->
  exists t, classes_of hk hs c1 (summary_dict hk hs c0 rs) q = Some t
    /\ ((forall r, In r rs -> cl_hash hk hs (c0 r) = cl_hash hk hs (c0 q) -> c0 r = c0 q) -> c0 t = c0 q).
Proof. exact found_back. Qed.
Print Assumptions C109_back.

(** C109.  The summary that the log keeps is found under the same classifier object whatever has
    become of it, but its event classes for this default classifier may be gone. *)
Theorem C109_cached : forall hk hs standard name resource transition q w h, rw_cache w = None ->
  let made := log_info hk hs standard name resource transition (Some q) w in
  let w2 := fold_left change h (fst made) in
  (forall r, rw_cl w2 r = at_last h r (rw_cl w r))
  /\ log_info hk hs standard name resource transition (Some q) w2 = (w2, snd made)
  /\ (default_classes hk hs w2 (snd made) = None <->
      forall r, first_of (rw_cl w) [q; name; resource; transition] r ->
        cl_hash hk hs (rw_cl w r) = cl_hash hk hs (rw_cl w2 q) -> r <> q /\ rw_cl w2 r <> rw_cl w2 q).
Proof. intros hk hs standard name resource transition q w h C. exact (info_cached hk hs standard name resource transition q w h C). Qed.
Print Assumptions C109_cached.

(** C109.  So not every classifier that a summary was made for is found in it. *)
Definition four (r : nat) : classifier :=
  match r with 0 => name_classifier | 1 => resource_classifier | 2 => lifetrans_classifier | _ => standard_classifier end.
Definition text_hash (s : pystr) : Z := fold_left (fun h c => (31 * h + Z.of_N c)%Z) s 0%Z.
Definition tuple_hash (l : list pystr) : Z := fold_left (fun h s => (17 * h + text_hash s)%Z) l 0%Z.
Theorem C109_always_found_refuted : exists hk hs c rs q n, In q rs
  /\ classes_of hk hs (renamed q n c) (summary_dict hk hs c rs) q = None.
Proof. exists tuple_hash, text_hash, four, [3; 0; 1; 2], 3, (py "mine"). vm_compute. auto. Qed.
Print Assumptions C109_always_found_refuted.

Example C109_example :
  let w := mk_rw four None [] in
  let made := log_info tuple_hash text_hash 3 0 1 2 (Some 3) w in
  let w2 := fold_left change [(3, py "mine", [py "concept:name"])] (fst made) in
  let w3 := fold_left change [(3, cl_name standard_classifier, cl_keys standard_classifier)] w2 in
  default_classes tuple_hash text_hash (fst made) (snd made) = Some 3
  /\ default_classes tuple_hash text_hash w2 (snd made) = None
  /\ snd (log_info tuple_hash text_hash 3 0 1 2 (Some 3) w2) = 0
  /\ default_classes tuple_hash text_hash w3 (snd made) = Some 3
  /\ first_of four [3; 0; 1; 2] 0
  /\ (forall r, In r [3; 0; 1; 2] -> cl_hash tuple_hash text_hash (four r) <> cl_hash tuple_hash text_hash (mk_cl (py "mine") [py "concept:name"])).
Proof.
  cbv zeta. split; [vm_compute; reflexivity|]. split; [vm_compute; reflexivity|]. split; [vm_compute; reflexivity|].
  split; [vm_compute; reflexivity|]. split.
  - exists [3], [1; 2]. split; [reflexivity|]. intros x [<- | []]. discriminate.
  - intros r [<- | [<- | [<- | [<- | []]]]]; vm_compute; discriminate.
Qed.
(** A default classifier like the one for names: the classes made for the latter are found. *)
Example C109_example_two :
  let c r := match r with 4 => name_classifier | _ => four r end in
  classes_of tuple_hash text_hash c (summary_dict tuple_hash text_hash c [4; 0; 1; 2]) 4 = Some 0
  /\ last_of c [4; 0; 1; 2] 0 /\ c 0 = c 4.
Proof.
  cbv zeta. split; [vm_compute; reflexivity|]. split; [|reflexivity].
  exists [4], [1; 2]. split; [reflexivity|]. intros x [<- | [<- | []]]; vm_compute; discriminate.
Qed.
