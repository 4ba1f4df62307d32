(** Classifiers as objects that can change while they are keys of dictionaries:
    /repo/src/opyenxes/classification/XEventAttributeClassifier.py, info/XLogInfo.py,
    info/XLogInfoFactory.py, model/XLog.py. *)
From Coq Require Import String NArith ZArith List Bool.
From Verif Require Import Base.PyBase Base.PyVal Model.Attr Model.Log Model.Classify.
Import ListNotations.

Section Renamed.
(** The built-in hash of a tuple of texts and of a text. *)
Context (hk : list pystr -> Z) (hs : pystr -> Z).

(** Classifier objects are numbers; this gives their present name and keys. *)
Definition contents : Type := nat -> classifier.
Definition hash_of (c : contents) (r : nat) : Z := cl_hash hk hs (c r).
(** A key of a dictionary matches when it is the same object or equal
    (XEventAttributeClassifier.py:127-130). *)
Definition key_is (c : contents) (a b : nat) : bool := Nat.eqb a b || cl_eqb (c a) (c b).

(** The dictionary of event classes of a summary: the hash value kept with the key, the key,
    and the classifier of the XEventClasses. *)
Definition cdict : Type := list (Z * nat * nat).
Fixpoint cput (c : contents) (hash : Z) (r v : nat) (d : cdict) : cdict :=
  match d with
  | [] => [(hash, r, v)]
  | (g, k, x) :: t => if Z.eqb g hash && key_is c k r then (g, k, v) :: t else (g, k, x) :: cput c hash r v t
  end.
Definition cget (c : contents) (hash : Z) (q : nat) (d : cdict) : option nat :=
  match find (fun x => Z.eqb (fst (fst x)) hash && key_is c (snd (fst x)) q) d with
  | Some x => Some (snd x)
  | None => None
  end.

(** XLogInfo.py:51-58, for the additional classifiers, the default one and the three fixed ones
    in this order. *)
Definition summary_dict (c : contents) (rs : list nat) : cdict :=
  fold_left (fun d r => cput c (hash_of c r) r r d) rs [].
(** get_event_classes: XLogInfo.py:149-151. *)
Definition classes_of (c : contents) (d : cdict) (q : nat) : option nat := cget c (hash_of c q) q d.

(** set_name: XEventAttributeClassifier.py:62-68.  get_defining_attribute_keys (85-94) gives out
    the list of keys itself, which may be changed. *)
Definition changed (r : nat) (n : pystr) (ks : list pystr) (c : contents) : contents :=
  fun q => if Nat.eqb q r then mk_cl n ks else c q.
Definition renamed (r : nat) (n : pystr) (c : contents) : contents := changed r n (cl_keys (c r)) c.

(** A log for which summaries can be made, with the summary it keeps (XLog.py:18-19), and all
    summaries: their default classifiers and their dictionaries. *)
Record rworld : Type := mk_rw { rw_cl : contents; rw_cache : option (nat * nat); rw_infos : list (nat * cdict) }.
(** The classifiers of XLogInfo.py:23-26. *)
Context (standard name resource transition : nat).
(** create_log_info: XLogInfoFactory.py:20-26, with XLogInfo.py:43-44, XLog.py:104-125. *)
Definition log_info (q : option nat) (w : rworld) : rworld * nat :=
  let q := match q with None => standard | Some q => q end in
  let make := let i := List.length (rw_infos w) in
    (mk_rw (rw_cl w) (Some (q, i)) (rw_infos w ++ [(q, summary_dict (rw_cl w) [q; name; resource; transition])]), i) in
  match rw_cache w with
  | Some (k, i) => if cl_eqb (rw_cl w q) (rw_cl w k) then (w, i) else make
  | None => make
  end.
(** get_event_classes without an argument: XLogInfo.py:149-150. *)
Definition default_classes (w : rworld) (i : nat) : option nat :=
  match nth_error (rw_infos w) i with
  | Some (q, d) => classes_of (rw_cl w) d q
  | None => None
  end.
Definition change (w : rworld) (x : nat * pystr * list pystr) : rworld :=
  let '(r, n, ks) := x in mk_rw (changed r n ks (rw_cl w)) (rw_cache w) (rw_infos w).
End Renamed.
