(** C92: the objects of the standard extensions, and the names they register. *)
From Coq Require Import String NArith ZArith List Bool SpecFloat.
From Verif Require Import Base.PyBase Base.PyDate Base.PyVal Model.Attr Model.NameMap Model.Registry Model.ExtParse Model.StdInit
  Spec.Registries Spec.XesParts Spec.Standard Proofs.StandardFacts.
Import ListNotations.

(** Whatever the random ids, the local time of the epoch and the names registered before: making
    a standard extension succeeds, and it has on every level exactly the keys of the table, each
    once, with attributes that carry the extension and are otherwise bare. *)
Theorem C92_levels : forall draw t s g, exists x g', construct draw t s g = Ok (x, g') /\ xo_id x = id_of s
  /\ forall lv, map a_key (xo_level lv x) = keys_at s lv
                /\ Forall (fun a => a_ext a = Some (id_of s) /\ (a_cls a, a_val a) = first_value draw t (a_key a) /\ a_coll a = [] /\ a_meta a = []) (xo_level lv x).
Proof. exact standard_levels. Qed.
Print Assumptions C92_levels.
Example C92_levels_ex :
  keys_at SCost LTrace = [py "cost:total"; py "cost:currency"] /\ keys_at SCost LMeta = [] /\ keys_at SConcept LEvent = [py "concept:name"; py "concept:instance"].
Proof. vm_compute. repeat split. Qed.

(** The attributes of all levels together are one per key. *)
Theorem C92_defined : forall draw t s g x g', construct draw t s g = Ok (x, g') ->
  NoDup (map a_key (snd (xo_defined x)))
  /\ forall k, In k (map a_key (snd (xo_defined x))) <-> exists lv, In k (keys_at s lv).
Proof. exact standard_defined. Qed.
Print Assumptions C92_defined.
Definition some_time : datetime := mk_dt 1970 1 1 1 0 0 0 None.
Definition some_draw (s : std) : N := match s with SMicro => 5%N | _ => 9%N end.
Example C92_defined_ex :
  match construct some_draw some_time SIdentity (nrun []) with
  | Ok (x, _) => map (fun lv => List.length (xo_level lv x)) [LLog; LTrace; LEvent; LMeta] = [1; 1; 1; 1] /\ List.length (snd (xo_defined x)) = 1
  | Raise _ => False
  end.
Proof. vm_compute. repeat split. Qed.

(** No key belongs to two of the extensions, and the reader labels each key with the extension
    that defines it. *)
Theorem C92_apart : forall s s' lv lv' k, In k (keys_at s lv) -> In k (keys_at s' lv') -> s = s'.
Proof. exact standard_apart. Qed.
Print Assumptions C92_apart.
Theorem C92_labels : forall s lv k, In k (keys_at s lv) -> named_extension std_manager k = Some (id_of s).
Proof. exact standard_labels. Qed.
Print Assumptions C92_labels.
Example C92_labels_ex : In (py "org:role") (keys_at SOrg LEvent).
Proof. vm_compute. auto. Qed.

(** Whichever extensions are made, in whatever order and however often, after whatever other
    registrations: each mapping holds the standard names of the keys of these extensions, and
    for all other keys what it held before. *)
Theorem C92_names : forall draw t ss h, exists g', construct_all draw t ss (nrun h) = Ok g' /\ forall m k,
  named_map g' m k = match (if existsb (fun s => owns s k) ss then standard_name m k else None) with
                     | Some a => Some a
                     | None => named_map (nrun h) m k
                     end.
Proof. exact standard_aliases. Qed.
Print Assumptions C92_names.
Example C92_names_ex :
  let h := [NGlobal (py "DE") (KStr (py "org:role")) (PStr (py "x")); NGlobal (py "DE") (KStr (py "own")) (PStr (py "y"));
            NGlobal (py "DE") (KStr (py "cost:total")) (PStr (py "z"))] in
  match construct_all some_draw some_time [SOrg; SCost] (nrun h) with
  | Ok g => map (named_map g (py "DE")) [py "org:role"; py "own"; py "cost:total"; py "concept:name"] = [Some (py "Rolle"); Some (py "y"); Some (py "z"); None]
  | Raise _ => False
  end.
Proof. vm_compute. reflexivity. Qed.

(** So every key of an extension that was made has an English name, which is what the global map
    gives, and what is shown in another known language unless that has a name of its own. *)
Theorem C92_english : forall s lv k, In k (keys_at s lv) -> standard_name (py "EN") k <> None.
Proof. exact standard_english. Qed.
Print Assumptions C92_english.
Theorem C92_shown : forall draw t ss h g' s lv k n, construct_all draw t ss (nrun h) = Ok g' -> In s ss -> In k (keys_at s lv) ->
  gm_map g' (KStr k) = standard_name (py "EN") k
  /\ forall l, sget n (g_maps g') = Some l ->
     gm_safely g' (KStr k) (MName n) = match named_map g' n k with Some a => Some a | None => standard_name (py "EN") k end.
Proof. exact standard_shown. Qed.
Print Assumptions C92_shown.
Example C92_shown_ex :
  match construct_all some_draw some_time all_std (nrun []) with
  | Ok g => map (fun k => gm_safely g (KStr k) (MName (py "ES"))) [py "org:role"; py "cost:total"; py "own"]
            = [Some (py "Papel"); Some (py "Total Cost"); Some (py "own")]
  | Raise _ => False
  end.
Proof. vm_compute. reflexivity. Qed.
