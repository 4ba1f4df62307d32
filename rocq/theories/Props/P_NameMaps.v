(** C95: which mappings the global name map facility lists, and their texts. *)
From Coq Require Import String NArith ZArith List Bool.
From Verif Require Import Base.PyBase Base.PyVal Model.Attr Model.NameMap Spec.Registries Proofs.NameMapFacts.
Import ListNotations.

(** C95.  The names listed are EN and the names asked for or registered under, each once, in
    the order in which they were first met; maps made elsewhere are not listed. *)
Theorem C95_names : forall h, gm_names (nrun h) = names_met h.
Proof. exact names_listed. Qed.
Print Assumptions C95_names.

(** C95.  The mappings listed are different objects, one for each name listed, which carries
    that name and is what asking for the name gives; the standard mapping is among them. *)
Theorem C95_mappings : forall h,
  NoDup (gm_available (nrun h))
  /\ Forall2 (fun n l => option_map nm_name (nth_error (g_heap (nrun h)) l) = Some n
                         /\ sget n (g_maps (nrun h)) = Some l) (gm_names (nrun h)) (gm_available (nrun h))
  /\ hd_error (gm_available (nrun h)) = Some (gm_standard (nrun h)).
Proof. exact mappings_listed. Qed.
Print Assumptions C95_mappings.

(** C95.  The text of a mapping has a line for each key registered, in the order of first
    registration, with the alias last registered; that of the facility has all mappings. *)
Theorem C95_texts : forall h, forallb global_call h = true ->
  (forall n l m, sget n (g_maps (nrun h)) = Some l -> nth_error (g_heap (nrun h)) l = Some m -> nm_str m = map_text n h)
  /\ gm_str (nrun h) = py "Global attribute name map." ++ [10; 10]%N ++ py "Contained maps:" ++ [10; 10]%N
       ++ flat_map (fun n => map_text n h ++ [10; 10]%N) (names_met h).
Proof. exact texts_shown. Qed.
Print Assumptions C95_texts.

Example C95_example :
  let h := [NGlobal (py "DE") (KStr (py "a")) (PStr (py "x")); NGet (py "FR");
            NGlobal (py "DE") (KStr (py "b")) (PStr (py "y")); NGlobal (py "EN") (KOther) (PStr (py "q"));
            NGlobal (py "DE") (KStr (py "a")) (PStr (py "z")); NGet (py "DE")] in
  forallb global_call h = true
  /\ gm_names (nrun h) = [py "EN"; py "DE"; py "FR"] /\ gm_available (nrun h) = [0; 1; 2]
  /\ gm_str (nrun h) = py "Global attribute name map.

Contained maps:

Attribute name map: EN

Attribute name map: DE
a -> z
b -> y

Attribute name map: FR

"
  /\ gm_names (nrun (NNew (py "PT") :: h)) = [py "EN"; py "DE"; py "FR"]
  /\ gm_available (nrun (NNew (py "PT") :: h)) = [0; 2; 3].
Proof. repeat split. Qed.
