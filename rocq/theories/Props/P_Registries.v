(** Properties C25-C30: registries, extension manager, name mappings, singletons. *)
From Coq Require Import String NArith ZArith List Bool Lia.
From Verif Require Import Base.PyBase Base.PyVal Model.Attr Model.Registry Model.NameMap
  Spec.Registries Proofs.BaseFacts Proofs.RegistryFacts.
Import ListNotations.

(** C25.  The available elements are exactly those given to the registry, none twice. *)
Theorem C25_available_elements : forall {A} (eqb : A -> A -> bool), equivalence eqb -> forall h,
  all_different eqb (reg_available (reg_run eqb h))
  /\ (forall x, existsb (eqb x) (reg_available (reg_run eqb h)) = existsb (fun o => eqb x (op_element o)) h)
  /\ (forall x, In x (reg_available (reg_run eqb h)) -> In x (map op_element h)).
Proof. exact @registry_available. Qed.
Print Assumptions C25_available_elements.

(** C25.  The default is the one last set, or else the first element registered. *)
Theorem C25_default : forall {A} (eqb : A -> A -> bool), equivalence eqb -> forall h,
  reg_default (reg_run eqb h) = expected_default h
  /\ (forall x, reg_default (reg_run eqb h) = Some x -> existsb (eqb x) (reg_available (reg_run eqb h)) = true).
Proof.
  intros A eqb EQ h. split; [exact (registry_default eqb h)|exact (registry_default_available eqb EQ h)].
Qed.
Print Assumptions C25_default.

Example C25_example :
  equivalence Nat.eqb
  /\ reg_default (reg_run Nat.eqb [RegRegister 4; RegRegister 7; RegRegister 4]) = Some 4
  /\ reg_default (reg_run Nat.eqb [RegRegister 4; RegSetDefault 9; RegRegister 7]) = Some 9
  /\ reg_available (reg_run Nat.eqb [RegRegister 4; RegSetDefault 9; RegRegister 7; RegRegister 4]) = [4; 9; 7]
  /\ reg_default (reg_run Nat.eqb []) = None.
Proof.
  split; [|repeat split].
  split; [apply Nat.eqb_refl|]. split; intros *; rewrite ?Nat.eqb_eq; congruence.
Qed.

(** C26.  Valid indices are those below the number of URIs; [get_index] inverts
    [get_by_index]; later registrations keep indices; the listed URIs differ. *)
Theorem C26_indices : forall {E} (uri : E -> pystr) h,
  (forall i, (exists x, mgr_by_index (mgr_run uri h) i = Some x) <-> (0 <= i < Z.of_nat (List.length (firsts uri h)))%Z)
  /\ (forall i x, mgr_by_index (mgr_run uri h) i = Some x -> mgr_index uri (mgr_run uri h) x = i)
  /\ (forall h' i x, mgr_by_index (mgr_run uri h) i = Some x -> mgr_by_index (mgr_run uri (h ++ h')) i = Some x)
  /\ (forall x, mgr_index uri (mgr_run uri h) x = (-1)%Z <-> ~ In (uri x) (map uri h))
  /\ NoDup (map uri (mg_list (mgr_run uri h))).
Proof.
  intros E uri h. split; [exact (manager_index_range uri h)|]. split; [exact (manager_index_inverse uri h)|].
  split; [exact (manager_index_stable uri h)|]. split; [exact (manager_index_unknown uri h)|exact (manager_distinct uri h)].
Qed.
Print Assumptions C26_indices.

Example C26_example :
  mgr_by_index std_manager 3 = Some ext_lifecycle /\ mgr_index x_uri std_manager ext_lifecycle = 3%Z
  /\ mgr_by_index std_manager 8 = None /\ mgr_by_index std_manager (-1) = None
  /\ mgr_index x_uri std_manager (mk_xext (py "Other") (py "o") (py "urn:o")) = (-1)%Z.
Proof. repeat split. Qed.

(** C27.  By URI the last one registered is found; by name, prefix and index the first
    ones of each URI. *)
Theorem C27_lookups : forall {E} (name prefix uri : E -> pystr) h u n p,
  mgr_by_uri (mgr_run uri h) u = last_with uri u h
  /\ mgr_by_name name (mgr_run uri h) n = find (fun x => str_eqb (name x) n) (firsts uri h)
  /\ mgr_by_prefix prefix (mgr_run uri h) p = find (fun x => str_eqb (prefix x) p) (firsts uri h)
  /\ mg_list (mgr_run uri h) = firsts uri h.
Proof.
  intros. destruct (manager_lookups name prefix uri h u n p) as (A & B & C).
  split; [exact A|]. split; [exact B|]. split; [exact C|exact (manager_list uri h)].
Qed.
Print Assumptions C27_lookups.

(** C27.  An extension registered once whose URI, name and prefix no other has is found by
    all four. *)
Theorem C27_lookups_agree : forall {E} (name prefix uri : E -> pystr) h1 x h2,
  let h := h1 ++ x :: h2 in
  (forall y, In y (h1 ++ h2) -> uri y <> uri x /\ name y <> name x /\ prefix y <> prefix x) ->
  mgr_by_uri (mgr_run uri h) (uri x) = Some x
  /\ mgr_by_name name (mgr_run uri h) (name x) = Some x
  /\ mgr_by_prefix prefix (mgr_run uri h) (prefix x) = Some x
  /\ mgr_by_index (mgr_run uri h) (mgr_index uri (mgr_run uri h) x) = Some x.
Proof. exact @manager_agree. Qed.
Print Assumptions C27_lookups_agree.

Definition other_concept := mk_xext (py "Concept2") (py "c2") (x_uri ext_concept).
Example C27_example :
  let m := mgr_run x_uri (standard_extensions ++ [other_concept]) in
  mgr_by_uri m (x_uri ext_concept) = Some other_concept
  /\ mgr_by_name x_name m (py "Concept") = Some ext_concept
  /\ mgr_by_name x_name m (py "Concept2") = None
  /\ mgr_by_index m 0 = Some ext_concept
  /\ mgr_index x_uri m other_concept = 0%Z.
Proof. repeat split. Qed.

(** The eight standard extensions have different URIs, names and prefixes. *)
Example C27_standard :
  forall x, In x standard_extensions ->
  mgr_by_uri std_manager (x_uri x) = Some x /\ mgr_by_name x_name std_manager (x_name x) = Some x
  /\ mgr_by_prefix x_prefix std_manager (x_prefix x) = Some x.
Proof. intros x I. repeat (destruct I as [<-|I]; [repeat split; vm_compute; reflexivity|]). destruct I. Qed.

(** C28.  A named mapping holds the alias last registered under that name. *)
Theorem C28_last_alias : forall h n k, forallb global_call h = true ->
  named_map (nrun h) n k = last_alias n k h.
Proof. exact names_last_alias. Qed.
Print Assumptions C28_last_alias.

(** C28.  Also with mapping objects and mappings made elsewhere: a registration changes one
    key of one mapping. *)
Theorem C28_frame : forall h l x al l' k, l < List.length (g_heap (nrun h)) ->
  gm_map_of (nrun (h ++ [NRegister l x al])) l' (KStr k)
  = match al, arg_key x with
    | PStr s, Some k' => if Nat.eqb l l' && str_eqb k' k then Some s else gm_map_of (nrun h) l' (KStr k)
    | _, _ => gm_map_of (nrun h) l' (KStr k)
    end.
Proof. exact names_frame. Qed.
Print Assumptions C28_frame.

Example C28_example :
  let h := [NGlobal (py "DE") (KStr (py "a")) (PStr (py "x")); NGet (py "FR");
            NGlobal (py "EN") (KStr (py "a")) (PStr (py "y"));
            NGlobal (py "DE") (KAttr (mk_attr CLiteral (py "a") None PNone [] [])) (PStr (py "z"));
            NGlobal (py "DE") (KStr (py "b")) (PInt 3)] in
  forallb global_call h = true
  /\ named_map (nrun h) (py "DE") (py "a") = Some (py "z") /\ named_map (nrun h) (py "EN") (py "a") = Some (py "y")
  /\ named_map (nrun h) (py "FR") (py "a") = None /\ named_map (nrun h) (py "DE") (py "b") = None
  /\ gm_map_of (nrun (h ++ [NRegister 2 (KStr (py "a")) (PStr (py "w"))])) 2 (KStr (py "a")) = Some (py "w").
Proof. repeat split. Qed.

(** C29.  [map_safely] falls back to the standard mapping and to the key; a mapping name
    must be known. *)
Theorem C29_map_safely : forall h x k, arg_key x = Some k ->
  (forall l, gm_safely (nrun h) x (MObj l)
     = Some match gm_map_of (nrun h) l (KStr k) with
            | Some al => al
            | None => match named_map (nrun h) (py "EN") k with Some al => al | None => k end
            end)
  /\ (forall n, gm_safely (nrun h) x (MName n)
     = if existsb (str_eqb n) (py "EN" :: flat_map names h)
       then Some match named_map (nrun h) n k with
                 | Some al => al
                 | None => match named_map (nrun h) (py "EN") k with Some al => al | None => k end
                 end
       else None).
Proof. exact names_safe. Qed.
Print Assumptions C29_map_safely.

(** C29.  [map] of the facility is the standard mapping, which is the one called EN. *)
Theorem C29_standard_mapping : forall h k,
  gm_map (nrun h) (KStr k) = named_map (nrun h) (py "EN") k
  /\ (forall a, gm_map (nrun h) (KAttr a) = gm_map (nrun h) (KStr (a_key a))).
Proof. exact names_standard. Qed.
Print Assumptions C29_standard_mapping.

Example C29_example :
  let h := [NGlobal (py "EN") (KStr (py "a")) (PStr (py "A")); NGlobal (py "DE") (KStr (py "b")) (PStr (py "B"))] in
  gm_safely (nrun h) (KStr (py "a")) (MName (py "DE")) = Some (py "A")
  /\ gm_safely (nrun h) (KStr (py "b")) (MName (py "DE")) = Some (py "B")
  /\ gm_safely (nrun h) (KStr (py "c")) (MName (py "DE")) = Some (py "c")
  /\ gm_safely (nrun h) (KStr (py "c")) (MName (py "FR")) = None
  /\ gm_safely (nrun h) (KStr (py "b")) (MObj 1) = Some (py "B").
Proof. repeat split. Qed.

(** C30.  Calls that return give the same object exactly if they are of the same singleton
    class; no class is initialised twice; if no initialisation raises, every call returns. *)
Theorem C30_singletons : forall cs,
  (forall j k c d a b, nth_error cs j = Some c -> nth_error cs k = Some d ->
     nth_error (snd (sg_run sg_empty cs)) j = Some (Ok a) -> nth_error (snd (sg_run sg_empty cs)) k = Some (Ok b) ->
     (a = b <-> sc_meta c = sc_meta d))
  /\ NoDup (sg_inits (fst (sg_run sg_empty cs)))
  /\ ((forall d, In d cs -> sc_init d = Ok tt) ->
      forall k c, nth_error cs k = Some c -> exists r, nth_error (snd (sg_run sg_empty cs)) k = Some (Ok r)).
Proof.
  intros cs. split; [exact (singleton_same cs)|]. split; [exact (singleton_once cs)|].
  intros T k c H. exact (singleton_total cs k c H T).
Qed.
Print Assumptions C30_singletons.

Example C30_example :
  sg_run sg_empty [mk_scall 0 0 (Raise PlainException); mk_scall 0 0 (Ok tt); mk_scall 3 3 (Ok tt); mk_scall 0 0 (Raise PlainException)]
  = (mk_sg [(0, 0); (3, 1)] [0; 3] [0; 3], [Raise PlainException; Ok 0; Ok 1; Ok 0]).
Proof. reflexivity. Qed.
