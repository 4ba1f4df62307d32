(** Properties C47-C51 and C56: cloning, creation and sharing. *)
From Coq Require Import String NArith ZArith List Bool Lia SpecFloat.
From Verif Require Import Base.PyBase Base.PyDate Base.PyVal Model.Attr Model.Log Model.Heap
  Spec.Typing Spec.Clone Proofs.BaseFacts Proofs.CloneFacts Proofs.EditFacts Proofs.CreateFacts
  Proofs.CloneMain Proofs.AttrFacts.
Import ListNotations.

(** A small heap: an event with a name and a cost, in a trace, in a log. *)
Definition demo_heap : st := mk_st
  [ KMap [];                                                                            (* 0 *)
    KAttr CLiteral (py "concept:name") None (PStr (py "a")) [] 0;                       (* 1 *)
    KAttr CContinuous (py "cost:total") None (PFloat (S754_finite false 3 0)) [] 0;     (* 2 *)
    KMap [(py "concept:name", 1); (py "cost:total", 2)];                                (* 3 *)
    KEvent 7%N 3;                                                                       (* 4 *)
    KMap [(py "concept:name", 1)];                                                      (* 5 *)
    KTrace 5 [4; 4];                                                                    (* 6 *)
    KClfs [mk_cl (py "c") [py "concept:name"]];                                         (* 7 *)
    KAttrs [1];                                                                         (* 8 *)
    KAttrs [2; 1];                                                                      (* 9 *)
    KFeat [(py "xes.version", PStr (py "1.0"))];                                        (* 10 *)
    KExts [mk_xext (py "Concept") (py "concept") (py "u")];                             (* 11 *)
    KLog (mk_lc 5 [6; 6] 7 8 9 None 10 11)                                              (* 12 *)
  ] 0.

Lemma demo_wf : heap_wf demo_heap.
Proof.
  unfold heap_wf, demo_heap; cbn [cells].
  repeat (apply Forall_cons; [split; [cbn; repeat (apply Forall_cons; [unfold in_heap; cbn; lia|]); apply Forall_nil
                                     | cbn; try exact I; unfold dict_wf; cbn;
                                       repeat (constructor; [cbn; intuition discriminate|]); constructor]|]).
  apply Forall_nil.
Qed.

(** C47.  [event.clone()] never fails.  The copy has an id drawn during the call, a map with
    the same keys and the same attribute objects, and shares no structural object with the
    original.  Nothing that existed before is changed. *)
Theorem C47_clone : forall (draw : nat -> N) s e i d, heap_wf s -> event_view s e = Some (i, d) ->
  exists e' s' i', event_clone draw e s = Ok (e', s')
    /\ event_view s' e' = Some (i', d) /\ drawn_between draw s s' [i']
    /\ (forall a c, read s a = Some c -> read s' a = Some c)
    /\ heap_wf s' /\ in_heap s' e /\ in_heap s' e' /\ separate s' e e'.
Proof. exact event_clone_main. Qed.
Print Assumptions C47_clone.

Example C47_example : let draw := fun k => N.of_nat (100 + k) in
  event_view demo_heap 4 = Some (7%N, [(py "concept:name", 1); (py "cost:total", 2)])
  /\ exists e' s', event_clone draw 4 demo_heap = Ok (e', s')
     /\ event_view s' e' = Some (101%N, [(py "concept:name", 1); (py "cost:total", 2)]).
Proof. cbv zeta. split; [reflexivity|]. eexists _, _. split; reflexivity. Qed.

(** C47, C48.  Two separate elements: whatever is done to one of them and the objects that
    belong to it (and to new objects), as long as nothing of the other one is inserted
    into it, the other one still has the same content, all attribute objects keep their
    values, and the two stay separate. *)
Theorem C47_edits_invisible : forall A B s s',
  heap_wf s -> in_heap s A -> in_heap s B -> separate s A B -> edits A B s s' ->
  log_view s' A = log_view s A /\ trace_view s' A = trace_view s A
  /\ event_view s' A = event_view s A
  /\ (forall a c k e v l m, read s a = Some (KAttr c k e v l m) ->
                            read s' a = Some (KAttr c k e v l m))
  /\ separate s' A B.
Proof. exact edits_invisible. Qed.
Print Assumptions C47_edits_invisible.

(** Removing the name from a copy and giving it another map. *)
Example C47_edits_example : let draw := fun k => N.of_nat (100 + k) in
  exists e' s' s'', event_clone draw 4 demo_heap = Ok (e', s')
    /\ edits 4 e' s' s''
    /\ event_view s'' e' = Some (101%N, [(py "cost:total", 1)])
    /\ event_view s'' 4 = Some (7%N, [(py "concept:name", 1); (py "cost:total", 2)]).
Proof.
  cbv zeta.
  eexists _, _, _. split; [reflexivity|]. split.
  - eapply (edits_op _ _ _ _ _ (OpPut (py "cost:total") 1) 16).
    + eapply (edits_op _ _ _ _ _ (OpDel (py "concept:name")) 16).
      * apply edits_done.
      * eapply reach_step; [apply reach_refl|]. eexists; split; [reflexivity|]. now left.
      * intros x [].
      * reflexivity.
    + eapply reach_step; [apply reach_refl|]. eexists; split; [reflexivity|]. now left.
    + intros x [].
    + reflexivity.
  - split; reflexivity.
Qed.

(** C47.  Changing the value of an attribute object shows through every event that has it
    in its map (so through the original and the copy alike), and nowhere else. *)
Theorem C47_shared_values : forall s a v s' e i d k, attr_set_value a v s = Ok s' ->
  event_view s e = Some (i, d) ->
  event_view s' e = Some (i, d)
  /\ (sget k d = Some a -> event_value s' e k = Some v)
  /\ (sget k d <> Some a -> event_value s' e k = event_value s e k).
Proof. exact set_value_shared. Qed.
Print Assumptions C47_shared_values.

Example C47_shared_example : let draw := fun k => N.of_nat (100 + k) in
  exists e' s' s'', event_clone draw 4 demo_heap = Ok (e', s')
    /\ attr_set_value 1 (PStr (py "b")) s' = Ok s''
    /\ event_value s'' 4 (py "concept:name") = Some (PStr (py "b"))
    /\ event_value s'' e' (py "concept:name") = Some (PStr (py "b")).
Proof. cbv zeta. eexists _, _, _. repeat split; reflexivity. Qed.

(** C47.  Every attribute object but a list or container has a value to be changed; for those
    it is an AttributeError. *)
Theorem C47_set_value : forall s a c k x v l m w, read s a = Some (KAttr c k x v l m) ->
  match attr_set_value a w s with
  | Ok s' => (c <> CList /\ c <> CContainer) /\ read s' a = Some (KAttr c k x w l m)
  | Raise y => (c = CList \/ c = CContainer) /\ y = AttributeError
  end.
Proof.
  intros s a c k x v l m w H. unfold attr_set_value. rewrite H.
  destruct c; cbn [is_collection]; auto; (split; [split; discriminate|]);
    apply read_write_same; unfold read in H; apply nth_error_Some; congruence.
Qed.
Print Assumptions C47_set_value.

(** C48.  Cloning a trace never fails and copies its structure; all events get new ids. *)
Theorem C48_trace : forall (draw : nat -> N) s t v, heap_wf s -> trace_view s t = Some v ->
  exists t' s' v', trace_clone draw t s = Ok (t', s')
    /\ trace_view s' t' = Some v' /\ trace_shape v' = trace_shape v
    /\ drawn_between draw s s' (trace_ids v')
    /\ (forall a c, read s a = Some c -> read s' a = Some c)
    /\ heap_wf s' /\ in_heap s' t /\ in_heap s' t' /\ separate s' t t'.
Proof. exact trace_clone_main. Qed.
Print Assumptions C48_trace.

(** C48.  The same for a log, with classifiers, global attributes, features and extensions.
    The cached info is not copied.  With C47_edits_invisible: later edits of the copy leave
    the original unchanged, and the other way round. *)
Theorem C48_log : forall (draw : nat -> N) s l v, heap_wf s -> log_view s l = Some v ->
  exists l' s' v', log_clone draw l s = Ok (l', s')
    /\ log_view s' l' = Some v' /\ log_shape v' = log_shape v
    /\ drawn_between draw s s' (log_ids v')
    /\ (forall a c, read s a = Some c -> read s' a = Some c)
    /\ (exists x, get_log s' l' = Ok x /\ lc_info x = None)
    /\ heap_wf s' /\ in_heap s' l /\ in_heap s' l' /\ separate s' l l'.
Proof. exact log_clone_main. Qed.
Print Assumptions C48_log.

(** C48, both directions: after cloning, edits of the copy leave the original as it was
    before cloning, and edits of the original leave the copy as it was made. *)
Theorem C48_independent : forall (draw : nat -> N) s l v l' s' s'',
  heap_wf s -> log_view s l = Some v -> log_clone draw l s = Ok (l', s') ->
  (edits l l' s' s'' -> log_view s'' l = Some v)
  /\ (edits l' l s' s'' -> log_view s'' l' = log_view s' l').
Proof.
  intros draw s l v l' s' s'' W V E.
  destruct (log_clone_main draw s l v W V)
    as (l2 & s2 & v2 & E2 & V2 & _ & _ & K & _ & W2 & I1 & I2 & S2).
  rewrite E in E2. injection E2 as <- <-. split; intros Ed.
  - destruct (edits_invisible l l' s' s'' W2 I1 I2 S2 Ed) as [-> _].
    destruct (log_clone_own draw l v s W V) as (l3 & s3 & E3 & X & _).
    rewrite E in E3. injection E3 as <- <-.
    rewrite <- V. apply log_view_local. intros x R.
    pose proof (reach_in_heap _ _ _ (heap_wf_closed _ W) (view_in_heap_log _ _ _ V) R) as H.
    destruct (read s x) eqn:Rx; [now apply K|].
    unfold read in Rx. apply nth_error_None in Rx. unfold in_heap in H. lia.
  - now destruct (edits_invisible l' l s' s'' W2 I2 I1 (separate_sym _ _ _ S2) Ed) as [-> _].
Qed.
Print Assumptions C48_independent.

Example C48_example : let draw := fun k => N.of_nat (100 + k) in
  option_map log_ids (log_view demo_heap 12) = Some [7; 7; 7; 7]%N
  /\ (let! p := log_clone draw 12 demo_heap in
      Ok (option_map log_ids (log_view (snd p) (fst p)))) = Ok (Some [101; 103; 105; 107]%N)
  /\ (let! p := log_clone draw 12 demo_heap in
      Ok (option_map log_shape (log_view (snd p) (fst p))))
     = Ok (option_map log_shape (log_view demo_heap 12)).
Proof. cbv zeta. repeat split; vm_compute; reflexivity. Qed.

(** C49.  A clone of an attribute that is no collection has the same class, key, value and
    extension, no nested attributes, and is equal to the original (a NaN is equal to
    nothing). *)
Theorem C49_clone : forall (FIO : FloatIO) a, well_typed a -> is_collection (a_cls a) = false ->
  exists b, attr_clone a = Ok b /\ a_cls b = a_cls a /\ a_key b = a_key a /\ a_val b = a_val a
    /\ a_ext b = a_ext a /\ a_meta b = []
    /\ (a_val a <> PFloat S754_nan -> attr_eq false a b = true /\ attr_eq false b a = true).
Proof. exact attr_clone_main. Qed.
Print Assumptions C49_clone.

(** C49.  Collections cannot be cloned. *)
Theorem C49_collections : forall a, is_collection (a_cls a) = true ->
  attr_clone a = Raise AttributeError.
Proof. intros [[] k e v l m] H; try discriminate H; reflexivity. Qed.
Print Assumptions C49_collections.

Example C49_example :
  let inner := mk_attr CDiscrete (py "n") None (PInt 3) [] [] in
  let a := mk_attr CID (py "id") None (PXid 5) [] [(py "n", inner)] in
  well_typed a /\ attr_clone a = Ok (mk_attr CID (py "id") None (PXid 5) [] [])
  /\ attr_clone (mk_attr CList (py "l") None PNone [inner] []) = Raise AttributeError.
Proof. cbv zeta. repeat split. Qed.

(** C50.  However an element is created: a non-empty map passed is used itself, otherwise
    the element gets a map that did not exist before and is empty.  Nothing else changes.
    [dflt] is the map created once as the default argument of XElement. *)
Theorem C50_creation : forall (draw : nat -> N) dflt k arg s b,
  read s dflt = Some (KMap []) -> map_truth s arg = Ok b ->
  exists m s', construct draw dflt k arg s = Ok (m, s')
    /\ (forall a c, read s a = Some c -> read s' a = Some c)
    /\ (if passes_map k b then arg = Some m else ~ in_heap s m /\ map_view s' m = Some []).
Proof. exact construct_main. Qed.
Print Assumptions C50_creation.

(** C50.  In every program that creates elements and edits their maps, the default map stays
    empty and is nobody's map, and an element shares the map of an earlier one only if it
    was passed a non-empty map. *)
Theorem C50_programs : forall (draw : nat -> N) dflt s cs w,
  read s dflt = Some (KMap []) ->
  fold_res (run_cmd draw dflt) cs (mk_w s []) = Ok w ->
  map_view (w_st w) dflt = Some []
  /\ (forall i m g, nth_error (w_elems w) i = Some (m, g) -> m <> dflt)
  /\ (forall i j m g g', i < j -> nth_error (w_elems w) i = Some (m, g) ->
        nth_error (w_elems w) j = Some (m, g') -> g' = true).
Proof. exact program_main. Qed.
Print Assumptions C50_programs.

(** Two elements with the default, one filled and passed on, one given the empty map. *)
Example C50_example :
  (let! w := fold_res (run_cmd (fun k => N.of_nat k) 0)
    [CNew NewElementDefault MNone; CNew NewElementDefault MNone; CPut 0 (py "k") 1;
     CNew NewTrace (MOf 0); CNew (FactoryEvent None) (MOf 1); CPut 2 (py "j") 1]
    (mk_w demo_heap []) in
   Ok (w_elems w, map_view (w_st w) 13, map_view (w_st w) 14))
  = Ok ([(13, false); (14, false); (13, true); (17, false)],
        Some [(py "k", 1); (py "j", 1)], Some []).
Proof. vm_compute. reflexivity. Qed.

(** C51.  The identity passed to create_event is used exactly when a non-empty map is passed
    as well; otherwise a new one is drawn. *)
Theorem C51_identity : forall (draw : nat -> N) s attribute identity b,
  map_truth s attribute = Ok b ->
  exists e s' i m, create_event draw attribute identity s = Ok (e, s')
    /\ get_event s' e = Ok (i, m)
    /\ (if b then attribute = Some m else ~ in_heap s m)
    /\ match b, identity with
       | true, Some x => i = x /\ drawn s' = drawn s
       | _, _ => i = draw (drawn s) /\ drawn s' = S (drawn s)
       end.
Proof. exact create_event_main. Qed.
Print Assumptions C51_identity.

Example C51_example : let draw := fun k => N.of_nat (100 + k) in
  (exists e s', create_event draw (Some 3) (Some 42%N) demo_heap = Ok (e, s')
     /\ get_event s' e = Ok (42%N, 3))
  /\ (exists e s', create_event draw (Some 0) (Some 42%N) demo_heap = Ok (e, s')
     /\ get_event s' e = Ok (100%N, 14)).
Proof. cbv zeta. split; eexists _, _; split; reflexivity. Qed.

(** C56.  get_extensions of an attribute, an event or a trace is the empty set. *)
Theorem C56_attribute : forall a, attr_get_extensions a = Ok [].
Proof. exact attr_get_extensions_nil. Qed.
Print Assumptions C56_attribute.

Theorem C56_element : forall m : sdict attr, map_get_extensions m [] = Ok [].
Proof. exact map_get_extensions_nil. Qed.
Print Assumptions C56_element.

Example C56_example :
  let x := mk_xext (py "Concept") (py "concept") (py "u") in
  let a := mk_attr CLiteral (py "concept:name") (Some x) (PStr (py "v")) [] [] in
  map_get_extensions [(py "concept:name", mk_attr CLiteral (py "concept:name") (Some x) (PStr (py "v")) []
                         [(py "concept:name", a)])] [] = Ok [].
Proof. reflexivity. Qed.
