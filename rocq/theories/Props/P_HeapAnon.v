(** The anonymiser on objects: C114, /repo/example/Anonymize_a_log.py. *)
From Coq Require Import String NArith List Bool Lia.
From Verif Require Import Base.PyBase Base.PyVal Model.Attr Model.Log Model.Heap Model.HeapAnon Model.Examples
  Spec.Clone Spec.Transform Spec.HeapAnon Proofs.HeapAnonFacts.
Import ListNotations.

(** ** C114 *)

(** A log of two traces.  The resource of the first event is also a global of events, and both traces
    have the same event object. *)
Definition staff_heap : st := mk_st
  [ KMap [];                                                                            (* 0 *)
    KAttr CLiteral (py "org:resource") None (PStr (py "Ada")) [] 0;                     (* 1 *)
    KAttr CLiteral (py "concept:name") None (PStr (py "a")) [] 0;                       (* 2 *)
    KMap [(py "concept:name", 2); (py "org:resource", 1)];                              (* 3 *)
    KEvent 7%N 3;                                                                       (* 4 *)
    KMap [(py "concept:name", 2)];                                                      (* 5 *)
    KTrace 5 [4];                                                                       (* 6 *)
    KTrace 5 [4; 4];                                                                    (* 7 *)
    KClfs [];                                                                           (* 8 *)
    KAttrs [];                                                                          (* 9 *)
    KAttrs [1];                                                                         (* 10 *)
    KFeat [];                                                                           (* 11 *)
    KExts [];                                                                           (* 12 *)
    KLog (mk_lc 5 [6; 7] 8 9 10 None 11 12)                                             (* 13 *)
  ] 0.
Definition staff_view : log_content :=
  let e := (7%N, [(py "concept:name", 2); (py "org:resource", 1)]) in
  let t := [(py "concept:name", 2)] in
  mk_lv t [(t, [e]); (t, [e; e])] [] [] [1] [] [].

(** Only the values of resource objects among the globals and among the attributes of traces and
    events change: no other cell does, whoever else has a resource object.  The log has the same
    structure and objects. *)
Theorem C114_effect s l v s' : log_view s l = Some v -> anonymize_at l s = Ok s' ->
  (forall a, veiled_cell (looked_at v) a (read s a) (read s' a)) /\ log_view s' l = Some v.
Proof.
  intros V H. rewrite (anonymize_one s l v V) in H. split; [exact (effect _ _ _ H)|].
  rewrite (alike_log s s' l (alike_fold _ _ _ H)). exact V.
Qed.
Print Assumptions C114_effect.

(** It works if all of these are attributes and no resource is a list or a container; otherwise there
    is an [AttributeError]. *)
Theorem C114_outcome s l v : log_view s l = Some v ->
  match anonymize_at l s with
  | Ok _ => forall a, In a (looked_at v) -> is_attr (read s a) /\ ~ stubborn (read s a)
  | Raise x => x = AttributeError /\ exists a, In a (looked_at v) /\ (~ is_attr (read s a) \/ stubborn (read s a))
  end.
Proof. intros V. rewrite (anonymize_one s l v V). exact (outcome (looked_at v) s). Qed.
Print Assumptions C114_outcome.

(** Anonymising a clone does to all objects what anonymising the log does. *)
Theorem C114_clone draw s l v l' s' : heap_wf s -> log_view s l = Some v -> log_clone draw l s = Ok (l', s') ->
  log_view s' l = Some v /\ anonymize_at l' s' = anonymize_at l s'.
Proof. exact (clone_anon draw s l v l' s'). Qed.
Print Assumptions C114_clone.

(** Anonymising again changes no object. *)
Theorem C114_again s l v s' : log_view s l = Some v -> anonymize_at l s = Ok s' -> anonymize_at l s' = Ok s'.
Proof. exact (anon_again s l v s'). Qed.
Print Assumptions C114_again.

(** Of another log only what the two have in common changes.  If that is all of it, such as for a
    log that was filtered (filter_compress_log.py:28-47 puts the same traces into a clone), it is
    anonymous, too. *)
Theorem C114_other s l v m w s' : log_view s l = Some v -> log_view s m = Some w -> anonymize_at m s = Ok s' ->
  log_view s' l = Some v
  /\ (incl (looked_at v) (looked_at w) -> anonymize_at l s' = Ok s')
  /\ (forall a, In a (looked_at v) -> ~ In a (looked_at w) -> read s' a = read s a).
Proof. exact (anon_other s l v m w s'). Qed.
Print Assumptions C114_other.

(** A second log with one of the traces. *)
Example C114_other_example :
  let s := mk_st (cells staff_heap ++ [KLog (mk_lc 0 [6] 8 9 9 None 11 12)]) 0 in
  exists v w s', log_view s 14 = Some v /\ log_view s 13 = Some w /\ incl (looked_at v) (looked_at w)
    /\ anonymize_at 13 s = Ok s' /\ s' <> s /\ anonymize_at 14 s' = Ok s'.
Proof.
  cbv zeta. eexists _, _, _. split; [reflexivity|]. split; [reflexivity|]. split.
  { intros a I. cbn in I. cbn. intuition. }
  split; [cbv; reflexivity|]. split; [|cbv; reflexivity]. intros H. apply (f_equal (fun s => read s 1)) in H. discriminate H.
Qed.

(** So it is false that one can clone a log, make the clone anonymous, and have the names in the log. *)
Theorem C114_clone_keeps_names_refuted : exists draw s l v l' s' s2 e, heap_wf s /\ log_view s l = Some v
  /\ log_clone draw l s = Ok (l', s') /\ anonymize_at l' s' = Ok s2
  /\ event_value s e (py "org:resource") = Some (PStr (py "Ada"))
  /\ event_value s2 e (py "org:resource") = Some (PStr (py "UNKNOWN")).
Proof.
  exists (fun k => N.of_nat (100 + k)), staff_heap, 13, staff_view. eexists _, _, _, 4.
  split.
  { unfold heap_wf, staff_heap; cbn [cells].
    repeat (apply Forall_cons; [split; [cbn; repeat (apply Forall_cons; [unfold in_heap; cbn; lia|]); apply Forall_nil
                                       | cbn; try exact I; unfold dict_wf; cbn;
                                         repeat (constructor; [cbn; intuition discriminate|]); constructor]|]).
    apply Forall_nil. }
  split; [reflexivity|]. split; [cbv; reflexivity|]. split; [cbv; reflexivity|]. split; reflexivity.
Qed.
Print Assumptions C114_clone_keeps_names_refuted.

(** On trees (C67, C113) nothing is shared.  That is right also for objects that are shared by
    events, traces and globals, as long as no resource is nested or an attribute of the log. *)
Theorem C114_trees s l v x : log_view s l = Some v -> log_tree s v x -> on_top s v ->
  match anonymize x with
  | Ok x' => exists s', anonymize_at l s = Ok s' /\ log_view s' l = Some v /\ log_tree s' v x'
  | Raise e => anonymize_at l s = Raise e
  end.
Proof. exact (tree_refines s l v x). Qed.
Print Assumptions C114_trees.

(** The condition is needed: if an attribute of the log is also one of an event, it changes, too. *)
Theorem C114_shared_with_log_refuted : exists s l v x x' s', log_view s l = Some v /\ log_tree s v x
  /\ anonymize x = Ok x' /\ anonymize_at l s = Ok s' /\ ~ log_tree s' v x'.
Proof.
  set (hp := [ KMap []; KAttr CLiteral (py "Resource") None (PStr (py "Ada")) [] 0; KMap [(py "Resource", 1)]; KTrace 2 [];
    KClfs []; KAttrs []; KFeat []; KExts []; KLog (mk_lc 2 [3] 4 5 5 None 6 7) ]).
  set (a := mk_attr CLiteral (py "Resource") None (PStr (py "Ada")) [] []).
  set (m := [(py "Resource", a)]).
  exists (mk_st hp 0), 8, (mk_lv [(py "Resource", 1)] [([(py "Resource", 1)], [])] [] [] [] [] []).
  exists (mk_log m [mk_trace m []] [] [] [] [] []).
  eexists _, _. split; [reflexivity|].
  assert (T : attr_tree (mk_st hp 0) 1 a) by (eapply tree_node; [reflexivity|reflexivity|constructor|constructor]).
  assert (M : map_tree (mk_st hp 0) [(py "Resource", 1)] m) by (constructor; [split; [reflexivity|exact T]|constructor]).
  split.
  { split; [exact M|]. split; [constructor; [split; [exact M|constructor]|constructor]|]. repeat split; constructor. }
  split; [reflexivity|]. split; [reflexivity|]. intros (B & _). inversion B as [|? ? ? ? [_ C] _]; subst.
  inversion C as [? ? ? ? ? ? ? ? ? ? R _ _ _]; subst. discriminate R.
Qed.
Print Assumptions C114_shared_with_log_refuted.

(** So it is with one that is nested in another attribute. *)
Theorem C114_nested_refuted : exists s l v x x' s', log_view s l = Some v /\ log_tree s v x
  /\ (forall a, In a (looked_at v) -> ~ In a (map snd (v_attrs v)))
  /\ anonymize x = Ok x' /\ anonymize_at l s = Ok s' /\ ~ log_tree s' v x'.
Proof.
  set (hp := [ KMap []; KAttr CLiteral (py "Resource") None (PStr (py "Ada")) [] 0; KMap [(py "Resource", 1)];
    KAttr CLiteral (py "team") None (PStr (py "A")) [] 2; KMap [(py "team", 3); (py "Resource", 1)]; KTrace 4 [];
    KClfs []; KAttrs []; KFeat []; KExts []; KLog (mk_lc 0 [5] 6 7 7 None 8 9) ]).
  set (a := mk_attr CLiteral (py "Resource") None (PStr (py "Ada")) [] []).
  set (b := mk_attr CLiteral (py "team") None (PStr (py "A")) [] [(py "Resource", a)]).
  set (d := [(py "team", 3); (py "Resource", 1)]). set (m := [(py "team", b); (py "Resource", a)]).
  exists (mk_st hp 0), 10, (mk_lv [] [(d, [])] [] [] [] [] []), (mk_log [] [mk_trace m []] [] [] [] [] []).
  eexists _, _. split; [reflexivity|].
  assert (T : attr_tree (mk_st hp 0) 1 a) by (eapply tree_node; [reflexivity|reflexivity|constructor|constructor]).
  assert (B : attr_tree (mk_st hp 0) 3 b).
  { eapply tree_node; [reflexivity|reflexivity|constructor|]. constructor; [split; [reflexivity|exact T]|constructor]. }
  assert (M : map_tree (mk_st hp 0) d m).
  { constructor; [split; [reflexivity|exact B]|]. constructor; [split; [reflexivity|exact T]|constructor]. }
  split.
  { split; [constructor|]. split; [constructor; [split; [exact M|constructor]|constructor]|]. repeat split; constructor. }
  split; [intros x _ []|]. split; [reflexivity|]. split; [reflexivity|]. intros (_ & F & _).
  inversion F as [|? ? ? ? [E _] _]; subst. inversion E as [|? ? ? ? [_ C] _]; subst.
  inversion C as [? ? ? ? ? ? meta d' ? ? R R' _ G]; subst. assert (Em : meta = 2) by (now injection R). subst meta.
  assert (Ed : d' = [(py "Resource", 1)]) by (now injection R'). subst d'.
  inversion G as [|? ? ? ? [_ H] _]; subst. inversion H as [? ? ? ? ? ? ? ? ? ? Q _ _ _]; subst. discriminate Q.
Qed.
Print Assumptions C114_nested_refuted.

(** Two traces that share an event, whose resource is a global, too. *)
Example C114_trees_example : exists x, log_tree staff_heap staff_view x /\ on_top staff_heap staff_view
  /\ exists x', anonymize x = Ok x' /\ x' <> x.
Proof.
  set (r := mk_attr CLiteral (py "org:resource") None (PStr (py "Ada")) [] []).
  set (n := mk_attr CLiteral (py "concept:name") None (PStr (py "a")) [] []).
  set (t := [(py "concept:name", n)]). set (e := mk_event 7%N [(py "concept:name", n); (py "org:resource", r)]).
  exists (mk_log t [mk_trace t [e]; mk_trace t [e; e]] [] [] [] [r] []).
  assert (R : attr_tree staff_heap 1 r) by (eapply tree_node; [reflexivity|reflexivity|constructor|constructor]).
  assert (K : attr_tree staff_heap 2 n) by (eapply tree_node; [reflexivity|reflexivity|constructor|constructor]).
  assert (M : map_tree staff_heap [(py "concept:name", 2)] t) by (constructor; [split; [reflexivity|exact K]|constructor]).
  assert (E : event_tree staff_heap (7%N, [(py "concept:name", 2); (py "org:resource", 1)]) e).
  { split; [reflexivity|]. constructor; [split; [reflexivity|exact K]|]. constructor; [split; [reflexivity|exact R]|constructor]. }
  split; [|split].
  - split; [exact M|]. split.
    + constructor; [split; [exact M|constructor; [exact E|constructor]]|].
      constructor; [split; [exact M|constructor; [exact E|constructor; [exact E|constructor]]]|constructor].
    + split; [reflexivity|]. split; [reflexivity|]. split; [constructor|]. split; [|reflexivity]. constructor; [exact R|constructor].
  - (* nothing is below anything *)
    assert (B : forall a b, below staff_heap a b -> False).
    { intros a b H. induction H as [a b c k o w l m' Q I|a b c k o w l m' d Q Q' I|a b y _ IH _ _]; [| |exact IH];
        (do 14 (destruct a as [|a]; [discriminate Q || (injection Q as <- <- <- <- <- <-; try destruct I; try (injection Q' as <-; destruct I))|]));
        destruct a; discriminate Q. }
    intros b c k o w l m' I Q H. split; [|intros a _ Z; exact (B a b Z)].
    intros [J|[]]. subst b. injection Q as <- <- <- <- <- <-. destruct H as [H|H]; discriminate H.
  - eexists. split; [reflexivity|]. intros H. discriminate H.
Qed.

Example C114_example : let draw := fun k => N.of_nat (100 + k) in
  log_view staff_heap 13 = Some staff_view
  /\ exists l' s' s2, log_clone draw 13 staff_heap = Ok (l', s') /\ anonymize_at l' s' = Ok s2
     /\ l' <> 13 /\ event_value s2 4 (py "org:resource") = Some (PStr (py "UNKNOWN"))
     /\ event_value s2 4 (py "concept:name") = Some (PStr (py "a"))
     /\ read s2 1 = Some (KAttr CLiteral (py "org:resource") None (PStr (py "UNKNOWN")) [] 0).
Proof. cbv zeta. split; [reflexivity|]. eexists _, _, _.
  split; [cbv; reflexivity|]. split; [cbv; reflexivity|]. split; [discriminate|]. split; [reflexivity|]. split; reflexivity. Qed.
